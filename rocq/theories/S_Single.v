(** * Specification: a map as the only section of an indexed map (C108) *)
From Verif Require Import Base M_Mapping M_MapLib M_Util M_SourceMap M_Consumer M_Indexed S_Consumer S_Indexed.

(** The indexed map [o] has [j] as its only section, at [offset]. *)
Definition wraps (o : SourceMapJson) (offset : Position) (j : SourceMapJson) : Prop :=
  smj_version o = 3 /\ smj_sections o = Some [mkJSection offset j None].

Definition natural_pos (p : Position) : Prop := 0 <= p_line p < i32_max /\ 0 <= p_column p < i32_max.

(** [starts_before], decided *)
Definition is_inside (offset g : Position) : bool :=
  (p_line offset + 1 <? p_line g) || ((p_line offset + 1 =? p_line g) && (p_column offset <? p_column g)).

(** What a call on the indexed map asks of the section's map *)
Definition asks_inside (offset : Position) (q : iquery) : list query :=
  match q with
  | IOriginal g b => if is_inside offset g then [QOriginal (relative_position offset g) b] else []
  | IContent s p => [QContent s p]
  | ISpans => [QSpans]
  | _ => []
  end.

(** Lines from 1, columns from 0, as in the field types *)
Definition real_position (g : Position) : Prop := 1 <= p_line g <= i32_max /\ 0 <= p_column g <= i32_max.
Definition real_call (q : iquery) : Prop := match q with IOriginal g _ => real_position g | _ => True end.

Section Single.
  Context (md : mode) (L : MapLib) (U : UrlLib).

  (** How the indexed consumer [c] answers, given the consumer [b] of the section's map *)
  Record answers_through (offset : Position) (j : SourceMapJson) (b : BasicConsumer L) (c : IndexedConsumer L) : Prop := {
    at_inside : forall g bias, real_position g -> starts_before offset g ->
      answer (ic_original_position_for md L c g bias) = answer (bc_original_position_for md L b (relative_position offset g) bias);
    at_outside : forall g bias, real_position g -> ~ starts_before offset g ->
      answer (ic_original_position_for md L c g bias) = Ok None;
    at_sources : exists l, smj_sources j = Some l /\ answer (ic_get_sources L c) = Ok l;
    at_has : answer (ic_has_contents_of_all_sources L c) = bc_has_contents_of_all_sources L b;
    at_content : forall s p, answer (ic_source_content_for md L U c s p)
      = match answer (bc_source_content_for md L U b s p) with
        | Ok None => if match p with Some false => false | _ => true end then Panic PMissing else Ok None
        | r => r
        end;
    at_generated : forall s line column bias, answer (ic_generated_position_for md L U c s line column bias) = Panic PBorrowMut;
    at_all : forall s line column, answer (ic_all_generated_position_for md L U c s line column) = Panic PBorrowMut;
    at_each : forall o, answer (ic_each_mapping md L c o) = Panic PBorrow }.
End Single.
