(** * Specification: two maps with the same mappings (C106) *)
From Verif Require Import Base M_Mapping M_MapLib M_Util M_SourceMap M_Consumer S_Consumer S_Redo.

Section Twin.
  Context (md : mode) (L : MapLib) (U : UrlLib).

  (** Two consumers whose maps have the same mappings text and contents; the sources and names
      are called something else, by [f] and [n]. *)
  Record twins (f n : str -> str) (b0 c0 : BasicConsumer L) : Prop := {
    tw_text : smj_mappings (bc_source_map c0) = smj_mappings (bc_source_map b0);
    tw_sources : bc_get_sources L c0 = map f (bc_get_sources L b0);
    tw_names : smj_names (bc_source_map c0) = option_map (map n) (smj_names (bc_source_map b0));
    tw_contents : smj_sources_content (bc_source_map c0) = smj_sources_content (bc_source_map b0) }.

  (** The name [s] finds in one consumer what [t] finds in the other: the same index, nothing, or the same panic. *)
  Definition find_alike (b0 c0 : BasicConsumer L) (s t : str) : Prop :=
    answer (bc_find_source_index md L U b0 s) = answer (bc_find_source_index md L U c0 t).

  (** The same call on the other consumer *)
  Inductive counterpart (b0 c0 : BasicConsumer L) : query -> query -> Prop :=
  | same_original_call : forall g b, counterpart b0 c0 (QOriginal g b) (QOriginal g b)
  | same_spans_call : counterpart b0 c0 QSpans QSpans
  | same_each_call : forall o, counterpart b0 c0 (QEach o) (QEach o)
  | same_generated_call : forall s t line column b, find_alike b0 c0 s t ->
      counterpart b0 c0 (QGenerated s line column b) (QGenerated t line column b)
  | same_all_call : forall s t line column, find_alike b0 c0 s t ->
      counterpart b0 c0 (QAll s line column) (QAll t line column)
  | same_content_call : forall s t p, find_alike b0 c0 s t -> counterpart b0 c0 (QContent s p) (QContent t p).

  (** The answer, under the other names *)
  Definition in_other_words (f n : str -> str) (r : res (option Mapping)) : res (option Mapping) :=
    match r with Ok o => Ok (option_map (called f n) o) | Panic p => Panic p end.

  (** All calls are answered alike by the two consumers. *)
  Record twin_answers (f n : str -> str) (b0 c0 b c : BasicConsumer L) : Prop := {
    ta_sources : bc_get_sources L c = map f (bc_get_sources L b);
    ta_has : bc_has_contents_of_all_sources L c = bc_has_contents_of_all_sources L b;
    ta_original : forall g bias, answer (bc_original_position_for md L c g bias)
      = in_other_words f n (answer (bc_original_position_for md L b g bias));
    ta_each : forall o, answer (bc_each_mapping L c o) = answer (bc_each_mapping L b o);
    ta_generated : forall s t line column bias, find_alike b0 c0 s t ->
      answer (bc_generated_position_for md L U c t line column bias)
      = in_other_words f n (answer (bc_generated_position_for md L U b s line column bias));
    ta_all : forall s t line column, find_alike b0 c0 s t ->
      answer (bc_all_generated_position_for md L U c t line column)
      = answer (bc_all_generated_position_for md L U b s line column);
    ta_content : forall s t p, find_alike b0 c0 s t ->
      answer (bc_source_content_for md L U c t p) = answer (bc_source_content_for md L U b s p) }.

  Inductive twin_end (f n : str -> str) (b0 c0 : BasicConsumer L) : res (BasicConsumer L) -> res (BasicConsumer L) -> Prop :=
  | twin_panic : forall p, twin_end f n b0 c0 (Panic p) (Panic p)
  | twin_consumers : forall b c, twin_answers f n b0 c0 b c -> twin_end f n b0 c0 (Ok b) (Ok c).
End Twin.
