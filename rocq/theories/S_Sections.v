(** * Specification: the sections of an indexed map, moved (C107) *)
From Verif Require Import Base M_Mapping M_MapLib M_Util M_SourceMap M_Consumer M_Indexed S_Consumer S_Indexed.

(** [k] lines further down (up, if negative) *)
Definition down (k : Z) (p : Position) : Position := mkPos (p_line p + k) (p_column p).
Definition section_down (k : Z) (s : JSection) : JSection :=
  mkJSection (down k (js_offset s)) (js_map s) (js_url s).
(** The map with all its sections moved *)
Definition sections_down (k : Z) (j : SourceMapJson) : SourceMapJson :=
  mkSMJ (smj_version j) (smj_sources j) (smj_names j) (smj_mappings j) (smj_file j) (smj_source_root j)
        (smj_sources_content j) (option_map (map (section_down k)) (smj_sections j)).

(** Lines are not negative, before and after, and there is a next one. *)
Definition line_room (k : Z) (s : JSection) : Prop :=
  0 <= p_line (js_offset s) < i32_max /\ 0 <= p_line (js_offset s) + k < i32_max.

(** The same call about the moved map *)
Definition call_down (k : Z) (q : iquery) : iquery :=
  match q with IOriginal g b => IOriginal (down k g) b | other => other end.

Section Sections.
  Context (md : mode) (L : MapLib) (U : UrlLib).

  (** All calls are answered alike by the two consumers, [k] lines further down by the second. *)
  Record answers_down (k : Z) (b c : IndexedConsumer L) : Prop := {
    ad_original : forall g bias,
      answer (ic_original_position_for md L c (down k g) bias) = answer (ic_original_position_for md L b g bias);
    ad_sources : answer (ic_get_sources L c) = answer (ic_get_sources L b);
    ad_has : answer (ic_has_contents_of_all_sources L c) = answer (ic_has_contents_of_all_sources L b);
    ad_content : forall s p, answer (ic_source_content_for md L U c s p) = answer (ic_source_content_for md L U b s p);
    ad_generated : forall s line column bias,
      answer (ic_generated_position_for md L U c s line column bias)
      = answer (ic_generated_position_for md L U b s line column bias);
    ad_all : forall s line column, answer (ic_all_generated_position_for md L U c s line column)
      = answer (ic_all_generated_position_for md L U b s line column);
    ad_each : forall o, answer (ic_each_mapping md L c o) = answer (ic_each_mapping md L b o) }.

  (** Opening and the calls end alike. *)
  Inductive end_down (k : Z) : res (IndexedConsumer L) -> res (IndexedConsumer L) -> Prop :=
  | down_panic : forall p, end_down k (Panic p) (Panic p)
  | down_consumers : forall b c, answers_down k b c -> end_down k (Ok b) (Ok c).
End Sections.
