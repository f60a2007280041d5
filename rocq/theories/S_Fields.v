(** * Specification: which fields of a map are read (C114) *)
From Verif Require Import Base M_Mapping M_MapLib M_Util M_SourceMap M_Consumer M_Indexed S_Consumer S_Indexed.

(** The same fields, as far as questions about positions and as far as texts are concerned *)
Definition same_places (j j' : SourceMapJson) : Prop :=
  smj_sources j = smj_sources j' /\ smj_source_root j = smj_source_root j'
  /\ smj_names j = smj_names j' /\ smj_mappings j = smj_mappings j'.
Definition same_texts (j j' : SourceMapJson) : Prop :=
  smj_sources j = smj_sources j' /\ smj_source_root j = smj_source_root j'
  /\ smj_sources_content j = smj_sources_content j'.

(** The same fields, as far as any question is concerned *)
Definition same_read (j j' : SourceMapJson) : Prop := same_places j j' /\ same_texts j j'.
(** The same section: its offset, whether it has a url, and the fields of its map *)
Definition same_section (s s' : JSection) : Prop :=
  js_offset s = js_offset s' /\ is_some (js_url s) = is_some (js_url s') /\ same_read (js_map s) (js_map s').

Definition asks_text (q : query) : bool := match q with QContent _ _ => true | _ => false end.

(** Both return, related by [R], or both panic in the same way. *)
Definition alike {A B} (R : A -> B -> Prop) (r : res A) (r' : res B) : Prop :=
  match r, r' with
  | Ok a, Ok a' => R a a'
  | Panic p, Panic p' => p = p'
  | _, _ => False
  end.

Section Fields.
  Context (md : mode) (L : MapLib) (U : UrlLib).

  Record same_place_answers (c c' : BasicConsumer L) : Prop := {
    sp_sources : bc_get_sources L c = bc_get_sources L c';
    sp_original : forall g b, answer (bc_original_position_for md L c g b) = answer (bc_original_position_for md L c' g b);
    sp_generated : forall s line column b, answer (bc_generated_position_for md L U c s line column b)
      = answer (bc_generated_position_for md L U c' s line column b);
    sp_all : forall s line column, answer (bc_all_generated_position_for md L U c s line column)
      = answer (bc_all_generated_position_for md L U c' s line column);
    sp_spans : alike (fun _ _ => True) (bc_compute_column_spans L c) (bc_compute_column_spans L c');
    sp_each : forall o, answer (bc_each_mapping L c o) = answer (bc_each_mapping L c' o) }.

  Record same_text_answers (c c' : BasicConsumer L) : Prop := {
    st_sources : bc_get_sources L c = bc_get_sources L c';
    st_has : bc_has_contents_of_all_sources L c = bc_has_contents_of_all_sources L c';
    st_content : forall s p, answer (bc_source_content_for md L U c s p) = answer (bc_source_content_for md L U c' s p) }.
End Fields.
