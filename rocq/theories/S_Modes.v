(** * Builds with and without overflow checks *)
From Verif Require Import Base M_Mapping M_Util M_MapLib M_Consumer M_Indexed S_Consumer S_Indexed.

(** [checked] and [unchecked] are the results of one call in the two kinds of
    build: they agree unless the checked one reports an overflow. *)
Definition same_unless_overflow {A} (checked unchecked : res A) : Prop :=
  checked = Panic POverflow \/ unchecked = checked.

(** What a call returns to its caller *)
Inductive reply :=
| RMapping (m : option Mapping)
| RPosition (p : option Position)
| RMappings (l : list RawMapping)
| RText (s : option str)
| RSources (l : list str)
| RBool (b : bool)
| RNothing.

Definition basic_reply (md : mode) (L : MapLib) (U : UrlLib) (c : BasicConsumer L) (q : query) : res reply :=
  match q with
  | QOriginal g b => let* a := answer (bc_original_position_for md L c g b) in Ok (RMapping a)
  | QGenerated s l co b => let* a := answer (bc_generated_position_for md L U c s l co b) in Ok (RMapping a)
  | QAll s l co => let* a := answer (bc_all_generated_position_for md L U c s l co) in Ok (RMappings a)
  | QSpans => let* _ := bc_compute_column_spans L c in Ok RNothing
  | QContent s p => let* a := answer (bc_source_content_for md L U c s p) in Ok (RText a)
  | QEach o => let* a := answer (bc_each_mapping L c o) in Ok (RMappings a)
  end.

Definition indexed_reply (md : mode) (L : MapLib) (U : UrlLib) (c : IndexedConsumer L) (q : iquery) : res reply :=
  match q with
  | ISources => let* a := answer (ic_get_sources L c) in Ok (RSources a)
  | IOriginal g b => let* a := answer (ic_original_position_for md L c g b) in Ok (RMapping a)
  | IHasContents => let* a := answer (ic_has_contents_of_all_sources L c) in Ok (RBool a)
  | IContent s p => let* a := answer (ic_source_content_for md L U c s p) in Ok (RText a)
  | IGenerated s l co b => let* a := answer (ic_generated_position_for md L U c s l co b) in Ok (RPosition a)
  | IAll s l co => let* a := answer (ic_all_generated_position_for md L U c s l co) in Ok (RMappings a)
  | ISpans => let* _ := ic_computed_column_spans L c in Ok RNothing
  | IEach o => let* a := answer (ic_each_mapping md L c o) in Ok (RMappings a)
  end.
