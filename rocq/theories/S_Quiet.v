(** * Specification: calls that leave no trace (C109) *)
From Verif Require Import Base M_Mapping M_MapLib M_Util M_SourceMap M_Consumer M_Indexed S_Consumer S_Indexed.

(** Looking up an original position or a content, and reading the mappings in generated order *)
Definition quiet (q : query) : bool :=
  match q with
  | QOriginal _ _ | QContent _ _ | QEach GeneratedOrd => true
  | QGenerated _ _ _ _ | QAll _ _ _ | QSpans | QEach OriginalOrd => false
  end.

(** The history without them *)
Definition loud (qs : list query) : list query := filter (fun q => negb (quiet q)) qs.

(** computed_column_spans is among the calls on an indexed consumer. *)
Definition calls_spans (qs : list iquery) : bool :=
  existsb (fun q => match q with ISpans => true | _ => false end) qs.

Section Quiet.
  Context (md : mode) (L : MapLib) (U : UrlLib).

  (** All calls are answered alike by the two indexed consumers. *)
  Record same_ianswers (c c' : IndexedConsumer L) : Prop := {
    si_sources : answer (ic_get_sources L c) = answer (ic_get_sources L c');
    si_original : forall g b, answer (ic_original_position_for md L c g b) = answer (ic_original_position_for md L c' g b);
    si_has : answer (ic_has_contents_of_all_sources L c) = answer (ic_has_contents_of_all_sources L c');
    si_content : forall s p, answer (ic_source_content_for md L U c s p) = answer (ic_source_content_for md L U c' s p);
    si_generated : forall s line column b, answer (ic_generated_position_for md L U c s line column b)
      = answer (ic_generated_position_for md L U c' s line column b);
    si_all : forall s line column, answer (ic_all_generated_position_for md L U c s line column)
      = answer (ic_all_generated_position_for md L U c' s line column);
    si_spans : (exists d, ic_computed_column_spans L c = Ok d) <-> (exists d, ic_computed_column_spans L c' = Ok d);
    si_each : forall o, answer (ic_each_mapping md L c o) = answer (ic_each_mapping md L c' o) }.
End Quiet.
