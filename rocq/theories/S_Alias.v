(** * Specification: names that find the same source (C103) *)
From Verif Require Import Base M_Mapping M_MapLib M_Util M_SourceMap M_Consumer M_Indexed S_Consumer S_Indexed.

Section Alias.
  Context (md : mode) (L : MapLib) (U : UrlLib).

  (** The two names find the same in the consumer: the same index, nothing, or the same panic. *)
  Definition same_find (c0 : BasicConsumer L) (s t : str) : Prop :=
    answer (bc_find_source_index md L U c0 s) = answer (bc_find_source_index md L U c0 t).

  (** The same call, under another name of the source *)
  Inductive renamed (c0 : BasicConsumer L) : query -> query -> Prop :=
  | renamed_not : forall q, renamed c0 q q
  | renamed_generated : forall s t line column b, same_find c0 s t ->
      renamed c0 (QGenerated s line column b) (QGenerated t line column b)
  | renamed_all : forall s t line column, same_find c0 s t ->
      renamed c0 (QAll s line column) (QAll t line column)
  | renamed_content : forall s t p, same_find c0 s t ->
      renamed c0 (QContent s p) (QContent t p).

  (** All calls are answered alike by the two consumers, under either name. *)
  Record same_answers (c0 c c' : BasicConsumer L) : Prop := {
    sa_sources : bc_get_sources L c = bc_get_sources L c';
    sa_has : bc_has_contents_of_all_sources L c = bc_has_contents_of_all_sources L c';
    sa_original : forall g b,
      answer (bc_original_position_for md L c g b) = answer (bc_original_position_for md L c' g b);
    sa_each : forall o, answer (bc_each_mapping L c o) = answer (bc_each_mapping L c' o);
    sa_generated : forall s t line column b, same_find c0 s t ->
      answer (bc_generated_position_for md L U c s line column b)
      = answer (bc_generated_position_for md L U c' t line column b);
    sa_all : forall s t line column, same_find c0 s t ->
      answer (bc_all_generated_position_for md L U c s line column)
      = answer (bc_all_generated_position_for md L U c' t line column);
    sa_content : forall s t p, same_find c0 s t ->
      answer (bc_source_content_for md L U c s p) = answer (bc_source_content_for md L U c' t p) }.

  (** The two histories end alike. *)
  Inductive same_end (c0 : BasicConsumer L) : res (BasicConsumer L) -> res (BasicConsumer L) -> Prop :=
  | same_panic : forall p, same_end c0 (Panic p) (Panic p)
  | same_consumer : forall c c', same_answers c0 c c' -> same_end c0 (Ok c) (Ok c').

  (** The two names find the same in every section. *)
  Definition same_find_in_sections (c0 : IndexedConsumer L) (s t : str) : Prop :=
    Forall (fun x => same_find (sec_consumer x) s t) (sections_of L c0).
End Alias.
