(** * Specification for copying a map (C90) *)
From Verif Require Import Base M_SourceMap.

(** The names a map lists; names may be missing in a map. *)
Definition listed_names (j : SourceMapJson) : list str :=
  match smj_names j with Some l => l | None => [] end.
