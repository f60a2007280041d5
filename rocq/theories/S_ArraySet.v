(** * Histories of an ArraySet *)
From Verif Require Import Base M_ArraySet.

(** Calls of add, with their flags. *)
Definition as_run (s : ArraySet) (ops : list (str * bool)) : ArraySet :=
  fold_left (fun s op => as_add s (fst op) (snd op)) ops s.
