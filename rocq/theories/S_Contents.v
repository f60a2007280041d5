(** * Vocabulary for source contents of a generator with a source root *)
From Verif Require Import Base M_Mapping S_Mapping S_List S_Generator.

(** The history without its set_source_content calls. *)
Fixpoint without_content (ops : list gen_op) : list gen_op :=
  match ops with
  | [] => []
  | GContent _ _ :: ops' => without_content ops'
  | op :: ops' => op :: without_content ops'
  end.

(** The same history with every file of a set_source_content call renamed. *)
Fixpoint renamed (name : str -> str) (ops : list gen_op) : list gen_op :=
  match ops with
  | [] => []
  | GContent s c :: ops' => GContent (name s) c :: renamed name ops'
  | op :: ops' => op :: renamed name ops'
  end.
