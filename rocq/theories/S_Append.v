(** * Vocabulary for additions behind everything added before *)
From Verif Require Import Base M_Mapping S_Mapping.

(** Every position in [a] is before every position in [b]. *)
Definition all_behind (a b : list Mapping) : Prop :=
  forall x y, In x a -> In y b -> pos_lt (m_generated x) (m_generated y).

(** [b] is added behind [a]: all in order of generated position; or [b] strictly
    behind [a], which itself may be in any order, and so may [b] if the positions
    in [a] are distinct. *)
Definition appendable (a b : list Mapping) : Prop :=
  gen_sorted (a ++ b) \/ (all_behind a b /\ (gen_sorted b \/ NoDup (map m_generated a))).

(** What follows another mapping starts with a separator. *)
Definition continues (t : str) : Prop := t = [] \/ exists c u, t = c :: u /\ (c = ch "," \/ c = ch ";").
