(** * Vocabulary for mappings far behind those added before *)
From Verif Require Import Base M_Mapping S_Mapping.

(** [M] is the latest of the positions. *)
Definition latest (l : list Position) (M : Position) : Prop :=
  In M l /\ forall p, In p l -> pos_le p M.

(** More lines before, or on one line more columns before, than an i32 holds *)
Definition far_before (p M : Position) : Prop :=
  i32_max < p_line M - p_line p \/ (p_line M = p_line p /\ i32_max < p_column M - p_column p).

(** A list starts out with an imaginary mapping at line -1 and column -1. *)
Definition places (ms : list Mapping) : list Position := mkPos (-1) (-1) :: map m_generated ms.

(** Each mapping can be compared with the latest one before it. *)
Definition comparable (ms : list Mapping) : Prop :=
  forall before m after M, ms = before ++ m :: after -> latest (places before) M -> ~ far_before (m_generated m) M.

Definition i32_place (m : Mapping) : Prop := in_window i32_min i32_max (m_generated m).
