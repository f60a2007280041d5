(** * The intended order on mappings; independent of the model's comparison *)
From Verif Require Import Base M_Mapping.
From Coq Require Import Sorting.Sorted Sorting.Permutation.

(** Code-point order of strings. *)
Inductive str_lt : str -> str -> Prop :=
| str_lt_nil : forall c s, str_lt [] (c :: s)
| str_lt_head : forall c d s t, (c < d)%N -> str_lt (c :: s) (d :: t)
| str_lt_tail : forall c s t, str_lt s t -> str_lt (c :: s) (c :: t).

(** Optional strings, absent last. *)
Inductive ostr_lt : option str -> option str -> Prop :=
| ostr_lt_some : forall s t, str_lt s t -> ostr_lt (Some s) (Some t)
| ostr_lt_none : forall s, ostr_lt (Some s) None.

Definition pos_lt (p q : Position) : Prop :=
  p_line p < p_line q \/ (p_line p = p_line q /\ p_column p < p_column q).
Definition pos_le (p q : Position) : Prop :=
  p_line p < p_line q \/ (p_line p = p_line q /\ p_column p <= p_column q).

Definition orig_lt (o o' : option Position) : Prop :=
  match o, o' with Some p, Some q => pos_lt p q | _, _ => False end.

(** Generated line, generated column, source, original line, original column,
    name, in this order of significance. *)
Definition mapping_lt (a b : Mapping) : Prop :=
  pos_lt (m_generated a) (m_generated b) \/
  (m_generated a = m_generated b /\
    (ostr_lt (m_source a) (m_source b) \/
     (m_source a = m_source b /\
       (orig_lt (m_original a) (m_original b) \/
        (m_original a = m_original b /\ ostr_lt (m_name a) (m_name b)))))).

(** Equal in all of these (the last generated column is not part of it). *)
Definition same_mapping (a b : Mapping) : Prop :=
  m_generated a = m_generated b /\ m_source a = m_source b
  /\ m_original a = m_original b /\ m_name a = m_name b.

(** i32 positions that are not negative. *)
Definition nat_pos (p : Position) : Prop :=
  0 <= p_line p <= i32_max /\ 0 <= p_column p <= i32_max.

(** Well-formed mapping: non-negative positions, original present iff source. *)
Definition wf_mapping (m : Mapping) : Prop :=
  nat_pos (m_generated m) /\
  match m_original m, m_source m with
  | Some p, Some _ => nat_pos p
  | None, None => True
  | _, _ => False
  end.

(** Coordinates within an interval (used for mappings that may be negative). *)
Definition in_window (lo hi : Z) (p : Position) : Prop :=
  lo <= p_line p <= hi /\ lo <= p_column p <= hi.
Definition window_mapping (lo hi : Z) (m : Mapping) : Prop :=
  in_window lo hi (m_generated m)
  /\ match m_original m with Some p => in_window lo hi p | None => True end.
(** an interval of i32 numbers in which differences do not overflow *)
Definition window (lo hi : Z) : Prop := i32_min <= lo /\ hi <= i32_max /\ hi - lo <= i32_max.

(** Original present iff source present. *)
Definition shaped (m : Mapping) : Prop :=
  match m_original m, m_source m with
  | Some _, Some _ | None, None => True
  | _, _ => False
  end.

Definition gen_le (a b : Mapping) : Prop := pos_le (m_generated a) (m_generated b).

(** Sorted by generated position. *)
Definition gen_sorted (l : list Mapping) : Prop := StronglySorted gen_le l.

(** [s] is the stable sort of [l] for [mapping_lt]: same elements, in order, and
    elements that are [same_mapping] keep their relative order. *)
Definition stable_sort_of (l s : list Mapping) : Prop :=
  Permutation l s
  /\ StronglySorted (fun a b => mapping_lt a b \/ same_mapping a b) s
  /\ forall (same : Mapping -> bool) (x : Mapping),
       (forall y, same y = true <-> same_mapping x y) -> filter same s = filter same l.

(** Operations on a mapping list. *)
Inductive ml_op := Add (m : Mapping) | ToArray.

Fixpoint added (ops : list ml_op) : list Mapping :=
  match ops with
  | [] => []
  | Add m :: ops' => m :: added ops'
  | ToArray :: ops' => added ops'
  end.

(** What a list holds after a history: additions at the end, and [to_array] leaves
    it alone if it is sorted by generated position, or else replaces it by its
    stable sort. *)
Inductive held : list ml_op -> list Mapping -> Prop :=
| held_new : held [] []
| held_add : forall ops l m, held ops l -> held (ops ++ [Add m]) (l ++ [m])
| held_kept : forall ops l, held ops l -> gen_sorted l -> held (ops ++ [ToArray]) l
| held_sorted : forall ops l a, held ops l -> ~ gen_sorted l -> stable_sort_of l a -> held (ops ++ [ToArray]) a.

(** Performing a sequence of operations. *)
Fixpoint ml_run (md : mode) (l : MappingList) (ops : list ml_op) : res MappingList :=
  match ops with
  | [] => Ok l
  | Add m :: ops' => let* l := ml_add md l m in ml_run md l ops'
  | ToArray :: ops' => let* r := ml_to_array md l in ml_run md (snd r) ops'
  end.

Definition adds (ms : list Mapping) : list ml_op := map Add ms.
