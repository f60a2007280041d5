(** * C06-C08: ArraySet *)
From Verif Require Import Base M_ArraySet S_List S_ArraySet F_ArraySet.

(** A history is a list of calls [add(s, allow_duplicates)]; [as_run] performs it. *)

(** C06 *)
Theorem C06_array_set_no_duplicates : forall (l : list str),
  let s := as_run as_new (map (fun x => (x, false)) l) in
  as_to_vec s = distinct l /\ as_size s = len (distinct l)
  /\ NoDup (as_to_vec s) /\ (forall x, In x (as_to_vec s) <-> In x l).
Proof. exact array_set_no_duplicates. Qed.
Print Assumptions C06_array_set_no_duplicates.

(** C06: what one more call does, after any history that started from a new set or
    from an array. *)
Theorem C06_array_set_add : forall (s0 : ArraySet) (ops : list (str * bool)) (x : str) (d : bool)
    (start : s0 = as_new \/ exists l d, s0 = as_from_array l d),
  let s := as_run s0 ops in
  ((d = true \/ ~ In x (as_to_vec s)) -> as_to_vec (as_add s x d) = as_to_vec s ++ [x])
  /\ (d = false -> In x (as_to_vec s) -> as_to_vec (as_add s x d) = as_to_vec s).
Proof. exact array_set_add. Qed.
Print Assumptions C06_array_set_add.

(** from_array: all elements with duplicates allowed, first occurrences without *)
Theorem C06_array_set_from_array : forall (l : list str),
  as_to_vec (as_from_array l true) = l /\ as_to_vec (as_from_array l false) = distinct l.
Proof. exact as_from_array_vec. Qed.
Print Assumptions C06_array_set_from_array.

Example C06_case :
  as_to_vec (as_run as_new (map (fun x => (x, false)) [lit "b"; lit "a"; lit "b"; lit "c"; lit "a"]))
  = [lit "b"; lit "a"; lit "c"]
  /\ as_to_vec (as_from_array [lit "b"; lit "a"; lit "b"] true) = [lit "b"; lit "a"; lit "b"]
  /\ as_to_vec (as_from_array [lit "b"; lit "a"; lit "b"] false) = [lit "b"; lit "a"].
Proof. vm_compute. repeat split; reflexivity. Qed.

(** C07 *)
Theorem C07_array_set_lookups : forall (s0 : ArraySet) (ops : list (str * bool))
    (start : s0 = as_new \/ exists l d, s0 = as_from_array l d),
  let s := as_run s0 ops in
  (forall x, as_has s x = true <-> In x (as_to_vec s))
  /\ (forall x, as_index_of s x = option_map Z.of_nat (first_index x (as_to_vec s)))
  /\ as_size s = len (distinct (as_to_vec s))
  /\ (len (as_to_vec s) < 2^31 ->
      (forall i, in_i32 i = true ->
         as_at s i = if 0 <=? i then nth_error (as_to_vec s) (Z.to_nat i) else None)
      /\ (forall x i, as_index_of s x = Some i -> as_at s i = Some x)).
Proof. exact array_set_lookups_from. Qed.
Print Assumptions C07_array_set_lookups.

Example C07_case :
  let s := as_run as_new [(lit "b", true); (lit "a", false); (lit "b", true); (lit "a", false); (lit "c", false)] in
  as_to_vec s = [lit "b"; lit "a"; lit "b"; lit "c"] /\ as_index_of s (lit "b") = Some 0
  /\ as_index_of s (lit "c") = Some 3 /\ as_index_of s (lit "d") = None
  /\ map (as_at s) [-1; 0; 1; 2; 3; 4] = [None; Some (lit "b"); Some (lit "a"); Some (lit "b"); Some (lit "c"); None]
  /\ as_size s = 3.
Proof. vm_compute. repeat split; reflexivity. Qed.

(** C08 *)
Theorem C08_array_set_stable : forall (s0 : ArraySet) (ops more : list (str * bool))
    (start : s0 = as_new \/ exists l d, s0 = as_from_array l d),
  let s := as_run s0 ops in
  let s' := as_run s more in
  (exists tail, as_to_vec s' = as_to_vec s ++ tail)
  /\ (forall x i, as_index_of s x = Some i -> as_index_of s' x = Some i)
  /\ (forall i x, as_at s i = Some x -> len (as_to_vec s') < 2^31 -> as_at s' i = Some x).
Proof. exact array_set_stable_from. Qed.
Print Assumptions C08_array_set_stable.

Example C08_case :
  let s := as_run as_new [(lit "b", true); (lit "a", false)] in
  let s' := as_run s [(lit "a", true); (lit "c", false)] in
  as_index_of s (lit "a") = Some 1 /\ as_index_of s' (lit "a") = Some 1
  /\ as_to_vec s' = [lit "b"; lit "a"; lit "a"; lit "c"].
Proof. vm_compute. repeat split; reflexivity. Qed.
