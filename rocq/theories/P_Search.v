(** * C09-C12: binary search *)
From Verif Require Import Base M_BinarySearch S_Search F_Search.

(** A comparison that does not panic. *)
Definition pure2 {A B} (c : A -> B -> Z) : A -> B -> res Z := fun a b => Ok (c a b).

(** C09: any haystack below the length limit, any comparison (which may itself
    panic), any bias: the only panics are those of the comparison. *)
Theorem C09_search_safe : forall (T1 T2 : Type) (md : mode) (needle : T1) (hay : list T2)
    (compare1 : T1 -> T2 -> res Z) (compare2 : T2 -> T2 -> res Z)
    (short : len hay < 2147483647) (bias : option Z),
  (exists i, search md needle hay compare1 compare2 bias = Ok i
     /\ -1 <= i < len hay /\ (hay = [] -> i = -1))
  \/ (exists p, search md needle hay compare1 compare2 bias = Panic p /\
       ((exists x, In x hay /\ compare1 needle x = Panic p)
        \/ (exists x y, In x hay /\ In y hay /\ compare2 x y = Panic p))).
Proof. intros T1 T2 md needle hay. exact (search_safe md needle hay). Qed.
Print Assumptions C09_search_safe.

Example C09_case :
  search Debug 7 [9; 1; 7; 3; 7] (pure2 Z.sub) (pure2 Z.sub) (Some 2) = Ok 2
  /\ search Debug 5 [0; 1; 2; 3; 4] (pure2 Z.sub) (pure2 Z.sub) (Some 2) = Ok (-1)
  /\ search Debug 5 [0; 1; 2; 3; 4] (pure2 Z.sub) (pure2 Z.sub) (Some 1) = Ok 4
  /\ search Release 0 [] (pure2 Z.sub) (pure2 (fun a b : Z => a - b)) None = Ok (-1).
Proof. vm_compute. repeat split; reflexivity. Qed.

(** C10 *)
Theorem C10_search_greatest_lower : forall (T1 T2 : Type) (md : mode) (needle : T1) (hay : list T2)
    (c1 : T1 -> T2 -> Z) (c2 : T2 -> T2 -> Z)
    (short : len hay < 2147483647) (cons : consistent c1 c2) (srt : sorted c2 hay)
    (bias : option Z) (not_upper : bias <> Some LEAST_UPPER_BOUND),
  exists r, search md needle hay (pure2 c1) (pure2 c2) bias = Ok r /\
    ((r = -1 /\ forall x, In x hay -> c1 needle x < 0)
     \/ (0 <= r /\ exists x, nth_error hay (Z.to_nat r) = Some x
           /\ greatest_lower c1 c2 needle hay x
           /\ ((exists y, In y hay /\ c1 needle y = 0) -> c1 needle x = 0))).
Proof. intros T1 T2 md needle hay. exact (search_glb md needle hay). Qed.
Print Assumptions C10_search_greatest_lower.

(** C11 *)
Theorem C11_search_least_upper : forall (T1 T2 : Type) (md : mode) (needle : T1) (hay : list T2)
    (c1 : T1 -> T2 -> Z) (c2 : T2 -> T2 -> Z)
    (short : len hay < 2147483647) (cons : consistent c1 c2) (srt : sorted c2 hay),
  exists r, search md needle hay (pure2 c1) (pure2 c2) (Some LEAST_UPPER_BOUND) = Ok r /\
    ((r = -1 /\ forall x, In x hay -> 0 < c1 needle x)
     \/ (0 <= r /\ exists x, nth_error hay (Z.to_nat r) = Some x
           /\ least_upper c1 c2 needle hay x
           /\ ((exists y, In y hay /\ c1 needle y = 0) -> c1 needle x = 0))).
Proof. intros T1 T2 md needle hay. exact (search_lub md needle hay). Qed.
Print Assumptions C11_search_least_upper.

(** C12 *)
Theorem C12_search_first_of_equals : forall (T1 T2 : Type) (md : mode) (needle : T1) (hay : list T2)
    (c1 : T1 -> T2 -> Z) (c2 : T2 -> T2 -> Z)
    (short : len hay < 2147483647) (cons : consistent c1 c2) (srt : sorted c2 hay)
    (bias : option Z) (r : Z)
    (found : search md needle hay (pure2 c1) (pure2 c2) bias = Ok r) (hit : r <> -1),
  exists x, nth_error hay (Z.to_nat r) = Some x
    /\ forall j y, (j < Z.to_nat r)%nat -> nth_error hay j = Some y -> c2 y x <> 0.
Proof. intros T1 T2 md needle hay. exact (search_first md needle hay). Qed.
Print Assumptions C12_search_first_of_equals.

(** Non-vacuity of C10-C12: integers compared by subtraction, with duplicates. *)
Example C10_C12_consistent : consistent Z.sub Z.sub.
Proof. exact sub_consistent. Qed.
Example C10_C12_sorted : sorted Z.sub [2; 4; 4; 4; 9].
Proof. exact five_sorted. Qed.
Example C10_case :
  map (fun n => search Debug n [2; 4; 4; 4; 9; 11] (pure2 Z.sub) (pure2 Z.sub) None) [1; 2; 3; 4; 5; 8; 9; 10; 11; 12]
  = map Ok [-1; 0; 0; 1; 1; 1; 4; 4; 5; 5]
  /\ map (fun n => search Release n [2; 4; 4; 4; 9] (pure2 Z.sub) (pure2 Z.sub) (Some 7)) [1; 2; 3; 4; 5; 8; 9; 10]
  = map Ok [-1; 0; 0; 1; 1; 1; 4; 4].
Proof. vm_compute. split; reflexivity. Qed.
Example C11_case :
  map (fun n => search Debug n [2; 4; 4; 4; 9; 11] (pure2 Z.sub) (pure2 Z.sub) (Some 2)) [1; 2; 3; 4; 5; 8; 9; 10; 11; 12]
  = map Ok [0; 0; 1; 1; 4; 4; 4; 5; 5; -1].
Proof. vm_compute. reflexivity. Qed.
Example C12_case :
  map (fun b => search Debug 4 [4; 4; 4; 4; 4; 4; 9] (pure2 Z.sub) (pure2 Z.sub) b) [None; Some 2] = [Ok 0; Ok 0]
  /\ search Debug 9 [4; 4; 9; 9; 9; 9; 9; 9; 9] (pure2 Z.sub) (pure2 Z.sub) None = Ok 2.
Proof. vm_compute. split; reflexivity. Qed.
Example C10_C12_case :
  search Debug 4 [2; 4; 4; 4; 9] (pure2 Z.sub) (pure2 Z.sub) None = Ok 1
  /\ search Debug 8 [2; 4; 4; 4; 9] (pure2 Z.sub) (pure2 Z.sub) None = Ok 1
  /\ search Debug 1 [2; 4; 4; 4; 9] (pure2 Z.sub) (pure2 Z.sub) None = Ok (-1)
  /\ search Debug 3 [2; 4; 4; 4; 9] (pure2 Z.sub) (pure2 Z.sub) (Some 2) = Ok 1
  /\ search Debug 10 [2; 4; 4; 4; 9] (pure2 Z.sub) (pure2 Z.sub) (Some 2) = Ok (-1).
Proof. vm_compute. repeat split; reflexivity. Qed.
