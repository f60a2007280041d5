(** * C87: how much of the list a search looks at *)
From Verif Require Import Base M_BinarySearch S_Looks F_Looks.

(** C87: the list need not be sorted and the comparisons may panic.  [few] are
    the places the halving looks at.  [scan] are those of the walk to the first
    of several equal elements: the answer [r], its predecessor, and the [k]
    elements after it. *)
Theorem C87_search_looks_at_few : forall (T1 T2 : Type) (md : mode) (needle : T1) (hay : list T2)
    (compare1 : T1 -> T2 -> res Z) (compare2 : T2 -> T2 -> res Z)
    (short : len hay < 2147483647) (bias : option Z),
  exists few scan,
    looks_only_at (fun l => search md needle l compare1 compare2 bias) hay (few ++ scan)
    /\ len few <= Z.log2 (len hay) + 1
    /\ (scan = []
        \/ exists r k, scan = seq (r - 1) (k + 2)
            /\ (forall i, search md needle hay compare1 compare2 bias = Ok i -> i = Z.of_nat r)
            /\ (forall i x y, (r < i <= r + k)%nat -> nth_error hay i = Some x -> nth_error hay (i - 1) = Some y ->
                  compare2 x y = Ok 0)).
Proof. intros T1 T2 md needle hay compare1 compare2 short. exact (search_looks md needle hay compare1 compare2 short). Qed.
Print Assumptions C87_search_looks_at_few.

(** Fifteen elements, of which only a few can be compared: 11 is found by
    looking at 7, 11 and the 10 before it; 4 by looking at 7, 3, 5, 4 and the 3
    before it.  Looking at one more would panic. *)
Definition c87_cmp1 (n : Z) (x : option Z) : res Z := match x with Some a => Ok (n - a) | None => Panic PIndex end.
Definition c87_cmp2 (x y : option Z) : res Z := match x with Some a => c87_cmp1 a y | None => Panic PIndex end.
Definition c87_only (seen : list Z) (l : list Z) : list (option Z) :=
  map (fun x => if existsb (Z.eqb x) seen then Some x else None) l.
Definition c87_list : list Z := [0; 1; 2; 3; 4; 5; 6; 7; 8; 9; 10; 11; 12; 13; 14].

Example C87_case : forall md,
  search md 11 (c87_only c87_list c87_list) c87_cmp1 c87_cmp2 None = Ok 11
  /\ search md 11 (c87_only [7; 10; 11] c87_list) c87_cmp1 c87_cmp2 None = Ok 11
  /\ search md 4 (c87_only [3; 4; 5; 7] c87_list) c87_cmp1 c87_cmp2 None = Ok 4
  /\ search md 11 (c87_only [7; 11] c87_list) c87_cmp1 c87_cmp2 None = Panic PIndex
  /\ search md 9 [Some 9; Some 8; None; Some 4; None] c87_cmp1 c87_cmp2 (Some 2) = Panic PIndex.
Proof. intros md. destruct md; vm_compute; repeat split; reflexivity. Qed.
