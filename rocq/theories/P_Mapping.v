(** * C13-C18: comparisons and MappingList *)
From Verif Require Import Base M_Mapping S_Mapping F_Mapping F_MappingList.
From Coq Require Import Sorting.Sorted Sorting.Permutation.

(** C13 *)
Theorem C13_strcmp_order :
  (forall a b, strcmp a b = -1 \/ strcmp a b = 0 \/ strcmp a b = 1)
  /\ (forall a b, strcmp a b = 0 <-> a = b)
  /\ (forall a b, strcmp b a = - strcmp a b)
  /\ (forall a b, strcmp a b < 0 <-> ostr_lt a b)
  /\ (forall a b c, strcmp a b <= 0 -> strcmp b c <= 0 -> strcmp a c <= 0)
  /\ (forall s, strcmp (Some s) None < 0).
Proof. exact strcmp_order. Qed.
Print Assumptions C13_strcmp_order.

Example C13_case :
  strcmp (Some (lit "ab")) (Some (lit "b")) = -1 /\ strcmp (Some (lit "ab")) (Some (lit "a")) = 1
  /\ strcmp None (Some (lit "")) = 1 /\ strcmp None None = 0.
Proof. vm_compute. repeat split; reflexivity. Qed.

(** C14 *)
Theorem C14_compare_is_mapping_order : forall (md : mode) (a b : Mapping)
    (wf_a : wf_mapping a) (wf_b : wf_mapping b),
  exists c, compare_by_generated_pos_inflated md a b = Ok c
    /\ (c < 0 <-> mapping_lt a b) /\ (c = 0 <-> same_mapping a b) /\ (0 < c <-> mapping_lt b a).
Proof. exact compare_total_preorder. Qed.
Print Assumptions C14_compare_is_mapping_order.

(** ... and that is a strict order, total up to [same_mapping]. *)
Theorem C14_mapping_order :
  (forall a b c, mapping_lt a b -> mapping_lt b c -> mapping_lt a c)
  /\ (forall a b, same_mapping a b -> ~ mapping_lt a b)
  /\ (forall a b, wf_mapping a -> wf_mapping b -> mapping_lt a b \/ same_mapping a b \/ mapping_lt b a).
Proof. exact mapping_order. Qed.
Print Assumptions C14_mapping_order.

Definition c14_a := mkMapping (mkPos 1 4) (Some (mkPos 3 0)) (Some (lit "a.js")) None None.
Definition c14_b := mkMapping (mkPos 1 4) (Some (mkPos 2 7)) (Some (lit "b.js")) (Some (lit "n")) None.
Example C14_case : wf_mapping c14_a /\ wf_mapping c14_b
  /\ compare_by_generated_pos_inflated Debug c14_a c14_b = Ok (-1).
Proof. vm_compute. intuition congruence. Qed.

(** Each later key decides when all earlier ones are equal, in both directions. *)
Definition c14_m (l c : Z) (s : string) (ol oc : Z) (n : string) : Mapping :=
  mkMapping (mkPos l c) (Some (mkPos ol oc)) (Some (lit s)) (Some (lit n)) None.
Example C14_keys :
  let cmp := compare_by_generated_pos_inflated Debug in
  let base := c14_m 5 4 "k" 3 2 "n" in
  map (fun b => (cmp base b, cmp b base))
    [c14_m 6 1 "a" 1 1 "a"; c14_m 5 6 "a" 1 1 "a"; c14_m 5 4 "l" 1 1 "a"; c14_m 5 4 "k" 4 1 "a"; c14_m 5 4 "k" 3 5 "a";
     c14_m 5 4 "k" 3 2 "o"; base]
  = [(Ok (-1), Ok 1); (Ok (-2), Ok 2); (Ok (-1), Ok 1); (Ok (-1), Ok 1); (Ok (-3), Ok 3); (Ok (-1), Ok 1); (Ok 0, Ok 0)]
  /\ (let bare n := mkMapping (mkPos 5 4) None None n None in
      (cmp (bare (Some (lit "a"))) (bare (Some (lit "b"))), cmp (bare None) (bare (Some (lit "b")))) = (Ok (-1), Ok 1)
      /\ cmp base (bare None) = Ok (-1)).
Proof. vm_compute. repeat split; reflexivity. Qed.

(** C15 *)
Theorem C15_compare_transitive_refuted : forall (md : mode), exists a b c,
  m_source a = m_source b /\ m_source b = m_source c
  /\ nat_pos (m_generated a) /\ nat_pos (m_generated b) /\ nat_pos (m_generated c)
  /\ compare_by_generated_pos_inflated md a b = Ok (-1)
  /\ compare_by_generated_pos_inflated md b c = Ok (-1)
  /\ compare_by_generated_pos_inflated md a c = Ok 1.
Proof. exact compare_not_transitive. Qed.
Print Assumptions C15_compare_transitive_refuted.

Theorem C15_compare_overflow : forall (a b : Mapping)
    (i32_a : in_i32 (p_line (m_generated a)) = true) (i32_b : in_i32 (p_line (m_generated b)) = true)
    (far : i32_max < p_line (m_generated a) - p_line (m_generated b)),
  compare_by_generated_pos_inflated Debug a b = Panic POverflow
  /\ exists c, compare_by_generated_pos_inflated Release a b = Ok c /\ c < 0.
Proof. exact compare_overflow. Qed.
Print Assumptions C15_compare_overflow.

Example C15_case :
  let a := mkMapping (mkPos 2147483647 0) None None None None in
  let b := mkMapping (mkPos (-1) 0) None None None None in
  in_i32 (p_line (m_generated a)) = true /\ in_i32 (p_line (m_generated b)) = true
  /\ i32_max < p_line (m_generated a) - p_line (m_generated b)
  /\ compare_by_generated_pos_inflated Release a b = Ok i32_min.
Proof. vm_compute. repeat split; reflexivity. Qed.

(** C16: [ops] is any interleaving of [Add] and [ToArray]. *)
Theorem C16_to_array_sorted_permutation : forall (md : mode) (ops : list ml_op)
    (wf : Forall wf_mapping (added ops)),
  exists l a l', ml_run md ml_new ops = Ok l /\ ml_to_array md l = Ok (a, l')
    /\ Permutation (added ops) a /\ gen_sorted a.
Proof. exact to_array_sorted_permutation_wf. Qed.
Print Assumptions C16_to_array_sorted_permutation.

(** C17 *)
Theorem C17_to_array_stable : forall (md : mode) (ms : list Mapping) (wf : Forall wf_mapping ms),
  exists l a l', ml_run md ml_new (adds ms) = Ok l /\ ml_to_array md l = Ok (a, l')
    /\ (gen_sorted ms -> a = ms)
    /\ (~ gen_sorted ms -> stable_sort_of ms a).
Proof. exact to_array_stable_wf. Qed.
Print Assumptions C17_to_array_stable.

Theorem C17_to_array_repeatable : forall (md : mode) (l : MappingList) (a : list Mapping) (l' : MappingList)
    (first : ml_to_array md l = Ok (a, l')),
  ml_to_array md l' = Ok (a, l').
Proof. exact to_array_repeat. Qed.
Print Assumptions C17_to_array_repeatable.

Definition c16_at (line col : Z) : Mapping := mkMapping (mkPos line col) None None None None.
Example C16_C17_case :
  let ops := [Add (c16_at 2 3); ToArray; Add (c16_at 1 5); Add (c16_at 2 3); ToArray; Add (c16_at 1 0)] in
  Forall wf_mapping (added ops)
  /\ (let* l := ml_run Debug ml_new ops in let* r := ml_to_array Debug l in Ok (fst r))
     = Ok [c16_at 1 0; c16_at 1 5; c16_at 2 3; c16_at 2 3].
Proof. split; [repeat constructor; vm_compute; congruence | vm_compute; reflexivity]. Qed.

(** The order of addition is kept among equal positions as long as positions
    do not decrease, and afterwards among mappings that compare equal. *)
Definition c17_src (line col : Z) (s : string) (last : option Z) : Mapping :=
  mkMapping (mkPos line col) (Some (mkPos 1 0)) (Some (lit s)) None last.
Definition c17_array (ops : list ml_op) : res (list Mapping) :=
  let* l := ml_run Debug ml_new ops in let* r := ml_to_array Debug l in Ok (fst r).
Example C17_case :
  let b := c17_src 1 2 "b" None in let a := c17_src 1 2 "a" None in let a9 := c17_src 1 2 "a" (Some 9) in
  c17_array [Add b; Add a; Add a9] = Ok [b; a; a9]
  /\ c17_array [Add b; Add a9; Add a; Add (c16_at 1 0)] = Ok [c16_at 1 0; a9; a; b]
  /\ c17_array [Add b; Add (c16_at 1 0); ToArray; ToArray] = Ok [c16_at 1 0; b]
  /\ c17_array [Add b; Add (c16_at 1 0); ToArray; Add a] = Ok [c16_at 1 0; b; a].
Proof. vm_compute. repeat split; reflexivity. Qed.

(** A column, a line and a repeated decrease are all noticed. *)
Example C16_case :
  c17_array [Add (c16_at 2 3); Add (c16_at 2 1)] = Ok [c16_at 2 1; c16_at 2 3]
  /\ c17_array [Add (c16_at 2 3); Add (c16_at 1 9)] = Ok [c16_at 1 9; c16_at 2 3]
  /\ c17_array [Add (c16_at 2 3); Add (c16_at 1 1); Add (c16_at 1 5); Add (c16_at 1 2)]
     = Ok [c16_at 1 1; c16_at 1 2; c16_at 1 5; c16_at 2 3]
  /\ c17_array [Add (c16_at 2 3); Add (c16_at 1 1); ToArray; Add (c16_at 1 5)] = Ok [c16_at 1 1; c16_at 1 5; c16_at 2 3]
  /\ c17_array [Add (c16_at 2 3); Add (c16_at 1 5); Add (c16_at 2 4)] = Ok [c16_at 1 5; c16_at 2 3; c16_at 2 4].
Proof. vm_compute. repeat split; reflexivity. Qed.

(** C18 *)
Theorem C18_to_array_order_independent : forall (md : mode) (ops1 ops2 : list ml_op)
    (wf : Forall wf_mapping (added ops1)) (distinct : NoDup (map m_generated (added ops1)))
    (same : Permutation (added ops1) (added ops2)),
  exists l1 l2 a l1' l2', ml_run md ml_new ops1 = Ok l1 /\ ml_run md ml_new ops2 = Ok l2
    /\ ml_to_array md l1 = Ok (a, l1') /\ ml_to_array md l2 = Ok (a, l2').
Proof. exact to_array_order_independent. Qed.
Print Assumptions C18_to_array_order_independent.

Theorem C18_to_array_order_refuted : forall (md : mode), exists ops1 ops2 l1 l2 a1 a2 l1' l2',
  Forall wf_mapping (added ops1) /\ Permutation (added ops1) (added ops2)
  /\ ml_run md ml_new ops1 = Ok l1 /\ ml_run md ml_new ops2 = Ok l2
  /\ ml_to_array md l1 = Ok (a1, l1') /\ ml_to_array md l2 = Ok (a2, l2') /\ a1 <> a2.
Proof. exact to_array_order_dependent. Qed.
Print Assumptions C18_to_array_order_refuted.

Example C18_case :
  let ops1 := [Add (c16_at 2 3); Add (c16_at 1 5); ToArray; Add (c16_at 1 0)] in
  let ops2 := [Add (c16_at 1 0); Add (c16_at 1 5); Add (c16_at 2 3)] in
  Permutation (added ops1) (added ops2) /\ NoDup (map m_generated (added ops1))
  /\ c17_array ops1 = Ok [c16_at 1 0; c16_at 1 5; c16_at 2 3] /\ c17_array ops2 = c17_array ops1.
Proof.
  split; [exact (Permutation_rev [c16_at 2 3; c16_at 1 5; c16_at 1 0])|].
  split; [repeat constructor; cbn; intuition congruence | vm_compute; split; reflexivity].
Qed.

(** C78: any history of add and to_array *)
Theorem C78_history : forall (md : mode) (ops : list ml_op) (wf : Forall wf_mapping (added ops)),
  exists l a l', ml_run md ml_new ops = Ok l
    /\ held ops (map fst (ml_unsorted_for_each l))
    /\ map snd (ml_unsorted_for_each l) = map Z.of_nat (seq 0 (length (added ops)))
    /\ ml_to_array md l = Ok (a, l') /\ held (ops ++ [ToArray]) a.
Proof. exact history_held. Qed.
Print Assumptions C78_history.

(** [held] leaves no choice. *)
Theorem C78_one_result : forall (ops : list ml_op) (l : list Mapping) (one : held ops l) (l' : list Mapping) (other : held ops l'),
  l = l'.
Proof. exact held_unique. Qed.
Print Assumptions C78_one_result.

Definition c78_visits (ops : list ml_op) : res (list (Mapping * Z)) :=
  let* l := ml_run Debug ml_new ops in Ok (ml_unsorted_for_each l).
Example C78_case :
  let a := c17_src 1 5 "b" None in let b := c17_src 1 5 "a" None in let c := c16_at 1 0 in
  (* in the order of addition, the array is sorted by position *)
  c78_visits [Add c; Add a; Add b] = Ok [(c, 0); (a, 1); (b, 2)]
  /\ c78_visits [Add c; Add a; Add b; ToArray] = Ok [(c, 0); (a, 1); (b, 2)]
  (* not sorted: until to_array, then also by source *)
  /\ c78_visits [Add a; Add b; Add c] = Ok [(a, 0); (b, 1); (c, 2)]
  /\ c78_visits [Add a; Add b; Add c; ToArray] = Ok [(c, 0); (b, 1); (a, 2)]
  /\ c78_visits [Add a; Add b; Add c; ToArray; Add b; ToArray] = Ok [(c, 0); (b, 1); (a, 2); (b, 3)]
  /\ c78_visits [Add a; Add b; Add c; ToArray; Add c; ToArray] = Ok [(c, 0); (c, 1); (b, 2); (a, 3)].
Proof. vm_compute. repeat split; reflexivity. Qed.

Example C78_instance :
  let a := c17_src 1 5 "b" None in let b := c17_src 1 5 "a" None in
  held [Add a; Add b; ToArray] [a; b].
Proof.
  intros a b. apply (held_kept [Add a; Add b]); [apply (held_add [Add a] [a]); apply (held_add [] []); constructor|].
  constructor; [repeat constructor|]. constructor; [|constructor]. right. vm_compute. split; [reflexivity|discriminate].
Qed.
