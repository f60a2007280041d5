(** * Lemmas about the stable insertion sort *)
From Verif Require Import F_Base M_Mapping.
From Coq Require Import Sorting.Sorted Sorting.Permutation.

Section Sort.
  Context {A : Type} (P : A -> Prop) (cmp : A -> A -> res Z) (c : A -> A -> Z).
  Hypothesis cmp_ok : forall x y, P x -> P y -> cmp x y = Ok (c x y).
  Hypothesis c_antisym : forall x y, P x -> P y -> Z.sgn (c x y) = - Z.sgn (c y x).
  Hypothesis c_trans : forall x y z, P x -> P y -> P z -> c x y <= 0 -> c y z <= 0 -> c x z <= 0.

  Let le x y := c x y <= 0.

  Lemma insert_ok : forall x l, P x -> Forall P l ->
    exists r, sort_insert cmp x l = Ok r /\ Permutation (x :: l) r
      /\ (StronglySorted le l -> StronglySorted le r)
      /\ (forall z, P z -> filter (fun y => c z y =? 0) r = filter (fun y => c z y =? 0) (x :: l)).
  Proof.
    induction l as [|y l IH]; intros Hx Hl.
    - exists [x]. cbn. repeat split; auto. intros _. repeat constructor.
    - inv Hl. rename H1 into Hy. rename H2 into Hl.
      cbn [sort_insert]. rewrite cmp_ok by assumption. cbn [bind].
      destruct (0 <? c x y) eqn:E.
      + destruct (IH Hx Hl) as [r [E1 [Hp [Hs Hf]]]]. rewrite E1. cbn [bind].
        exists (y :: r). split; [reflexivity|]. split; [|split].
        * rewrite <- Hp. apply perm_swap.
        * intros Hsl. inv Hsl. constructor; [apply Hs; assumption|].
          rewrite <- Hp. constructor; [|assumption].
          unfold le. pose proof (c_antisym x y Hx Hy). lia.
        * intros z Hz. cbn [filter]. rewrite (Hf z Hz). cbn [filter].
          destruct (c z x =? 0) eqn:Ezx; destruct (c z y =? 0) eqn:Ezy; try reflexivity.
          exfalso. pose proof (c_antisym z x Hz Hx).
          pose proof (c_trans x z y Hx Hz Hy ltac:(lia) ltac:(lia)). lia.
      + exists (x :: y :: l). split; [reflexivity|]. split; [apply Permutation_refl|]. split; [|reflexivity].
        intros Hsl. constructor; [exact Hsl|]. inv Hsl. constructor; [unfold le; lia|].
        rewrite Forall_forall in *. intros z Hz. unfold le in *.
        eapply (c_trans x y z); auto. lia.
  Qed.

  Lemma sort_ok : forall l, Forall P l ->
    exists r, sort_by cmp l = Ok r /\ Permutation l r /\ StronglySorted le r
      /\ (forall z, P z -> filter (fun y => c z y =? 0) r = filter (fun y => c z y =? 0) l).
  Proof.
    induction l as [|x l IH]; intros Hl.
    - exists []. repeat split; constructor.
    - inv Hl. destruct (IH H2) as [s [E [Hp [Hs Hf]]]]. cbn [sort_by]. rewrite E. cbn [bind].
      destruct (insert_ok x s) as [r [E2 [Hp2 [Hs2 Hf2]]]]; [assumption | |].
      { rewrite <- Hp. assumption. }
      exists r. split; [exact E2|]. split; [rewrite <- Hp2; constructor; exact Hp|].
      split; [auto|]. intros z Hz. rewrite (Hf2 z Hz). cbn [filter]. rewrite (Hf z Hz). reflexivity.
  Qed.

  Lemma c_refl : forall x, P x -> c x x = 0.
  Proof. intros x Hx. pose proof (c_antisym x x Hx Hx). lia. Qed.

  (** Every stable sort gives the same list. *)
  Lemma stable_sort_unique : forall s1 s2, Forall P s1 -> Forall P s2 ->
    StronglySorted le s1 -> StronglySorted le s2 ->
    (forall z, P z -> filter (fun y => c z y =? 0) s1 = filter (fun y => c z y =? 0) s2) ->
    s1 = s2.
  Proof.
    induction s1 as [|x s1 IH]; intros s2 P1 P2 S1 S2 H.
    - destruct s2 as [|y s2]; [reflexivity|]. inv P2. specialize (H y H2). cbn in H.
      rewrite c_refl in H by assumption. discriminate.
    - inv P1. rename H2 into Hx. rename H3 into P1.
      destruct s2 as [|y s2].
      { specialize (H x Hx). cbn in H. rewrite c_refl in H by assumption. discriminate. }
      inv P2. rename H2 into Hy. rename H3 into P2. inv S1. rename H2 into S1. rename H3 into F1.
      inv S2. rename H2 into S2. rename H3 into F2.
      rewrite Forall_forall in F1, F2.
      assert (Hxy : c x y <= 0).
      { assert (In y (x :: s1)) as [->|Hin].
        { assert (Hi : In y (filter (fun w => c y w =? 0) (x :: s1))).
          { rewrite (H y Hy). cbn. rewrite c_refl by assumption. left. reflexivity. }
          apply filter_In in Hi. tauto. }
        - rewrite c_refl by assumption. lia.
        - apply F1; assumption. }
      assert (Hyx : c y x <= 0).
      { assert (In x (y :: s2)) as [->|Hin].
        { assert (Hi : In x (filter (fun w => c x w =? 0) (y :: s2))).
          { rewrite <- (H x Hx). cbn. rewrite c_refl by assumption. left. reflexivity. }
          apply filter_In in Hi. tauto. }
        - rewrite c_refl by assumption. lia.
        - apply F2; assumption. }
      assert (Heq : x = y).
      { pose proof (H x Hx) as Hf. cbn in Hf. rewrite c_refl in Hf by assumption. cbn in Hf.
        pose proof (c_antisym x y Hx Hy). assert (E : (c x y =? 0) = true) by lia.
        rewrite E in Hf. inv Hf. reflexivity. }
      subst y. f_equal. apply IH; try assumption.
      intros z Hz. specialize (H z Hz). cbn in H. destruct (c z x =? 0); [inv H; reflexivity | exact H].
  Qed.
End Sort.

(** A list sorted for an antisymmetric relation is determined by its elements. *)
Lemma sorted_perm_unique : forall {A} (R : A -> A -> Prop) l1 l2,
  StronglySorted R l1 -> StronglySorted R l2 -> Permutation l1 l2 ->
  (forall x y, In x l1 -> In y l1 -> R x y -> R y x -> x = y) -> l1 = l2.
Proof.
  intros A R. induction l1 as [|x l1 IH]; intros l2 S1 S2 Hp Ha.
  - apply Permutation_nil in Hp. congruence.
  - destruct l2 as [|y l2]; [symmetry in Hp; apply Permutation_nil in Hp; discriminate|].
    inv S1. inv S2. rewrite Forall_forall in *.
    assert (x = y).
    { assert (In x (y :: l2)) as [H|H] by (eapply Permutation_in; [exact Hp | left; reflexivity]); [congruence|].
      assert (In y (x :: l1)) as [H0|H0] by (eapply Permutation_in; [symmetry; exact Hp | left; reflexivity]); [congruence|].
      apply Ha; [left; reflexivity | right; assumption | auto | auto]. }
    subst y. f_equal. apply IH; try assumption.
    + apply Permutation_cons_inv in Hp. exact Hp.
    + intros a b Ha1 Hb1. apply Ha; right; assumption.
Qed.
