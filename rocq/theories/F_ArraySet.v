(** * Lemmas about ArraySet *)
From Verif Require Import F_Base M_ArraySet S_List S_ArraySet.

(** ** list specification *)
Lemma mem_In : forall x l, mem x l = true <-> In x l.
Proof.
  induction l as [|y l IH]; cbn; [split; [discriminate | tauto]|].
  rewrite orb_true_iff, IH, str_eqb_eq. split; intros [H|H]; auto.
Qed.
Lemma mem_false : forall x l, mem x l = false <-> ~ In x l.
Proof.
  intros x l. rewrite <- mem_In. destruct (mem x l); split; intros H; try congruence; auto.
Qed.
Lemma mem_app : forall x a b, mem x (a ++ b) = mem x a || mem x b.
Proof. induction a as [|y a IH]; intros b; cbn; [reflexivity|]. rewrite IH. apply orb_assoc. Qed.

Lemma distinct_from_ext : forall l s1 s2, (forall x, In x s1 <-> In x s2) ->
  distinct_from s1 l = distinct_from s2 l.
Proof.
  induction l as [|x l IH]; intros s1 s2 H; cbn; [reflexivity|].
  assert (E : mem x s1 = mem x s2).
  { destruct (mem x s1) eqn:E1; symmetry.
    - apply mem_In. apply H. apply mem_In. exact E1.
    - apply mem_false. rewrite <- H. apply mem_false. exact E1. }
  rewrite E. destruct (mem x s2).
  - apply IH; assumption.
  - f_equal. apply IH. intros y. cbn. rewrite H. tauto.
Qed.

Lemma distinct_from_app : forall a b seen,
  distinct_from seen (a ++ b) = distinct_from seen a ++ distinct_from (a ++ seen) b.
Proof.
  induction a as [|x a IH]; intros b seen; cbn; [reflexivity|].
  destruct (mem x seen) eqn:E.
  - rewrite IH. f_equal. apply distinct_from_ext. intros y. cbn. rewrite !in_app_iff.
    apply mem_In in E. split; intros H; [tauto|]. destruct H as [->|H]; [tauto | exact H].
  - cbn. f_equal. rewrite IH. f_equal. apply distinct_from_ext. intros y.
    rewrite !in_app_iff. cbn. rewrite !in_app_iff. tauto.
Qed.

Lemma distinct_snoc : forall l x,
  distinct (l ++ [x]) = if mem x l then distinct l else distinct l ++ [x].
Proof.
  intros l x. unfold distinct. rewrite distinct_from_app. rewrite app_nil_r. cbn.
  destruct (mem x l); [apply app_nil_r | reflexivity].
Qed.

Lemma distinct_from_In : forall l seen x, In x (distinct_from seen l) <-> In x l /\ ~ In x seen.
Proof.
  induction l as [|y l IH]; intros seen x; cbn; [tauto|].
  destruct (mem y seen) eqn:E.
  - apply mem_In in E. rewrite IH. split; intros H; [tauto|].
    destruct H as [[->|H] H2]; tauto.
  - apply mem_false in E. cbn. rewrite IH. cbn.
    destruct (str_eq_dec y x) as [->|Hne]; tauto.
Qed.
Lemma distinct_In : forall l x, In x (distinct l) <-> In x l.
Proof. intros. unfold distinct. rewrite distinct_from_In. cbn. tauto. Qed.

Lemma distinct_from_NoDup : forall l seen, NoDup (distinct_from seen l).
Proof.
  induction l as [|y l IH]; intros seen; cbn; [constructor|].
  destruct (mem y seen); [apply IH|]. constructor; [|apply IH].
  rewrite distinct_from_In. cbn. tauto.
Qed.
Lemma distinct_NoDup : forall l, NoDup (distinct l).
Proof. intros. apply distinct_from_NoDup. Qed.

Lemma first_index_none : forall x l, first_index x l = None <-> ~ In x l.
Proof.
  induction l as [|y l IH]; cbn; [tauto|].
  destruct (str_eqb x y) eqn:E.
  - apply str_eqb_eq in E; subst. split; [discriminate | tauto].
  - apply str_eqb_neq in E. destruct (first_index x l) eqn:E2; cbn.
    + split; [discriminate|]. intros H. exfalso.
      assert (~ In x l) by tauto. apply IH in H0. discriminate.
    + split; [|tauto]. intros _ [H|H]; [congruence|]. apply IH in H; [exact H | reflexivity].
Qed.
Lemma first_index_some : forall x l n, first_index x l = Some n ->
  nth_error l n = Some x /\ forall m, (m < n)%nat -> nth_error l m <> Some x.
Proof.
  induction l as [|y l IH]; intros n H; cbn in H; [discriminate|].
  destruct (str_eqb x y) eqn:E.
  - inv H. apply str_eqb_eq in E; subst. split; [reflexivity | intros; lia].
  - destruct (first_index x l) as [k|] eqn:E2; [|discriminate]. inv H.
    destruct (IH k eq_refl) as [H1 H2]. split; [exact H1|].
    intros [|m] Hm; cbn.
    + apply str_eqb_neq in E. congruence.
    + apply H2. lia.
Qed.
Lemma first_index_app : forall x a b,
  first_index x (a ++ b) = match first_index x a with
                           | Some n => Some n
                           | None => option_map (fun n => (length a + n)%nat) (first_index x b)
                           end.
Proof.
  induction a as [|y a IH]; intros b; cbn.
  - destruct (first_index x b); reflexivity.
  - destruct (str_eqb x y); [reflexivity|]. rewrite IH.
    destruct (first_index x a); [reflexivity|]. cbn. destruct (first_index x b); reflexivity.
Qed.
Lemma first_index_In : forall x l, In x l -> exists n, first_index x l = Some n.
Proof.
  intros x l H. destruct (first_index x l) eqn:E; [eauto|].
  apply first_index_none in E. contradiction.
Qed.

(** ** invariant *)
Definition as_inv (s : ArraySet) : Prop :=
  (forall x, hm_get x (as_set s) = option_map Z.of_nat (first_index x (as_array s)))
  /\ hm_len (as_set s) = len (distinct (as_array s)).

Lemma as_inv_new : as_inv as_new.
Proof. split; reflexivity. Qed.

Lemma as_has_iff : forall s, as_inv s -> forall x, as_has s x = mem x (as_array s).
Proof.
  intros s [H _] x. unfold as_has, hm_contains. rewrite H.
  destruct (mem x (as_array s)) eqn:E.
  - apply mem_In in E. destruct (first_index_In _ _ E) as [n ->]. reflexivity.
  - apply mem_false in E. apply first_index_none in E. rewrite E. reflexivity.
Qed.

Lemma hm_remove_get_None_len : forall V k (v : V) m, hm_get k m = None ->
  hm_len (hm_insert k v m) = hm_len m + 1.
Proof.
  intros. unfold hm_len, hm_insert. rewrite hm_remove_absent by assumption. apply len_cons.
Qed.

Lemma as_add_array : forall s, as_inv s -> forall x d,
  as_array (as_add s x d) = if negb (mem x (as_array s)) || d then as_array s ++ [x] else as_array s.
Proof. intros s H x d. unfold as_add. cbn [as_array]. rewrite (as_has_iff s H). reflexivity. Qed.

Lemma as_inv_add : forall s x d, as_inv s -> as_inv (as_add s x d).
Proof.
  intros s x d HI. pose proof HI as [H1 H2]. unfold as_inv, as_add. cbn [as_array as_set].
  rewrite (as_has_iff s HI). destruct (mem x (as_array s)) eqn:E; cbn [negb orb].
  - pose proof (proj1 (mem_In _ _) E) as Hin. destruct d; [|exact HI].
    split.
    + intros y. rewrite H1, first_index_app.
      destruct (first_index y (as_array s)) eqn:E2; [reflexivity|]. cbn.
      destruct (str_eqb y x) eqn:E3; [|reflexivity].
      apply str_eqb_eq in E3; subst. apply first_index_none in E2. contradiction.
    + rewrite H2, distinct_snoc, E. reflexivity.
  - apply mem_false in E. pose proof (proj2 (first_index_none _ _) E) as Ef.
    assert (Hg : hm_get x (as_set s) = None) by (rewrite H1, Ef; reflexivity).
    split.
    + intros y. destruct (str_eq_dec y x) as [->|Hne].
      * rewrite hm_get_insert_same. rewrite first_index_app, Ef. cbn.
        rewrite str_eqb_refl. cbn. rewrite Nat.add_0_r. reflexivity.
      * rewrite hm_get_insert_other by assumption. rewrite H1, first_index_app.
        destruct (first_index y (as_array s)); [reflexivity|]. cbn.
        apply str_eqb_neq in Hne. rewrite Hne. reflexivity.
    + rewrite hm_remove_get_None_len by assumption. rewrite H2, distinct_snoc.
      apply mem_false in E. rewrite E. rewrite len_app. reflexivity.
Qed.

Lemma as_inv_run : forall ops s, as_inv s -> as_inv (as_run s ops).
Proof.
  induction ops as [|[x d] ops IH]; intros s H; cbn; [exact H|].
  apply IH. apply as_inv_add. exact H.
Qed.

Lemma as_run_prefix : forall ops s, as_inv s -> exists tail, as_array (as_run s ops) = as_array s ++ tail.
Proof.
  induction ops as [|[x d] ops IH]; intros s H; cbn.
  - exists []. symmetry. apply app_nil_r.
  - destruct (IH _ (as_inv_add s x d H)) as [t Ht]. unfold as_run in Ht. rewrite Ht.
    rewrite as_add_array by assumption. destruct (negb (mem x (as_array s)) || d); [|eauto].
    exists ([x] ++ t). rewrite app_assoc. reflexivity.
Qed.

Lemma as_run_app : forall s a b, as_run s (a ++ b) = as_run (as_run s a) b.
Proof. intros. apply fold_left_app. Qed.

(** ** C06 *)
Lemma as_run_false : forall l,
  as_array (as_run as_new (map (fun x => (x, false)) l)) = distinct l.
Proof.
  intros l. induction l as [|x l IH] using rev_ind; [reflexivity|].
  rewrite map_app, as_run_app. cbn [map as_run fold_left fst snd].
  rewrite as_add_array by (apply as_inv_run, as_inv_new). rewrite IH.
  rewrite distinct_snoc, orb_false_r.
  assert (E : mem x (distinct l) = mem x l).
  { destruct (mem x l) eqn:E.
    - apply mem_In. apply distinct_In. apply mem_In. exact E.
    - apply mem_false. rewrite distinct_In. apply mem_false. exact E. }
  rewrite E. destruct (mem x l); reflexivity.
Qed.

Lemma distinct_idem : forall l, NoDup l -> distinct l = l.
Proof.
  intros l. induction l as [|x l IH] using rev_ind; intros H; [reflexivity|].
  rewrite distinct_snoc. apply NoDup_remove in H. rewrite app_nil_r in H. destruct H as [H1 H2].
  apply mem_false in H2. rewrite H2. rewrite IH by assumption. reflexivity.
Qed.

Lemma array_set_no_duplicates : forall l,
  let s := as_run as_new (map (fun x => (x, false)) l) in
  as_to_vec s = distinct l /\ as_size s = len (distinct l)
  /\ NoDup (as_to_vec s) /\ (forall x, In x (as_to_vec s) <-> In x l).
Proof.
  intros l s. assert (E : as_to_vec s = distinct l) by apply as_run_false.
  rewrite E. repeat split.
  - unfold as_size. destruct (as_inv_run (map (fun x => (x, false)) l) as_new as_inv_new) as [_ H].
    unfold s. rewrite H. fold s. unfold as_to_vec in E. rewrite E.
    rewrite distinct_idem by apply distinct_NoDup. reflexivity.
  - apply distinct_NoDup.
  - apply distinct_In.
  - apply distinct_In.
Qed.

(** ** C07 *)
Lemma as_at_spec : forall s i, len (as_array s) < 2^31 -> i <= i32_max ->
  as_at s i = if 0 <=? i then nth_error (as_array s) (Z.to_nat i) else None.
Proof.
  intros s i Hl Hi. change (2^31) with 2147483648 in Hl. change i32_max with 2147483647 in Hi.
  unfold as_at. pose proof (len_nonneg _ (as_array s)). rewrite to_i32_id by lia.
  destruct (0 <=? i) eqn:E; cbn [andb]; [|reflexivity].
  destruct (i <? len (as_array s)) eqn:E2.
  - rewrite to_usize_id by lia.
    rewrite <- vec_get_nth. rewrite Z2Nat.id by lia. reflexivity.
  - symmetry. apply nth_error_None. unfold len in E2. lia.
Qed.

Lemma array_set_lookups : forall ops,
  let s := as_run as_new ops in
  (forall x, as_has s x = true <-> In x (as_to_vec s))
  /\ (forall x, as_index_of s x = option_map Z.of_nat (first_index x (as_to_vec s)))
  /\ as_size s = len (distinct (as_to_vec s))
  /\ (len (as_to_vec s) < 2^31 ->
      (forall i, in_i32 i = true ->
         as_at s i = if 0 <=? i then nth_error (as_to_vec s) (Z.to_nat i) else None)
      /\ (forall x i, as_index_of s x = Some i -> as_at s i = Some x)).
Proof.
  intros ops s. pose proof (as_inv_run ops as_new as_inv_new) as HI. fold s in HI.
  pose proof HI as [H1 H2]. unfold as_to_vec. repeat split.
  - rewrite (as_has_iff s HI). apply mem_In.
  - rewrite (as_has_iff s HI). apply mem_In.
  - exact H1.
  - exact H2.
  - intros i Hi. apply in_i32_iff in Hi. apply as_at_spec; [assumption|].
    change i32_max with 2147483647. lia.
  - intros x i Hi. unfold as_index_of in Hi. rewrite H1 in Hi.
    destruct (first_index x (as_array s)) as [n|] eqn:E; [|discriminate]. inv Hi.
    apply first_index_some in E. destruct E as [E _].
    assert (n < length (as_array s))%nat by (apply nth_error_Some; congruence).
    change (2^31) with 2147483648 in *. unfold len in *.
    rewrite as_at_spec; [|change (2^31) with 2147483648; unfold len; lia
                         |change i32_max with 2147483647; lia].
    assert (E0 : (0 <=? Z.of_nat n) = true) by lia. rewrite E0, Nat2Z.id. exact E.
Qed.

(** ** C08 *)
Lemma array_set_stable : forall ops more,
  let s := as_run as_new ops in
  let s' := as_run s more in
  (exists tail, as_to_vec s' = as_to_vec s ++ tail)
  /\ (forall x i, as_index_of s x = Some i -> as_index_of s' x = Some i)
  /\ (forall i x, as_at s i = Some x -> len (as_to_vec s') < 2^31 -> as_at s' i = Some x).
Proof.
  intros ops more s s'. pose proof (as_inv_run ops as_new as_inv_new) as HI. fold s in HI.
  destruct (as_run_prefix more s HI) as [t Ht]. fold s' in Ht.
  pose proof (as_inv_run more s HI) as HI'. fold s' in HI'.
  repeat split.
  - exists t. exact Ht.
  - intros x i H. unfold as_index_of in *. destruct HI as [H1 _]. destruct HI' as [H1' _].
    rewrite H1 in H. rewrite H1', Ht, first_index_app.
    destruct (first_index x (as_array s)); [exact H | discriminate].
  - intros i x H Hl. unfold as_to_vec in Hl. assert (Hl2 := Hl). rewrite Ht, len_app in Hl2.
    pose proof (len_nonneg _ t). pose proof (len_nonneg _ (as_array s)).
    assert (Hi : 0 <= i <= i32_max).
    { unfold as_at in H. change i32_max with 2147483647. change (2^31) with 2147483648 in *.
      destruct ((0 <=? i) && (i <? to_i32 (len (as_array s)))) eqn:E; [|discriminate].
      rewrite to_i32_id in E by lia. lia. }
    rewrite as_at_spec in H by lia. rewrite as_at_spec by lia.
    destruct (0 <=? i) eqn:E; [|discriminate]. rewrite Ht.
    rewrite nth_error_app1; [exact H|]. apply nth_error_Some. congruence.
Qed.

Lemma as_run_true : forall l, as_to_vec (as_run as_new (map (fun x => (x, true)) l)) = l.
Proof.
  intros l. unfold as_to_vec. induction l as [|x l IH] using rev_ind; [reflexivity|].
  rewrite map_app, as_run_app. cbn [map as_run fold_left fst snd].
  rewrite as_add_array by (apply as_inv_run, as_inv_new). rewrite IH, orb_true_r. reflexivity.
Qed.

Lemma as_from_array_run : forall l d, as_from_array l d = as_run as_new (map (fun x => (x, d)) l).
Proof.
  intros l d. unfold as_from_array, as_run. generalize as_new. induction l as [|x l IH]; intros s; cbn; auto.
Qed.

Lemma as_from_array_inv : forall l d, as_inv (as_from_array l d).
Proof. intros. rewrite as_from_array_run. apply as_inv_run, as_inv_new. Qed.

Lemma as_from_array_vec : forall l,
  as_to_vec (as_from_array l true) = l /\ as_to_vec (as_from_array l false) = distinct l.
Proof.
  intros l. rewrite !as_from_array_run. split; [apply as_run_true | apply as_run_false].
Qed.

(** ** Histories that start from a new set or from an array *)
Lemma as_start : forall s0 ops, s0 = as_new \/ (exists l d, s0 = as_from_array l d) ->
  exists ops0, as_run s0 ops = as_run as_new (ops0 ++ ops) /\ s0 = as_run as_new ops0.
Proof.
  intros s0 ops [->|[l [d ->]]]; [exists []; split; reflexivity|].
  exists (map (fun x => (x, d)) l). rewrite as_run_app, as_from_array_run. split; reflexivity.
Qed.

Lemma array_set_add : forall s0 ops x d, s0 = as_new \/ (exists l d, s0 = as_from_array l d) ->
  let s := as_run s0 ops in
  ((d = true \/ ~ In x (as_to_vec s)) -> as_to_vec (as_add s x d) = as_to_vec s ++ [x])
  /\ (d = false -> In x (as_to_vec s) -> as_to_vec (as_add s x d) = as_to_vec s).
Proof.
  intros s0 ops x d H s. subst s. destruct (as_start s0 ops H) as [ops0 [-> _]].
  set (s := as_run as_new (ops0 ++ ops)).
  assert (I : as_inv s) by (apply as_inv_run, as_inv_new).
  unfold as_to_vec. rewrite (as_add_array s I). split.
  - intros [->|Hn]; [rewrite orb_true_r; reflexivity|]. apply mem_false in Hn. rewrite Hn. reflexivity.
  - intros -> Hx. apply mem_In in Hx. rewrite Hx. reflexivity.
Qed.

Lemma array_set_lookups_from : forall s0 ops, s0 = as_new \/ (exists l d, s0 = as_from_array l d) ->
  let s := as_run s0 ops in
  (forall x, as_has s x = true <-> In x (as_to_vec s))
  /\ (forall x, as_index_of s x = option_map Z.of_nat (first_index x (as_to_vec s)))
  /\ as_size s = len (distinct (as_to_vec s))
  /\ (len (as_to_vec s) < 2^31 ->
      (forall i, in_i32 i = true ->
         as_at s i = if 0 <=? i then nth_error (as_to_vec s) (Z.to_nat i) else None)
      /\ (forall x i, as_index_of s x = Some i -> as_at s i = Some x)).
Proof.
  intros s0 ops H s. subst s. destruct (as_start s0 ops H) as [ops0 [-> _]]. apply array_set_lookups.
Qed.

Lemma array_set_stable_from : forall s0 ops more, s0 = as_new \/ (exists l d, s0 = as_from_array l d) ->
  let s := as_run s0 ops in
  let s' := as_run s more in
  (exists tail, as_to_vec s' = as_to_vec s ++ tail)
  /\ (forall x i, as_index_of s x = Some i -> as_index_of s' x = Some i)
  /\ (forall i x, as_at s i = Some x -> len (as_to_vec s') < 2^31 -> as_at s' i = Some x).
Proof.
  intros s0 ops more H s s'. subst s s'. destruct (as_start s0 ops H) as [ops0 [-> _]]. apply array_set_stable.
Qed.
