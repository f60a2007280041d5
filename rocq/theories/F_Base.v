(** * Lemmas about Base *)
From Coq Require Export ZifyBool.
From Verif Require Export Base.

(** ** results *)
Lemma bind_ok : forall {A B} (m : res A) (k : A -> res B) b,
  bind m k = Ok b -> exists a, m = Ok a /\ k a = Ok b.
Proof. intros A B [a|p] k b H; cbn in H; [eauto | discriminate]. Qed.

Ltac inv H := inversion H; subst; clear H.

(** Split [H : let* x := m in k = Ok b]. *)
Ltac bind_inv H :=
  let x := fresh "x" in let H1 := fresh H in
  apply bind_ok in H; destruct H as [x [H1 H]].

Lemma unwrap_some : forall {A} (o : option A) a, unwrap o = Ok a <-> o = Some a.
Proof. intros A [x|] a; cbn; split; intros H; inv H; reflexivity. Qed.

Lemma mapM_ok : forall {A B} (f : A -> res B) (g : A -> B) l,
  (forall x, In x l -> f x = Ok (g x)) -> mapM f l = Ok (map g l).
Proof.
  induction l as [|x l IH]; intros H; cbn; [reflexivity|].
  rewrite (H x) by (left; reflexivity). cbn.
  rewrite IH by (intros y Hy; apply H; right; exact Hy). reflexivity.
Qed.

Lemma mapM_inv : forall {A B} (f : A -> res B) l r,
  mapM f l = Ok r -> Forall2 (fun x y => f x = Ok y) l r.
Proof.
  induction l as [|x l IH]; intros r H; cbn in H.
  - inv H. constructor.
  - bind_inv H. bind_inv H. inv H. constructor; auto.
Qed.

(** ** integers *)
Lemma in_i32_iff : forall z, in_i32 z = true <-> -2147483648 <= z <= 2147483647.
Proof. intros z. unfold in_i32, i32_min, i32_max. change (2^31) with 2147483648. lia. Qed.

Lemma in_u32_iff : forall z, in_u32 z = true <-> 0 <= z < 4294967296.
Proof. intros z. unfold in_u32. change (2^32) with 4294967296. lia. Qed.

Lemma to_i32_id : forall z, -2147483648 <= z <= 2147483647 -> to_i32 z = z.
Proof.
  intros z H. unfold to_i32. change (2^31) with 2147483648. change (2^32) with 4294967296.
  rewrite Z.mod_small by lia. lia.
Qed.

Lemma to_i32_range : forall z, -2147483648 <= to_i32 z <= 2147483647.
Proof.
  intros z. unfold to_i32. change (2^31) with 2147483648. change (2^32) with 4294967296.
  pose proof (Z.mod_pos_bound (z + 2147483648) 4294967296). lia.
Qed.

Lemma to_i32_eqm : forall z, exists k, to_i32 z = z + k * 4294967296.
Proof.
  intros z. unfold to_i32. change (2^31) with 2147483648. change (2^32) with 4294967296.
  exists (- ((z + 2147483648) / 4294967296)).
  pose proof (Z.div_mod (z + 2147483648) 4294967296). lia.
Qed.

Lemma to_u32_id : forall z, 0 <= z < 4294967296 -> to_u32 z = z.
Proof. intros z H. unfold to_u32. change (2^32) with 4294967296. apply Z.mod_small. exact H. Qed.

Lemma to_u32_range : forall z, 0 <= to_u32 z < 4294967296.
Proof. intros z. unfold to_u32. change (2^32) with 4294967296. apply Z.mod_pos_bound. lia. Qed.

Lemma to_usize_id : forall z, 0 <= z < 18446744073709551616 -> to_usize z = z.
Proof. intros z H. unfold to_usize. change (2^64) with 18446744073709551616. apply Z.mod_small. exact H. Qed.

Lemma to_usize_neg : forall z, -18446744073709551616 <= z < 0 -> to_usize z = z + 18446744073709551616.
Proof.
  intros z H. unfold to_usize. change (2^64) with 18446744073709551616.
  rewrite <- (Z.mod_small (z + 18446744073709551616) 18446744073709551616) by lia.
  rewrite <- Zplus_mod_idemp_r. rewrite Z_mod_same_full. rewrite Z.add_0_r. reflexivity.
Qed.

Lemma checked_i32_ok : forall md z, -2147483648 <= z <= 2147483647 -> checked_i32 md z = Ok z.
Proof. intros md z H. unfold checked_i32. rewrite (proj2 (in_i32_iff z) H). reflexivity. Qed.

Lemma checked_u32_ok : forall md z, 0 <= z < 4294967296 -> checked_u32 md z = Ok z.
Proof. intros md z H. unfold checked_u32. rewrite (proj2 (in_u32_iff z) H). reflexivity. Qed.

Lemma i32_add_ok : forall md a b, -2147483648 <= a + b <= 2147483647 -> i32_add md a b = Ok (a + b).
Proof. intros; apply checked_i32_ok; assumption. Qed.
Lemma i32_sub_ok : forall md a b, -2147483648 <= a - b <= 2147483647 -> i32_sub md a b = Ok (a - b).
Proof. intros; apply checked_i32_ok; assumption. Qed.
Lemma i32_neg_ok : forall md a, -2147483648 <= - a <= 2147483647 -> i32_neg md a = Ok (- a).
Proof. intros; apply checked_i32_ok; assumption. Qed.
Lemma u32_add_ok : forall md a b, 0 <= a + b < 4294967296 -> u32_add md a b = Ok (a + b).
Proof. intros; apply checked_u32_ok; assumption. Qed.
Lemma u32_sub_ok : forall md a b, 0 <= a - b < 4294967296 -> u32_sub md a b = Ok (a - b).
Proof. intros; apply checked_u32_ok; assumption. Qed.

Lemma checked_i32_range : forall md z r, checked_i32 md z = Ok r -> -2147483648 <= r <= 2147483647.
Proof.
  intros md z r. unfold checked_i32. destruct (in_i32 z) eqn:E.
  - intros H; inv H. apply in_i32_iff; assumption.
  - destruct md; intros H; inv H. apply to_i32_range.
Qed.

(** ** lists *)
Lemma len_nil : forall A, len (@nil A) = 0.
Proof. reflexivity. Qed.
Lemma len_cons : forall A (x : A) l, len (x :: l) = len l + 1.
Proof. intros. unfold len. cbn [length]. lia. Qed.
Lemma len_app : forall A (a b : list A), len (a ++ b) = len a + len b.
Proof. intros. unfold len. rewrite app_length. lia. Qed.
Lemma len_nonneg : forall A (l : list A), 0 <= len l.
Proof. intros. unfold len. lia. Qed.
Lemma len_map : forall A B (f : A -> B) l, len (map f l) = len l.
Proof. intros. unfold len. rewrite map_length. reflexivity. Qed.

Lemma vec_get_nth : forall A (l : list A) n, vec_get l (Z.of_nat n) = nth_error l n.
Proof.
  intros A l n. unfold vec_get, len.
  destruct ((0 <=? Z.of_nat n) && (Z.of_nat n <? Z.of_nat (length l))) eqn:E.
  - rewrite Nat2Z.id. reflexivity.
  - symmetry. apply nth_error_None. lia.
Qed.

Lemma vec_get_in_range : forall A (l : list A) i, 0 <= i < len l -> exists a, vec_get l i = Some a.
Proof.
  intros A l i H. unfold vec_get, len in *.
  destruct ((0 <=? i) && (i <? Z.of_nat (length l))) eqn:E; [|lia].
  destruct (nth_error l (Z.to_nat i)) eqn:E2; [eauto|].
  apply nth_error_None in E2. lia.
Qed.

Lemma vec_get_range : forall A (l : list A) i a, vec_get l i = Some a -> 0 <= i < len l.
Proof.
  intros A l i a. unfold vec_get. destruct ((0 <=? i) && (i <? len l)) eqn:E; [|discriminate].
  intros _. lia.
Qed.

Lemma vec_get_none : forall A (l : list A) i, ~ (0 <= i < len l) -> vec_get l i = None.
Proof.
  intros A l i H. unfold vec_get. destruct ((0 <=? i) && (i <? len l)) eqn:E; [lia|reflexivity].
Qed.

Lemma vec_get_some_nth : forall A (l : list A) i a,
  vec_get l i = Some a <-> 0 <= i /\ nth_error l (Z.to_nat i) = Some a.
Proof.
  intros A l i a. split.
  - intros H. pose proof (vec_get_range _ _ _ _ H). split; [lia|].
    rewrite <- vec_get_nth. rewrite Z2Nat.id by lia. exact H.
  - intros [H1 H2]. rewrite <- vec_get_nth in H2. rewrite Z2Nat.id in H2 by lia. exact H2.
Qed.

Lemma vec_index_ok : forall A (l : list A) i a, vec_index l i = Ok a <-> vec_get l i = Some a.
Proof.
  intros. unfold vec_index. destruct (vec_get l i); split; intros H; inv H; reflexivity.
Qed.

Lemma vec_index_nth : forall A (l : list A) n a, nth_error l n = Some a -> vec_index l (Z.of_nat n) = Ok a.
Proof. intros. apply vec_index_ok. rewrite vec_get_nth. assumption. Qed.

(** ** strings *)
Lemma str_eqb_eq : forall a b, str_eqb a b = true <-> a = b.
Proof.
  induction a as [|x a IH]; destruct b as [|y b]; cbn; split; intros H;
    try discriminate; try reflexivity.
  - apply andb_true_iff in H as [H1 H2]. apply N.eqb_eq in H1. apply IH in H2. subst. reflexivity.
  - inv H. rewrite N.eqb_refl. cbn. apply IH. reflexivity.
Qed.
Lemma str_eqb_refl : forall a, str_eqb a a = true.
Proof. intros. apply str_eqb_eq. reflexivity. Qed.
Lemma str_eqb_neq : forall a b, str_eqb a b = false <-> a <> b.
Proof.
  intros. destruct (str_eqb a b) eqn:E.
  - apply str_eqb_eq in E. split; intros H; [discriminate | contradiction].
  - split; intros H; [|reflexivity]. intros H2. apply str_eqb_eq in H2. congruence.
Qed.
Lemma str_eqb_sym : forall a b, str_eqb a b = str_eqb b a.
Proof.
  intros. destruct (str_eqb b a) eqn:E.
  - apply str_eqb_eq in E. subst. apply str_eqb_refl.
  - apply str_eqb_neq in E. apply str_eqb_neq. congruence.
Qed.
Definition str_eq_dec : forall a b : str, {a = b} + {a <> b} := list_eq_dec N.eq_dec.

Lemma ostr_eqb_eq : forall a b, ostr_eqb a b = true <-> a = b.
Proof.
  intros [a|] [b|]; cbn; split; intros H; try discriminate; try reflexivity.
  - apply str_eqb_eq in H. subst. reflexivity.
  - inv H. apply str_eqb_refl.
Qed.

Lemma str_compare_eq : forall a b, str_compare a b = Eq <-> a = b.
Proof.
  induction a as [|x a IH]; destruct b as [|y b]; cbn; split; intros H;
    try discriminate; try reflexivity.
  - destruct (N.compare x y) eqn:E; try discriminate.
    apply N.compare_eq_iff in E. apply IH in H. subst. reflexivity.
  - inv H. rewrite N.compare_refl. apply IH. reflexivity.
Qed.
Lemma str_compare_refl : forall a, str_compare a a = Eq.
Proof. intros. apply str_compare_eq. reflexivity. Qed.
Lemma str_compare_antisym : forall a b, str_compare b a = CompOpp (str_compare a b).
Proof.
  induction a as [|x a IH]; destruct b as [|y b]; cbn; try reflexivity.
  rewrite (N.compare_antisym x y).
  destruct (N.compare x y); cbn; [apply IH | reflexivity | reflexivity].
Qed.
Lemma str_compare_lt_trans : forall a b c,
  str_compare a b = Lt -> str_compare b c = Lt -> str_compare a c = Lt.
Proof.
  induction a as [|x a IH]; destruct b as [|y b]; destruct c as [|z c]; cbn; intros H1 H2;
    try discriminate; try reflexivity.
  destruct (N.compare x y) eqn:E1; try discriminate.
  - apply N.compare_eq_iff in E1; subst. destruct (N.compare y z); try discriminate; eauto.
  - destruct (N.compare y z) eqn:E2; try discriminate.
    + apply N.compare_eq_iff in E2; subst. rewrite E1. reflexivity.
    + rewrite (proj2 (N.compare_lt_iff x z)); [reflexivity|].
      apply N.compare_lt_iff in E1. apply N.compare_lt_iff in E2. eapply N.lt_trans; eassumption.
Qed.

(** ** HashMap *)
Lemma hm_get_remove_same : forall V k (m : hmap V), hm_get k (hm_remove k m) = None.
Proof.
  induction m as [|[k' v] m IH]; cbn; [reflexivity|].
  destruct (str_eqb k k') eqn:E; [exact IH|]. cbn. rewrite E. exact IH.
Qed.
Lemma hm_get_remove_other : forall V k k' (m : hmap V), k <> k' -> hm_get k (hm_remove k' m) = hm_get k m.
Proof.
  induction m as [|[k2 v] m IH]; intros H; cbn; [reflexivity|].
  destruct (str_eqb k' k2) eqn:E.
  - apply str_eqb_eq in E; subst. destruct (str_eqb k k2) eqn:E2.
    + apply str_eqb_eq in E2. contradiction.
    + auto.
  - cbn. destruct (str_eqb k k2); auto.
Qed.
Lemma hm_get_insert_same : forall V k (v : V) m, hm_get k (hm_insert k v m) = Some v.
Proof. intros. cbn. rewrite str_eqb_refl. reflexivity. Qed.
Lemma hm_get_insert_other : forall V k k' (v : V) m, k <> k' -> hm_get k (hm_insert k' v m) = hm_get k m.
Proof.
  intros. cbn. destruct (str_eqb k k') eqn:E.
  - apply str_eqb_eq in E. contradiction.
  - apply hm_get_remove_other; assumption.
Qed.
Lemma hm_remove_absent : forall V k (m : hmap V), hm_get k m = None -> hm_remove k m = m.
Proof.
  induction m as [|[k' v] m IH]; intros H; cbn in *; [reflexivity|].
  destruct (str_eqb k k') eqn:E; [discriminate|]. f_equal. auto.
Qed.

Lemma hm_get_none : forall V k (m : hmap V), hm_get k m = None <-> ~ In k (map fst m).
Proof.
  induction m as [|[k' v] m IH]; cbn; [tauto|].
  destruct (str_eqb k k') eqn:E.
  - apply str_eqb_eq in E; subst. split; intros H; [discriminate|tauto].
  - apply str_eqb_neq in E. rewrite IH. split; intros H; [intros [H2|H2]; congruence | tauto].
Qed.
