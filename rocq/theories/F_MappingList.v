(** * Lemmas about MappingList *)
From Verif Require Import F_Base M_Mapping S_Mapping F_Sort F_Mapping.
From Coq Require Import Sorting.Sorted Sorting.Permutation.

Lemma ml_run_app : forall md a b l,
  ml_run md l (a ++ b) = let* l' := ml_run md l a in ml_run md l' b.
Proof.
  intros md. induction a as [|[m|] a IH]; intros b l; cbn; [reflexivity| |].
  - destruct (ml_add md l m); cbn; auto.
  - destruct (ml_to_array md l); cbn; auto.
Qed.

Lemma added_app : forall a b, added (a ++ b) = added a ++ added b.
Proof. induction a as [|[m|] a IH]; intros b; cbn; rewrite ?IH; reflexivity. Qed.

Lemma pos_le_refl : forall p, pos_le p p.
Proof. unfold pos_le. intros; lia. Qed.
Lemma pos_le_trans : forall p q r, pos_le p q -> pos_le q r -> pos_le p r.
Proof. unfold pos_le. intros; lia. Qed.
Lemma pos_le_antisym : forall p q, pos_le p q -> pos_le q p -> p = q.
Proof. unfold pos_le. intros p q H1 H2. apply pos_eq; lia. Qed.

Section Window.
Context (lo hi : Z) (Hwin : window lo hi).

Definition wfw (m : Mapping) : Prop := window_mapping lo hi m /\ shaped m.
Lemma wf_win : forall m, wfw m -> window_mapping lo hi m. Proof. intros m [H _]. exact H. Qed.
Lemma wf_shaped : forall m, wfw m -> shaped m. Proof. intros m [_ H]. exact H. Qed.

Lemma gpa_wf : forall md a b, wfw a -> wfw b ->
  exists r, generated_position_after md a b = Ok r /\ (r = true <-> gen_le a b).
Proof.
  intros md a b Ha Hb. unfold generated_position_after, gen_le, pos_le.
  destruct ((p_line (m_generated a) <? p_line (m_generated b))
            || ((p_line (m_generated b) =? p_line (m_generated a))
                && (p_column (m_generated a) <=? p_column (m_generated b)))) eqn:E.
  - exists true. split; [reflexivity|]. split; intros; [lia | reflexivity].
  - rewrite (compare_window md lo hi) by (assumption || apply wf_win; assumption). cbn [bind]. eexists. split; [reflexivity|].
    assert (0 < cmpZ a b).
    { assert (cmpZ b a < 0).
      { apply cmpZ_lt; try (apply wf_shaped; assumption). left. unfold pos_lt. lia. }
      pose proof (cmpZ_antisym a b). lia. }
    split; intros; lia.
Qed.

Lemma gpa_dummy : forall md m, in_window i32_min i32_max (m_generated m) ->
  exists r, generated_position_after md ml_dummy_last m = Ok r /\ (r = true <-> gen_le ml_dummy_last m).
Proof.
  intros md m [H1 H2]. unfold generated_position_after, gen_le, pos_le.
  change i32_min with (-2147483648) in *. change i32_max with 2147483647 in *.
  cbn [ml_dummy_last m_generated p_line p_column].
  destruct ((-1 <? p_line (m_generated m))
            || ((p_line (m_generated m) =? -1) && (-1 <=? p_column (m_generated m)))) eqn:E.
  - exists true. split; [reflexivity|]. split; intros; [lia | reflexivity].
  - unfold compare_by_generated_pos_inflated. cbn [ml_dummy_last m_generated p_line p_column].
    rewrite i32_sub_ok by lia. cbn [bind].
    destruct (negb (-1 - p_line (m_generated m) =? 0)) eqn:E1.
    + exists false. split; [|split; intros; [discriminate|lia]]. cbn [bind]. f_equal. lia.
    + rewrite i32_sub_ok by lia. cbn [bind].
      assert (E2 : negb (-1 - p_column (m_generated m) =? 0) = true) by lia. rewrite E2. cbn [bind].
      exists false. split; [|split; intros; [discriminate|lia]]. f_equal. lia.
Qed.

Lemma wfw_i32 : forall m, wfw m -> in_window i32_min i32_max (m_generated m).
Proof. intros m [[[H1 H2] _] _]. unfold window in Hwin. unfold in_window. lia. Qed.

(** ** invariant *)
Record ml_inv (l : MappingList) (ms : list Mapping) : Prop := {
  inv_perm : Permutation ms (ml_array l);
  inv_wf : Forall wfw ms;
  inv_sorted : ml_sorted l = true -> gen_sorted (ml_array l);
  inv_last : match ml_last l with
             | None => Forall (fun y => ~ gen_le ml_dummy_last y) (ml_array l)
             | Some x => wfw x /\ In x (ml_array l) /\ Forall (fun y => gen_le y x) (ml_array l)
             end }.

Lemma ml_inv_new : ml_inv ml_new [].
Proof. split; cbn; auto. intros _. constructor. Qed.

Lemma gen_sorted_snoc : forall l m, gen_sorted l -> Forall (fun y => gen_le y m) l -> gen_sorted (l ++ [m]).
Proof.
  induction l as [|x l IH]; intros m Hs Hf; cbn.
  - repeat constructor.
  - inv Hs. inv Hf. constructor; [apply IH; assumption|].
    apply Forall_app. split; [assumption|]. constructor; [assumption | constructor].
Qed.

Lemma ml_add_ok : forall md l ms m, ml_inv l ms -> wfw m ->
  exists l', ml_add md l m = Ok l' /\ ml_inv l' (ms ++ [m]) /\ ml_array l' = ml_array l ++ [m]
    /\ (gen_le ml_dummy_last m ->
        (ml_sorted l' = true <-> ml_sorted l = true /\ Forall (fun y => gen_le y m) (ml_array l))).
Proof.
  intros md l ms m HI Hm. destruct HI as [Hp Hw Hs Hl]. unfold ml_add.
  assert (Hp' : Permutation (ms ++ [m]) (ml_array l ++ [m])) by (apply Permutation_app_tail; exact Hp).
  assert (Hw' : Forall wfw (ms ++ [m])) by (apply Forall_app; split; [assumption | constructor; [assumption|constructor]]).
  destruct (ml_last l) as [x|] eqn:El.
  - destruct Hl as [Hx [Hin Hmax]]. destruct (gpa_wf md x m Hx Hm) as [r [Er Hr]]. rewrite Er. cbn [bind].
    destruct r.
    + assert (Hxm : gen_le x m) by (apply Hr; reflexivity).
      assert (Hall : Forall (fun y => gen_le y m) (ml_array l)).
      { eapply Forall_impl; [|exact Hmax]. intros y Hy. exact (pos_le_trans _ _ _ Hy Hxm). }
      eexists. split; [reflexivity|]. cbn. split; [|split; [reflexivity|tauto]].
      split; cbn; auto.
      * intros Hst. apply gen_sorted_snoc; auto.
      * split; [assumption|]. split; [apply in_app_iff; right; left; reflexivity|].
        apply Forall_app. split; [assumption|].
        constructor; [apply pos_le_refl | constructor].
    + assert (Hxm : ~ gen_le x m) by (intros Hx2; apply Hr in Hx2; discriminate).
      eexists. split; [reflexivity|]. cbn. split; [|split; [reflexivity|]].
      * split; cbn; auto; [discriminate|]. rewrite ?El. split; [assumption|].
        split; [apply in_app_iff; left; assumption|].
        apply Forall_app. split; [assumption|]. constructor; [|constructor].
        unfold gen_le, pos_le in *. lia.
      * intros _. split; [discriminate|]. intros [_ Hall]. exfalso. apply Hxm.
        rewrite Forall_forall in Hall. apply Hall. exact Hin.
  - destruct (gpa_dummy md m (wfw_i32 m Hm)) as [r [Er Hr]]. rewrite Er. cbn [bind]. destruct r.
    + assert (Hdm : gen_le ml_dummy_last m) by (apply Hr; reflexivity).
      assert (Hall : Forall (fun y => gen_le y m) (ml_array l)).
      { eapply Forall_impl; [|exact Hl]. intros y Hy. unfold gen_le, pos_le in *. lia. }
      eexists. split; [reflexivity|]. cbn. split; [|split; [reflexivity|tauto]].
      split; cbn; auto.
      * intros Hst. apply gen_sorted_snoc; auto.
      * split; [assumption|]. split; [apply in_app_iff; right; left; reflexivity|].
        apply Forall_app. split; [assumption|].
        constructor; [apply pos_le_refl | constructor].
    + assert (Hdm : ~ gen_le ml_dummy_last m) by (intros Hx2; apply Hr in Hx2; discriminate).
      eexists. split; [reflexivity|]. cbn. split; [|split; [reflexivity|]].
      * split; cbn; auto; [discriminate|]. rewrite ?El.
        apply Forall_app. split; [assumption|]. constructor; [assumption|constructor].
      * intros Hd. contradiction.
Qed.

Lemma in_dec_wf : forall l x (same : Mapping -> bool), (forall y, same y = true <-> same_mapping x y) ->
  (exists z, In z l /\ same_mapping x z) \/ (forall z, In z l -> ~ same_mapping x z).
Proof.
  intros l x same H. induction l as [|y l [[z [Hz Hs]]|Hno]].
  - right. intros z [].
  - left. exists z. split; [right|]; assumption.
  - destruct (same y) eqn:E.
    + left. exists y. split; [left; reflexivity | apply H; exact E].
    + right. intros z [->|Hz]; [|auto]. intros Hs. apply H in Hs. congruence.
Qed.

Lemma sort_mappings_ok : forall md l, Forall wfw l ->
  exists r, sort_by (compare_by_generated_pos_inflated md) l = Ok r /\ stable_sort_of l r
    /\ (forall z, wfw z -> filter (fun y => cmpZ z y =? 0) r = filter (fun y => cmpZ z y =? 0) l)
    /\ StronglySorted (fun x y => cmpZ x y <= 0) r.
Proof.
  intros md l Hl.
  destruct (sort_ok wfw (compare_by_generated_pos_inflated md) cmpZ (fun x y Hx Hy => compare_window md lo hi x y Hwin (wf_win x Hx) (wf_win y Hy))
              (fun x y _ _ => cmpZ_antisym x y) (fun x y z Hx Hy Hz => cmpZ_trans x y z (wf_shaped x Hx) (wf_shaped y Hy) (wf_shaped z Hz)) l Hl) as [r [E [Hp [Hs Hf]]]].
  exists r. split; [exact E|]. split; [|split; [exact Hf|exact Hs]].
  assert (Hr : Forall wfw r) by (rewrite <- Hp; exact Hl).
  split; [exact Hp|]. split.
  - clear - Hs Hr. induction Hs as [|x r Hs IH HF]; constructor.
    + apply IH. inv Hr. assumption.
    + inv Hr. rewrite Forall_forall in *. intros y Hy. specialize (HF y Hy). specialize (H2 y Hy).
      destruct (Z.eq_dec (cmpZ x y) 0) as [E|E].
      * right. apply cmpZ_eq; try (apply wf_shaped; assumption); assumption.
      * left. apply cmpZ_lt; try (apply wf_shaped; assumption). lia.
  - intros same x Hsame.
    destruct (in_dec_wf l x same Hsame) as [[z [Hz Hxz]]|Hno].
    + assert (Hwz : wfw z) by (rewrite Forall_forall in Hl; auto).
      assert (Hext : forall k, Forall wfw k -> filter same k = filter (fun y => cmpZ z y =? 0) k).
      { intros k Hk. apply filter_ext_in. intros y Hy. rewrite Forall_forall in Hk.
        destruct (same y) eqn:E1.
        - apply Hsame in E1. symmetry. apply Z.eqb_eq. apply cmpZ_eq; auto using wf_shaped.
          eapply same_mapping_trans; [apply same_mapping_sym; exact Hxz | exact E1].
        - symmetry. apply Z.eqb_neq. intros E2. apply cmpZ_eq in E2; auto using wf_shaped.
          assert (same y = true); [|congruence]. apply Hsame.
          eapply same_mapping_trans; eassumption. }
      rewrite (Hext r Hr), (Hext l Hl). apply Hf. exact Hwz.
    + assert (Hnone : forall k, (forall y, In y k -> In y l) -> filter same k = []).
      { intros k Hk. induction k as [|y k IH]; [reflexivity|]. cbn.
        destruct (same y) eqn:E1.
        - exfalso. apply (Hno y); [apply Hk; left; reflexivity | apply Hsame; exact E1].
        - apply IH. intros z Hz. apply Hk. right. exact Hz. }
      rewrite (Hnone l), (Hnone r); auto.
      intros y Hy. eapply Permutation_in; [symmetry; exact Hp | exact Hy].
Qed.

Lemma full_sorted_gen : forall l, Forall wfw l ->
  StronglySorted (fun x y => cmpZ x y <= 0) l -> gen_sorted l.
Proof.
  intros l Hl Hs. induction Hs as [|x l Hs IH HF]; constructor.
  - apply IH. inv Hl. assumption.
  - inv Hl. rewrite Forall_forall in *. intros y Hy. specialize (HF y Hy). specialize (H2 y Hy).
    destruct (Z.eq_dec (cmpZ x y) 0) as [E|E].
    + apply cmpZ_eq in E; try (apply wf_shaped; assumption). destruct E as [E _]. unfold gen_le. rewrite E. apply pos_le_refl.
    + assert (H : mapping_lt x y) by (apply cmpZ_lt; try (apply wf_shaped; assumption); lia).
      unfold gen_le. destruct H as [H|[H _]]; [unfold pos_lt in H; unfold pos_le; lia | rewrite H; apply pos_le_refl].
Qed.

Lemma ml_to_array_ok : forall md l ms, ml_inv l ms ->
  exists a l', ml_to_array md l = Ok (a, l') /\ ml_inv l' ms /\ ml_array l' = a /\ ml_sorted l' = true
    /\ gen_sorted a
    /\ (ml_sorted l = true -> a = ml_array l /\ l' = l)
    /\ (ml_sorted l = false -> sort_by (compare_by_generated_pos_inflated md) (ml_array l) = Ok a).
Proof.
  intros md l ms HI. pose proof HI as [Hp Hw Hs Hl]. unfold ml_to_array.
  destruct (ml_sorted l) eqn:E; cbn [negb].
  - exists (ml_array l), l. repeat split; try assumption; auto. discriminate.
  - assert (Hw2 : Forall wfw (ml_array l)) by (rewrite <- Hp; exact Hw).
    destruct (sort_mappings_ok md (ml_array l) Hw2) as [r [Er [[Hpr _] [_ Hsr]]]].
    rewrite Er. cbn [bind].
    assert (Hg : gen_sorted r) by (apply full_sorted_gen; [rewrite <- Hpr; exact Hw2 | exact Hsr]).
    exists r. eexists. split; [reflexivity|]. split; [|repeat split; auto; discriminate].
    split; cbn; auto.
    + rewrite <- Hpr. exact Hp.
    + destruct (ml_last l) as [x|].
      * destruct Hl as [H1 [H2 H3]]. split; [exact H1|]. split; [rewrite <- Hpr; exact H2|].
        rewrite <- Hpr. exact H3.
      * rewrite <- Hpr. exact Hl.
Qed.

Lemma ml_run_ok : forall md ops l ms, ml_inv l ms -> Forall wfw (added ops) ->
  exists l', ml_run md l ops = Ok l' /\ ml_inv l' (ms ++ added ops).
Proof.
  intros md. induction ops as [|[m|] ops IH]; intros l ms HI Hw; cbn in *.
  - exists l. rewrite app_nil_r. auto.
  - inv Hw. destruct (ml_add_ok md l ms m HI H1) as [l1 [E [HI1 _]]]. rewrite E. cbn.
    destruct (IH l1 (ms ++ [m]) HI1 H2) as [l' [E2 HI2]]. exists l'. split; [exact E2|].
    rewrite <- app_assoc in HI2. exact HI2.
  - destruct (ml_to_array_ok md l ms HI) as [a [l1 [E [HI1 _]]]]. rewrite E. cbn.
    apply IH; assumption.
Qed.

(** C16 *)
Lemma to_array_sorted_permutation : forall md ops, Forall wfw (added ops) ->
  exists l a l', ml_run md ml_new ops = Ok l /\ ml_to_array md l = Ok (a, l')
    /\ Permutation (added ops) a /\ gen_sorted a.
Proof.
  intros md ops Hw. destruct (ml_run_ok md ops ml_new [] ml_inv_new Hw) as [l [E HI]].
  destruct (ml_to_array_ok md l _ HI) as [a [l' [E2 [HI2 [Ha [_ [Hg _]]]]]]].
  exists l, a, l'. repeat split; auto. destruct HI2 as [Hp _ _ _]. cbn in Hp. rewrite <- Ha. exact Hp.
Qed.

(** C17 *)
Lemma added_adds : forall ms, added (adds ms) = ms.
Proof. induction ms as [|m ms IH]; unfold adds in *; cbn; [reflexivity|]. rewrite IH. reflexivity. Qed.

Lemma gen_sorted_snoc_inv : forall l m, gen_sorted (l ++ [m]) -> gen_sorted l /\ Forall (fun y => gen_le y m) l.
Proof.
  induction l as [|x l IH]; intros m H; cbn in *.
  - split; constructor.
  - inv H. apply IH in H2. destruct H2 as [H1 H2]. apply Forall_app in H3. destruct H3 as [H3 H4].
    split; constructor; auto. inv H4. assumption.
Qed.

Lemma adds_only : 0 <= lo -> forall md ms, Forall wfw ms ->
  exists l, ml_run md ml_new (adds ms) = Ok l /\ ml_inv l ms /\ ml_array l = ms
    /\ (ml_sorted l = true <-> gen_sorted ms).
Proof.
  intros Hlo md ms. induction ms as [|m ms IH] using rev_ind; intros Hw.
  - exists ml_new. repeat split; auto; try constructor; cbn; auto.
  - apply Forall_app in Hw. destruct Hw as [Hw Hm]. inv Hm.
    destruct (IH Hw) as [l [E [HI [Ha Hs]]]].
    destruct (ml_add_ok md l ms m HI H1) as [l' [E2 [HI2 [Ha2 Hs2]]]].
    exists l'. unfold adds. rewrite map_app, ml_run_app. fold (adds ms). rewrite E. cbn. rewrite E2. cbn.
    split; [reflexivity|]. split; [exact HI2|]. split; [rewrite Ha2, Ha; reflexivity|].
    rewrite Hs2, Hs, Ha; [split|].
    + intros [H3 H4]. apply gen_sorted_snoc; assumption.
    + apply gen_sorted_snoc_inv.
    + destruct H1 as [[[H1 _] _] _]. left. cbn [ml_dummy_last m_generated p_line]. lia.
Qed.

Lemma to_array_stable : 0 <= lo -> forall md ms, Forall wfw ms ->
  exists l a l', ml_run md ml_new (adds ms) = Ok l /\ ml_to_array md l = Ok (a, l')
    /\ (gen_sorted ms -> a = ms)
    /\ (~ gen_sorted ms -> stable_sort_of ms a).
Proof.
  intros Hlo md ms Hw. destruct (adds_only Hlo md ms Hw) as [l [E [HI [Ha Hs]]]].
  destruct (ml_to_array_ok md l ms HI) as [a [l' [E2 [_ [_ [_ [_ [H1 H2]]]]]]]].
  exists l, a, l'. repeat split; auto.
  - intros Hg. destruct H1 as [H1 _]; [apply Hs; exact Hg|]. congruence.
  - destruct (ml_sorted l) eqn:Es; [exfalso; apply H; apply Hs; reflexivity|].
    specialize (H2 eq_refl). rewrite Ha in H2.
    destruct (sort_mappings_ok md ms Hw) as [r [Er [Hst _]]]. rewrite Er in H2. inv H2. apply Hst.
  - destruct (ml_sorted l) eqn:Es; [exfalso; apply H; apply Hs; reflexivity|].
    specialize (H2 eq_refl). rewrite Ha in H2.
    destruct (sort_mappings_ok md ms Hw) as [r [Er [Hst _]]]. rewrite Er in H2. inv H2. apply Hst.
  - destruct (ml_sorted l) eqn:Es; [exfalso; apply H; apply Hs; reflexivity|].
    specialize (H2 eq_refl). rewrite Ha in H2.
    destruct (sort_mappings_ok md ms Hw) as [r [Er [Hst _]]]. rewrite Er in H2. inv H2. apply Hst.
Qed.

End Window.

Lemma to_array_repeat : forall md l a l', ml_to_array md l = Ok (a, l') ->
  ml_to_array md l' = Ok (a, l').
Proof.
  intros md l a l' H. unfold ml_to_array in *. destruct (ml_sorted l) eqn:E; cbn [negb] in H.
  - inv H. rewrite E. reflexivity.
  - bind_inv H. inv H. reflexivity.
Qed.

Lemma wf_Forall : forall ms, Forall wf_mapping ms -> Forall (wfw 0 i32_max) ms.
Proof. intros ms H. eapply Forall_impl; [|exact H]. intros m Hm. apply wf_window. exact Hm. Qed.

Lemma to_array_sorted_permutation_wf : forall md ops, Forall wf_mapping (added ops) ->
  exists l a l', ml_run md ml_new ops = Ok l /\ ml_to_array md l = Ok (a, l')
    /\ Permutation (added ops) a /\ gen_sorted a.
Proof.
  intros md ops Hw. exact (to_array_sorted_permutation 0 i32_max window_nat md ops (wf_Forall _ Hw)).
Qed.

Lemma to_array_stable_wf : forall md ms, Forall wf_mapping ms ->
  exists l a l', ml_run md ml_new (adds ms) = Ok l /\ ml_to_array md l = Ok (a, l')
    /\ (gen_sorted ms -> a = ms)
    /\ (~ gen_sorted ms -> stable_sort_of ms a).
Proof.
  intros md ms Hw. apply (to_array_stable 0 i32_max window_nat); [lia | apply wf_Forall; exact Hw].
Qed.

(** C78 *)
Lemma same_mapping_dec : forall a b, {same_mapping a b} + {~ same_mapping a b}.
Proof.
  assert (Dp : forall p q : Position, {p = q} + {p <> q}) by (decide equality; apply Z.eq_dec).
  assert (Ds : forall p q : option str, {p = q} + {p <> q}) by (decide equality; apply list_eq_dec; apply N.eq_dec).
  assert (Do : forall p q : option Position, {p = q} + {p <> q}) by (decide equality).
  intros a b. unfold same_mapping.
  destruct (Dp (m_generated a) (m_generated b)); [|right; tauto].
  destruct (Ds (m_source a) (m_source b)); [|right; tauto].
  destruct (Do (m_original a) (m_original b)); [|right; tauto].
  destruct (Ds (m_name a) (m_name b)); [left|right]; tauto.
Qed.

Lemma mapping_lt_irrefl : forall a, ~ mapping_lt a a.
Proof.
  assert (Hs : forall s, ~ str_lt s s).
  { induction s as [|c s IH]; intros H; inv H; [lia | contradiction]. }
  assert (Ho : forall o, ~ ostr_lt o o) by (intros o H; inv H; eapply Hs; eassumption).
  intros a [H|[_ [H|[_ [H|[_ H]]]]]].
  - unfold pos_lt in H. lia.
  - eapply Ho; eassumption.
  - destruct (m_original a); cbn in H; [unfold pos_lt in H; lia | exact H].
  - eapply Ho; eassumption.
Qed.

Lemma stable_unique : forall s t, Permutation s t ->
  StronglySorted (fun a b => mapping_lt a b \/ same_mapping a b) s ->
  StronglySorted (fun a b => mapping_lt a b \/ same_mapping a b) t ->
  (forall (same : Mapping -> bool) (x : Mapping), (forall y, same y = true <-> same_mapping x y) -> filter same s = filter same t) ->
  s = t.
Proof.
  induction s as [|x s IH]; intros t Hp Hs Ht Hf.
  - apply Permutation_nil in Hp. congruence.
  - destruct t as [|y t]; [symmetry in Hp; apply Permutation_nil in Hp; discriminate|].
    assert (Hxy : same_mapping x y).
    { assert (A : mapping_lt x y \/ same_mapping x y).
      { assert (Hy : In y (x :: s)) by (rewrite Hp; left; reflexivity). destruct Hy as [->|Hy]; [right; apply same_mapping_refl|].
        inv Hs. rewrite Forall_forall in H2. auto. }
      assert (B : mapping_lt y x \/ same_mapping y x).
      { assert (Hx : In x (y :: t)) by (rewrite <- Hp; left; reflexivity). destruct Hx as [->|Hx]; [right; apply same_mapping_refl|].
        inv Ht. rewrite Forall_forall in H2. auto. }
      destruct A as [A|A]; [|exact A]. destruct B as [B|B].
      - exfalso. apply (mapping_lt_irrefl x). eapply mapping_lt_trans; eassumption.
      - apply same_mapping_sym. exact B. }
    assert (E : x = y).
    { specialize (Hf (fun z => if same_mapping_dec x z then true else false) x). cbn in Hf.
      assert (G : forall z, (if same_mapping_dec x z then true else false) = true <-> same_mapping x z).
      { intros z. destruct (same_mapping_dec x z); split; auto; discriminate. }
      specialize (Hf G). destruct (same_mapping_dec x x) as [_|n]; [|destruct n; apply same_mapping_refl].
      destruct (same_mapping_dec x y) as [_|n]; [|contradiction]. congruence. }
    subst y. f_equal. apply Permutation_cons_inv in Hp. inv Hs. inv Ht. apply IH; try assumption.
    intros same z G. specialize (Hf same z G). cbn in Hf. destruct (same x); congruence.
Qed.

Lemma stable_sort_unique : forall l s t, stable_sort_of l s -> stable_sort_of l t -> s = t.
Proof.
  intros l s t [P1 [S1 F1]] [P2 [S2 F2]]. apply stable_unique; try assumption.
  - rewrite <- P1. exact P2.
  - intros same x G. rewrite (F1 same x G), (F2 same x G). reflexivity.
Qed.

Lemma held_unique : forall ops l, held ops l -> forall l', held ops l' -> l = l'.
Proof.
  intros ops l H. induction H as [|ops l m H IH|ops l H IH Hs|ops l a H IH Hs Ha]; intros l' H'.
  - inversion H' as [E| ? ? ? ? E|? ? ? ? E|? ? ? ? ? ? E]; [reflexivity| | |]; destruct ops; discriminate.
  - inversion H' as [E| ops' l1 m' H1 E|? ? ? ? E|? ? ? ? ? ? E].
    + destruct ops; discriminate.
    + apply app_inj_tail in E. destruct E as [-> E]. inv E. rewrite (IH _ H1). reflexivity.
    + apply app_inj_tail in E. destruct E as [_ E]. discriminate.
    + apply app_inj_tail in E. destruct E as [_ E]. discriminate.
  - inversion H' as [E| ? ? ? ? E|? ? H1 ? E|? ? ? H1 Hs1 ? E].
    + destruct ops; discriminate.
    + apply app_inj_tail in E. destruct E as [_ E]. discriminate.
    + apply app_inj_tail in E. destruct E as [-> _]. apply IH. assumption.
    + apply app_inj_tail in E. destruct E as [-> _]. rewrite <- (IH _ H1) in Hs1. contradiction.
  - inversion H' as [E| ? ? ? ? E|? ? H1 Hs1 E|? l1 ? H1 ? Ha1 E].
    + destruct ops; discriminate.
    + apply app_inj_tail in E. destruct E as [_ E]. discriminate.
    + apply app_inj_tail in E. destruct E as [-> _]. rewrite <- (IH _ H1) in Hs1. contradiction.
    + apply app_inj_tail in E. destruct E as [-> _]. rewrite <- (IH _ H1) in Ha1. eapply stable_sort_unique; eassumption.
Qed.

Lemma run_held : forall md ops, Forall wf_mapping (added ops) ->
  exists l, ml_run md ml_new ops = Ok l /\ ml_inv 0 i32_max l (added ops) /\ held ops (ml_array l)
    /\ (ml_sorted l = true <-> gen_sorted (ml_array l)).
Proof.
  intros md ops. induction ops as [|op ops IH] using rev_ind; intros Hw.
  - exists ml_new. split; [reflexivity|]. split; [apply ml_inv_new|]. split; [constructor|]. split; intros; [constructor|reflexivity].
  - rewrite added_app in *. apply Forall_app in Hw. destruct Hw as [Hw Hm].
    destruct (IH Hw) as [l [E [HI [Hh Hs]]]]. rewrite ml_run_app, E. cbn [bind]. destruct op as [m|]; cbn [added ml_run] in *.
    + inv Hm. destruct (ml_add_ok 0 i32_max window_nat md l _ m HI (proj1 (wf_window _) H1)) as [l' [E2 [HI2 [Ha2 Hs2]]]].
      rewrite E2. cbn [bind]. exists l'. split; [reflexivity|]. split; [exact HI2|]. rewrite Ha2.
      split; [constructor; exact Hh|]. rewrite Hs2, Hs.
      * split; [intros [A B]; apply gen_sorted_snoc; assumption | apply gen_sorted_snoc_inv].
      * destruct H1 as [[[H1 _] _] _]. left. cbn [ml_dummy_last m_generated p_line]. lia.
    + rewrite app_nil_r. destruct (ml_to_array_ok 0 i32_max window_nat md l _ HI) as [a [l' [E2 [HI2 [Ha [Hs2 [Hg [H1 H2]]]]]]]].
      rewrite E2. cbn [bind snd]. exists l'. split; [reflexivity|]. split; [exact HI2|]. rewrite Ha. split; [|tauto].
      destruct (ml_sorted l) eqn:Es.
      * destruct (H1 eq_refl) as [-> _]. apply held_kept; [exact Hh | apply Hs; reflexivity].
      * apply (held_sorted _ (ml_array l)); [exact Hh | intros G; apply Hs in G; discriminate |].
        destruct HI as [Hp Hwf _ _]. assert (Hw2 : Forall (wfw 0 i32_max) (ml_array l)) by (rewrite <- Hp; exact Hwf).
        destruct (sort_mappings_ok 0 i32_max window_nat md (ml_array l) Hw2) as [r [Er [Hst _]]].
        rewrite (H2 eq_refl) in Er. inv Er. exact Hst.
Qed.

Lemma visits_fst : forall l, map fst (ml_unsorted_for_each l) = ml_array l
  /\ map snd (ml_unsorted_for_each l) = map Z.of_nat (seq 0 (List.length (ml_array l))).
Proof.
  intros l. unfold ml_unsorted_for_each. generalize 0%nat. induction (ml_array l) as [|x a IH]; intros n; [split; reflexivity|].
  cbn. destruct (IH (S n)) as [-> ->]. split; reflexivity.
Qed.

Lemma history_held : forall md ops, Forall wf_mapping (added ops) ->
  exists l a l', ml_run md ml_new ops = Ok l
    /\ held ops (map fst (ml_unsorted_for_each l))
    /\ map snd (ml_unsorted_for_each l) = map Z.of_nat (seq 0 (List.length (added ops)))
    /\ ml_to_array md l = Ok (a, l') /\ held (ops ++ [ToArray]) a.
Proof.
  intros md ops Hw. destruct (run_held md ops Hw) as [l [E [HI [Hh _]]]].
  assert (Hw2 : Forall wf_mapping (added (ops ++ [ToArray]))) by (rewrite added_app; cbn; rewrite app_nil_r; exact Hw).
  destruct (run_held md (ops ++ [ToArray]) Hw2) as [l2 [E2 [_ [Hh2 _]]]]. rewrite ml_run_app, E in E2. cbn in E2.
  destruct (ml_to_array md l) as [[a l']|] eqn:H; [|discriminate]. cbn in E2. inv E2. exists l, a, l2. destruct (visits_fst l) as [-> ->]. split; [exact E|]. split; [exact Hh|]. split.
  - destruct HI as [Hp _ _ _]. rewrite (Permutation_length Hp). reflexivity.
  - split; [exact H|]. replace a with (ml_array l2); [exact Hh2|].
    unfold ml_to_array in H. destruct (ml_sorted l); cbn [negb] in H; [inv H; reflexivity|]. bind_inv H. inv H. reflexivity.
Qed.

(** C18 *)
Definition distinct_positions (ms : list Mapping) : Prop := NoDup (map m_generated ms).

Lemma distinct_positions_eq : forall ms x y, distinct_positions ms -> In x ms -> In y ms ->
  m_generated x = m_generated y -> x = y.
Proof.
  induction ms as [|m ms IH]; intros x y Hd Hx Hy E; [destruct Hx|].
  unfold distinct_positions in Hd. cbn in Hd. inv Hd.
  destruct Hx as [->|Hx]; destruct Hy as [->|Hy]; auto.
  - exfalso. apply H1. rewrite E. apply in_map. exact Hy.
  - exfalso. apply H1. rewrite <- E. apply in_map. exact Hx.
Qed.

Lemma to_array_order_independent : forall md ops1 ops2,
  Forall wf_mapping (added ops1) -> distinct_positions (added ops1) ->
  Permutation (added ops1) (added ops2) ->
  exists l1 l2 a l1' l2', ml_run md ml_new ops1 = Ok l1 /\ ml_run md ml_new ops2 = Ok l2
    /\ ml_to_array md l1 = Ok (a, l1') /\ ml_to_array md l2 = Ok (a, l2').
Proof.
  intros md ops1 ops2 Hw Hd Hp.
  assert (Hw2 : Forall wf_mapping (added ops2)) by (rewrite <- Hp; exact Hw).
  destruct (to_array_sorted_permutation_wf md ops1 Hw) as [l1 [a1 [l1' [E1 [T1 [P1 S1]]]]]].
  destruct (to_array_sorted_permutation_wf md ops2 Hw2) as [l2 [a2 [l2' [E2 [T2 [P2 S2]]]]]].
  assert (a1 = a2).
  { eapply sorted_perm_unique; [exact S1 | exact S2 | rewrite <- P1, Hp; exact P2 |].
    intros x y Hx Hy H1 H2.
    apply (distinct_positions_eq (added ops1)); auto.
    - eapply Permutation_in; [symmetry; exact P1 | exact Hx].
    - eapply Permutation_in; [symmetry; exact P1 | exact Hy].
    - apply pos_le_antisym; assumption. }
  subst a2. exists l1, l2, a1, l1', l2'. auto.
Qed.

Definition c18_map (name : string) : Mapping :=
  mkMapping (mkPos 1 0) None None (Some (lit name)) None.

Lemma to_array_order_dependent : forall md, exists ops1 ops2 l1 l2 a1 a2 l1' l2',
  Forall wf_mapping (added ops1) /\ Permutation (added ops1) (added ops2)
  /\ ml_run md ml_new ops1 = Ok l1 /\ ml_run md ml_new ops2 = Ok l2
  /\ ml_to_array md l1 = Ok (a1, l1') /\ ml_to_array md l2 = Ok (a2, l2') /\ a1 <> a2.
Proof.
  intros md. exists [Add (c18_map "a"); Add (c18_map "b")], [Add (c18_map "b"); Add (c18_map "a")].
  do 6 eexists. split; [|split; [apply perm_swap|]].
  - repeat constructor; cbn; unfold i32_max; change (2^31) with 2147483648; lia.
  - repeat split; try reflexivity. cbn. discriminate.
Qed.
