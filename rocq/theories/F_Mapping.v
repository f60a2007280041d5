(** * Lemmas about strcmp, the mapping comparison and MappingList *)
From Verif Require Import F_Base M_Mapping S_Mapping F_Sort.
From Coq Require Import Sorting.Sorted Sorting.Permutation.

(** ** strings *)
Lemma str_lt_iff : forall a b, str_compare a b = Lt <-> str_lt a b.
Proof.
  induction a as [|x a IH]; destruct b as [|y b]; cbn; split; intros H;
    try discriminate; try (inv H; fail); try reflexivity; try (apply str_lt_nil).
  - destruct (N.compare x y) eqn:E; try discriminate.
    + apply N.compare_eq_iff in E; subst. apply str_lt_tail. apply IH. exact H.
    + apply str_lt_head. exact E.
  - inv H.
    + rewrite (proj2 (N.compare_lt_iff x y) H1). reflexivity.
    + rewrite N.compare_refl. apply IH. exact H1.
Qed.

Lemma str_compare_gt : forall a b, str_compare a b = Gt <-> str_lt b a.
Proof.
  intros a b. rewrite <- str_lt_iff. rewrite (str_compare_antisym a b).
  destruct (str_compare a b); cbn; split; congruence.
Qed.

Lemma strcmp_lt : forall a b, strcmp a b < 0 <-> ostr_lt a b.
Proof.
  intros a b. unfold strcmp. destruct (ostr_eqb a b) eqn:E.
  - apply ostr_eqb_eq in E. subst. split; [lia|]. intros H. exfalso. destruct b as [b|]; inv H.
    apply str_lt_iff in H2. rewrite str_compare_refl in H2. discriminate.
  - destruct a as [a|]; destruct b as [b|].
    + destruct (str_compare a b) eqn:Ec.
      * apply str_compare_eq in Ec. subst. cbn in E. rewrite str_eqb_refl in E. discriminate.
      * split; [|lia]. intros _. constructor. apply str_lt_iff. exact Ec.
      * split; [lia|]. intros H. inv H. apply str_lt_iff in H2. congruence.
    + split; [constructor | lia].
    + split; [lia | intros H; inv H].
    + discriminate.
Qed.

Lemma strcmp_eq : forall a b, strcmp a b = 0 <-> a = b.
Proof.
  intros a b. unfold strcmp. destruct (ostr_eqb a b) eqn:E.
  - apply ostr_eqb_eq in E. tauto.
  - assert (a <> b) by (intros ->; rewrite (proj2 (ostr_eqb_eq b b) eq_refl) in E; discriminate).
    destruct a as [a|]; destruct b as [b|]; [destruct (str_compare a b)| | |];
      split; intros H2; try lia; contradiction.
Qed.

Lemma ostr_eqb_sym : forall a b, ostr_eqb a b = ostr_eqb b a.
Proof. intros [a|] [b|]; cbn; auto. apply str_eqb_sym. Qed.

Lemma strcmp_antisym : forall a b, strcmp b a = - strcmp a b.
Proof.
  intros a b. unfold strcmp. rewrite (ostr_eqb_sym b a). destruct (ostr_eqb a b) eqn:E; [reflexivity|].
  destruct a as [a|]; destruct b as [b|]; try reflexivity; try discriminate.
  rewrite (str_compare_antisym a b). destruct (str_compare a b) eqn:Ec; try reflexivity.
  apply str_compare_eq in Ec. subst. cbn in E. rewrite str_eqb_refl in E. discriminate.
Qed.

Lemma strcmp_values : forall a b, strcmp a b = -1 \/ strcmp a b = 0 \/ strcmp a b = 1.
Proof.
  intros a b. unfold strcmp. destruct (ostr_eqb a b); [auto|].
  destruct a as [a|]; destruct b as [b|]; auto. destruct (str_compare a b); auto.
Qed.

Lemma ostr_lt_trans : forall a b c, ostr_lt a b -> ostr_lt b c -> ostr_lt a c.
Proof.
  intros a b c H1 H2. inv H1; inv H2; constructor.
  apply str_lt_iff. eapply str_compare_lt_trans; apply str_lt_iff; eassumption.
Qed.

Lemma strcmp_le_trans : forall a b c, strcmp a b <= 0 -> strcmp b c <= 0 -> strcmp a c <= 0.
Proof.
  intros a b c H1 H2.
  destruct (Z.eq_dec (strcmp a b) 0) as [E1|E1]; [apply strcmp_eq in E1; subst; exact H2|].
  destruct (Z.eq_dec (strcmp b c) 0) as [E2|E2]; [apply strcmp_eq in E2; subst; exact H1|].
  assert (strcmp a c < 0); [|lia]. apply strcmp_lt.
  eapply ostr_lt_trans; apply strcmp_lt; [instantiate (1 := b)|]; lia.
Qed.

(** C13 *)
Lemma strcmp_order :
  (forall a b, strcmp a b = -1 \/ strcmp a b = 0 \/ strcmp a b = 1)
  /\ (forall a b, strcmp a b = 0 <-> a = b)
  /\ (forall a b, strcmp b a = - strcmp a b)
  /\ (forall a b, strcmp a b < 0 <-> ostr_lt a b)
  /\ (forall a b c, strcmp a b <= 0 -> strcmp b c <= 0 -> strcmp a c <= 0)
  /\ (forall s, strcmp (Some s) None < 0).
Proof.
  split; [exact strcmp_values|]. split; [exact strcmp_eq|]. split; [exact strcmp_antisym|].
  split; [exact strcmp_lt|]. split; [exact strcmp_le_trans|]. intros s. cbn. lia.
Qed.

(** ** the comparison on well-formed mappings, as a pure function *)
Definition lex (a b : Z) : Z := if negb (a =? 0) then a else b.

Definition cmpZ (a b : Mapping) : Z :=
  lex (p_line (m_generated a) - p_line (m_generated b))
  (lex (p_column (m_generated a) - p_column (m_generated b))
  (lex (strcmp (m_source a) (m_source b))
  (match m_original a, m_original b with
   | Some oa, Some ob => lex (p_line oa - p_line ob) (lex (p_column oa - p_column ob)
                              (strcmp (m_name a) (m_name b)))
   | _, _ => strcmp (m_name a) (m_name b)
   end))).

Lemma window_nat : window 0 i32_max.
Proof. unfold window, i32_min, i32_max. lia. Qed.

Lemma wf_window : forall m, wf_mapping m <-> window_mapping 0 i32_max m /\ shaped m.
Proof.
  intros m. unfold wf_mapping, window_mapping, shaped, nat_pos, in_window.
  destruct (m_original m); destruct (m_source m); tauto.
Qed.

Lemma compare_window : forall md lo hi a b, window lo hi ->
  window_mapping lo hi a -> window_mapping lo hi b ->
  compare_by_generated_pos_inflated md a b = Ok (cmpZ a b).
Proof.
  intros md lo hi a b Hwin [[Ha1 Ha2] Ha3] [[Hb1 Hb2] Hb3].
  unfold compare_by_generated_pos_inflated, cmpZ, lex.
  unfold window in Hwin. change i32_max with 2147483647 in *. change i32_min with (-2147483648) in *.
  rewrite i32_sub_ok by lia. cbn [bind].
  destruct (negb (p_line (m_generated a) - p_line (m_generated b) =? 0)); [reflexivity|].
  rewrite i32_sub_ok by lia. cbn [bind].
  destruct (negb (p_column (m_generated a) - p_column (m_generated b) =? 0)); [reflexivity|].
  destruct (negb (strcmp (m_source a) (m_source b) =? 0)); [reflexivity|].
  destruct (m_original a) as [oa|]; [|reflexivity]. destruct (m_original b) as [ob|]; [|reflexivity].
  destruct Ha3 as [Ha3 Ha4]. destruct Hb3 as [Hb3 Hb4].
  rewrite i32_sub_ok by lia. cbn [bind].
  destruct (negb (p_line oa - p_line ob =? 0)); [reflexivity|].
  rewrite i32_sub_ok by lia. cbn [bind].
  destruct (negb (p_column oa - p_column ob =? 0)); reflexivity.
Qed.

Lemma compare_ok : forall md a b, wf_mapping a -> wf_mapping b ->
  compare_by_generated_pos_inflated md a b = Ok (cmpZ a b).
Proof.
  intros md a b Ha Hb. apply wf_window in Ha. apply wf_window in Hb.
  apply (compare_window md 0 i32_max); [apply window_nat | tauto | tauto].
Qed.

Lemma pos_eq : forall p q, p_line p = p_line q -> p_column p = p_column q -> p = q.
Proof. intros [a b] [c d]; cbn; congruence. Qed.

Lemma lex_neg : forall a b, lex a b < 0 <-> a < 0 \/ (a = 0 /\ b < 0).
Proof. intros a b. unfold lex. destruct (negb (a =? 0)) eqn:E; lia. Qed.
Lemma lex_zero : forall a b, lex a b = 0 <-> a = 0 /\ b = 0.
Proof. intros a b. unfold lex. destruct (negb (a =? 0)) eqn:E; lia. Qed.
Lemma lex_sgn : forall a b, Z.sgn (lex a b) = if a =? 0 then Z.sgn b else Z.sgn a.
Proof. intros a b. unfold lex. destruct (a =? 0); reflexivity. Qed.

Lemma cmpZ_lt : forall a b, shaped a -> shaped b -> (cmpZ a b < 0 <-> mapping_lt a b).
Proof.
  intros a b Ha Hb. unfold shaped in Ha, Hb. unfold cmpZ, mapping_lt. rewrite !lex_neg, strcmp_lt, strcmp_eq.
  unfold pos_lt.
  assert (HO : m_source a = m_source b ->
    (match m_original a, m_original b with
     | Some oa, Some ob => lex (p_line oa - p_line ob) (lex (p_column oa - p_column ob) (strcmp (m_name a) (m_name b)))
     | _, _ => strcmp (m_name a) (m_name b) end < 0
     <-> orig_lt (m_original a) (m_original b)
         \/ (m_original a = m_original b /\ ostr_lt (m_name a) (m_name b)))).
  { intros Hs. rewrite Hs in Ha. destruct (m_original a) as [oa|]; destruct (m_original b) as [ob|];
      destruct (m_source b); try contradiction; cbn [orig_lt]; rewrite ?lex_neg, strcmp_lt; unfold pos_lt.
    - split; intros H.
      + destruct H as [H|[H1 [H|[H2 H]]]]; [left; lia | left; lia |].
        right. split; [f_equal; apply pos_eq; lia | exact H].
      + destruct H as [[H|H]|[H1 H]]; [left; lia | right; split; [lia | left; lia] |].
        inv H1. right. split; [lia|]. right. split; [lia | exact H].
    - split; [right; split; [reflexivity|assumption] | tauto]. }
  split; intros H.
  - destruct H as [H|[H1 [H|[H2 [H|[H3 H]]]]]].
    + left. left. lia.
    + left. right. lia.
    + right. split; [apply pos_eq; lia|]. left. exact H.
    + right. split; [apply pos_eq; lia|]. right. split; [exact H3|]. apply HO; assumption.
  - destruct H as [[H|H]|[H1 [H|[H2 H]]]].
    + left. lia.
    + right. split; [lia|]. left. lia.
    + rewrite H1. right. split; [lia|]. right. split; [lia|]. left. exact H.
    + rewrite H1. right. split; [lia|]. right. split; [lia|]. right. split; [exact H2|].
      apply HO; assumption.
Qed.

Lemma cmpZ_eq : forall a b, shaped a -> shaped b -> (cmpZ a b = 0 <-> same_mapping a b).
Proof.
  intros a b Ha Hb. unfold shaped in Ha, Hb. unfold cmpZ, same_mapping. rewrite !lex_zero, strcmp_eq.
  assert (HO : m_source a = m_source b ->
    (match m_original a, m_original b with
     | Some oa, Some ob => lex (p_line oa - p_line ob) (lex (p_column oa - p_column ob) (strcmp (m_name a) (m_name b)))
     | _, _ => strcmp (m_name a) (m_name b) end = 0
     <-> m_original a = m_original b /\ m_name a = m_name b)).
  { intros Hs. rewrite Hs in Ha. destruct (m_original a) as [oa|]; destruct (m_original b) as [ob|];
      destruct (m_source b); try contradiction; rewrite ?lex_zero, strcmp_eq.
    - split; intros H.
      + split; [f_equal; apply pos_eq; lia | tauto].
      + destruct H as [H1 H2]. inv H1. repeat split; try lia. exact H2.
    - tauto. }
  split; intros H.
  - destruct H as [H1 [H2 [H3 H4]]]. split; [apply pos_eq; lia|]. split; [exact H3|]. apply HO; assumption.
  - destruct H as [H1 [H2 H3]]. rewrite H1. repeat split; try lia; [exact H2|]. apply HO; assumption.
Qed.

Lemma cmpZ_antisym : forall a b, Z.sgn (cmpZ a b) = - Z.sgn (cmpZ b a).
Proof.
  intros a b. unfold cmpZ. rewrite !lex_sgn, (strcmp_antisym (m_source b) (m_source a)).
  assert (HO : Z.sgn (match m_original a, m_original b with
     | Some oa, Some ob => lex (p_line oa - p_line ob) (lex (p_column oa - p_column ob) (strcmp (m_name a) (m_name b)))
     | _, _ => strcmp (m_name a) (m_name b) end)
    = - Z.sgn (match m_original b, m_original a with
     | Some oa, Some ob => lex (p_line oa - p_line ob) (lex (p_column oa - p_column ob) (strcmp (m_name b) (m_name a)))
     | _, _ => strcmp (m_name b) (m_name a) end)).
  { rewrite (strcmp_antisym (m_name b) (m_name a)).
    destruct (m_original a) as [oa|]; destruct (m_original b) as [ob|]; try lia.
    rewrite !lex_sgn.
    destruct (p_line oa - p_line ob =? 0) eqn:E1; destruct (p_line ob - p_line oa =? 0) eqn:E2; try lia.
    destruct (p_column oa - p_column ob =? 0) eqn:E3; destruct (p_column ob - p_column oa =? 0) eqn:E4; lia. }
  destruct (p_line (m_generated a) - p_line (m_generated b) =? 0) eqn:E1;
  destruct (p_line (m_generated b) - p_line (m_generated a) =? 0) eqn:E2; try lia.
  destruct (p_column (m_generated a) - p_column (m_generated b) =? 0) eqn:E3;
  destruct (p_column (m_generated b) - p_column (m_generated a) =? 0) eqn:E4; try lia.
  destruct (- strcmp (m_source b) (m_source a) =? 0) eqn:E5;
  destruct (strcmp (m_source b) (m_source a) =? 0) eqn:E6; lia.
Qed.

Lemma pos_lt_trans : forall p q r, pos_lt p q -> pos_lt q r -> pos_lt p r.
Proof. unfold pos_lt. intros; lia. Qed.

Lemma orig_lt_trans : forall p q r, orig_lt p q -> orig_lt q r -> orig_lt p r.
Proof.
  intros [p|] [q|] [r|]; cbn; try contradiction. apply pos_lt_trans.
Qed.

Lemma mapping_lt_trans : forall a b c, mapping_lt a b -> mapping_lt b c -> mapping_lt a c.
Proof.
  intros a b c H1 H2. unfold mapping_lt in *.
  destruct H1 as [H1|[E1 H1]].
  { left. destruct H2 as [H2|[E2 _]]; [eapply pos_lt_trans; eassumption | rewrite <- E2; exact H1]. }
  rewrite E1. destruct H2 as [H2|[E2 H2]]; [left; exact H2|].
  right. split; [exact E2|].
  destruct H1 as [H1|[F1 H1]].
  { left. destruct H2 as [H2|[F2 _]]; [eapply ostr_lt_trans; eassumption | rewrite <- F2; exact H1]. }
  rewrite F1. destruct H2 as [H2|[F2 H2]]; [left; exact H2|].
  right. split; [exact F2|].
  destruct H1 as [H1|[G1 H1]].
  { left. destruct H2 as [H2|[G2 _]]; [eapply orig_lt_trans; eassumption | rewrite <- G2; exact H1]. }
  rewrite G1. destruct H2 as [H2|[G2 H2]]; [left; exact H2|].
  right. split; [exact G2|]. eapply ostr_lt_trans; eassumption.
Qed.

Lemma same_mapping_lt : forall a b c, same_mapping a b -> (mapping_lt a c <-> mapping_lt b c).
Proof. intros a b c [H1 [H2 [H3 H4]]]. unfold mapping_lt. rewrite H1, H2, H3, H4. tauto. Qed.

Lemma same_mapping_refl : forall a, same_mapping a a.
Proof. repeat split. Qed.
Lemma same_mapping_sym : forall a b, same_mapping a b -> same_mapping b a.
Proof. intros a b [H1 [H2 [H3 H4]]]. repeat split; auto. Qed.
Lemma same_mapping_trans : forall a b c, same_mapping a b -> same_mapping b c -> same_mapping a c.
Proof. intros a b c [H1 [H2 [H3 H4]]] [K1 [K2 [K3 K4]]]. repeat split; congruence. Qed.

Lemma cmpZ_trans : forall a b c, shaped a -> shaped b -> shaped c ->
  cmpZ a b <= 0 -> cmpZ b c <= 0 -> cmpZ a c <= 0.
Proof.
  intros a b c Ha Hb Hc H1 H2.
  destruct (Z.eq_dec (cmpZ a b) 0) as [E1|E1].
  - apply cmpZ_eq in E1; [|assumption|assumption].
    destruct (Z.eq_dec (cmpZ b c) 0) as [E2|E2].
    + apply cmpZ_eq in E2; [|assumption|assumption].
      assert (cmpZ a c = 0); [|lia]. apply cmpZ_eq; try assumption. eapply same_mapping_trans; eassumption.
    + assert (cmpZ a c < 0); [|lia]. apply cmpZ_lt; try assumption.
      apply (same_mapping_lt a b c E1). apply cmpZ_lt; try assumption. lia.
  - assert (L1 : mapping_lt a b) by (apply cmpZ_lt; try assumption; lia).
    assert (cmpZ a c < 0); [|lia]. apply cmpZ_lt; try assumption.
    destruct (Z.eq_dec (cmpZ b c) 0) as [E2|E2].
    + apply cmpZ_eq in E2; [|assumption|assumption]. destruct E2 as [K1 [K2 [K3 K4]]].
      unfold mapping_lt in *. rewrite <- K1, <- K2, <- K3, <- K4. exact L1.
    + eapply mapping_lt_trans; [exact L1|]. apply cmpZ_lt; try assumption. lia.
Qed.

(** C14 *)
Lemma compare_total_preorder : forall md a b, wf_mapping a -> wf_mapping b ->
  exists c, compare_by_generated_pos_inflated md a b = Ok c
    /\ (c < 0 <-> mapping_lt a b) /\ (c = 0 <-> same_mapping a b) /\ (0 < c <-> mapping_lt b a).
Proof.
  intros md a b Ha Hb. exists (cmpZ a b). split; [apply compare_ok; assumption|].
  apply wf_window in Ha as [_ Ha]. apply wf_window in Hb as [_ Hb].
  split; [apply cmpZ_lt; assumption|]. split; [apply cmpZ_eq; assumption|].
  rewrite <- cmpZ_lt by assumption. pose proof (cmpZ_antisym a b). lia.
Qed.

Lemma mapping_order :
  (forall a b c, mapping_lt a b -> mapping_lt b c -> mapping_lt a c)
  /\ (forall a b, same_mapping a b -> ~ mapping_lt a b)
  /\ (forall a b, wf_mapping a -> wf_mapping b -> mapping_lt a b \/ same_mapping a b \/ mapping_lt b a).
Proof.
  split; [exact mapping_lt_trans|]. split.
  - intros a b [H1 [H2 [H3 H4]]] H. unfold mapping_lt in H. rewrite H1, H2, H3, H4 in H.
    assert (O : forall o, ~ ostr_lt o o).
    { intros o Ho. apply strcmp_lt in Ho. rewrite (proj2 (strcmp_eq o o) eq_refl) in Ho. lia. }
    destruct H as [H|[_ [H|[_ [H|[_ H]]]]]].
    + unfold pos_lt in H. lia.
    + exact (O _ H).
    + destruct (m_original b); [unfold orig_lt, pos_lt in H; lia | exact H].
    + exact (O _ H).
  - intros a b Ha Hb. apply wf_window in Ha as [_ Ha]. apply wf_window in Hb as [_ Hb].
    rewrite <- !cmpZ_lt, <- cmpZ_eq by assumption.
    pose proof (cmpZ_antisym a b). lia.
Qed.

(** C15 *)
Definition c15_map (orig : option Position) (name : string) : Mapping :=
  mkMapping (mkPos 1 0) orig (Some (lit "s")) (Some (lit name)) None.

Lemma compare_not_transitive : forall md, exists a b c,
  m_source a = m_source b /\ m_source b = m_source c
  /\ nat_pos (m_generated a) /\ nat_pos (m_generated b) /\ nat_pos (m_generated c)
  /\ compare_by_generated_pos_inflated md a b = Ok (-1)
  /\ compare_by_generated_pos_inflated md b c = Ok (-1)
  /\ compare_by_generated_pos_inflated md a c = Ok 1.
Proof.
  intros md.
  exists (c15_map (Some (mkPos 2 0)) "a"), (c15_map None "b"), (c15_map (Some (mkPos 1 0)) "c").
  unfold nat_pos. cbn [c15_map m_generated p_line p_column]. change i32_max with 2147483647.
  repeat split; try lia; destruct md; vm_compute; reflexivity.
Qed.

Lemma compare_overflow : forall a b,
  in_i32 (p_line (m_generated a)) = true -> in_i32 (p_line (m_generated b)) = true ->
  i32_max < p_line (m_generated a) - p_line (m_generated b) ->
  compare_by_generated_pos_inflated Debug a b = Panic POverflow
  /\ exists c, compare_by_generated_pos_inflated Release a b = Ok c /\ c < 0.
Proof.
  intros a b Ha Hb H. apply in_i32_iff in Ha. apply in_i32_iff in Hb. change i32_max with 2147483647 in H.
  unfold compare_by_generated_pos_inflated, i32_sub, checked_i32.
  set (d := p_line (m_generated a) - p_line (m_generated b)) in *.
  assert (E : in_i32 d = false).
  { destruct (in_i32 d) eqn:E; [|reflexivity]. apply in_i32_iff in E. lia. }
  rewrite E. cbn [bind]. split; [reflexivity|].
  assert (T : to_i32 d = d - 4294967296).
  { unfold to_i32. change (2^31) with 2147483648. change (2^32) with 4294967296.
    replace (d + 2147483648) with ((d - 2147483648) + 1 * 4294967296) by lia.
    rewrite Z_mod_plus_full. rewrite Z.mod_small by lia. lia. }
  rewrite T. assert (E2 : negb (d - 4294967296 =? 0) = true) by lia. rewrite E2.
  eexists. split; [reflexivity|]. lia.
Qed.
