(** * Lemmas about histories that add the same mappings in another order (C112) *)
From Verif Require Import F_Base M_Base64Vlq M_ArraySet M_Mapping M_SourceMap M_Util M_Generator
  S_Vlq S_Decode S_List S_Mapping S_Generator S_Far S_Writable S_Modes S_Contents S_Order F_ArraySet F_Sort F_Mapping F_MappingList
  F_Decode F_Serialize F_Generator F_GeneratorProps F_Adds F_Contents F_Modes F_Writable.
From Coq Require Import Sorting.Sorted Sorting.Permutation.

(** ** The text depends on the indices only *)
Section Text.
  Context (md : mode) (S S' N N' : ArraySet)
    (HS : forall x, as_index_of S x = as_index_of S' x) (HN : forall x, as_index_of N x = as_index_of N' x).

  Lemma ser_tail_ext : forall m st, ser_tail md S N m st = ser_tail md S' N' m st.
  Proof.
    intros m st. unfold ser_tail. destruct (m_source m) as [s|]; [|reflexivity]. rewrite HS.
    destruct (m_name m) as [n|]; [rewrite HN|]; reflexivity.
  Qed.
  Lemma ser_segment_ext : forall m st, ser_segment md S N m st = ser_segment md S' N' m st.
  Proof.
    intros m st. unfold ser_segment. destruct (i32_sub _ _ _); [|reflexivity]. cbn [bind].
    destruct (base64vlq_encode _ _); [|reflexivity]. cbn [bind]. rewrite ser_tail_ext. reflexivity.
  Qed.
  Lemma ser_loop_ext : forall ms p st r, ser_loop md S N p ms st r = ser_loop md S' N' p ms st r.
  Proof.
    induction ms as [|m ms IH]; intros p st r; [reflexivity|]. cbn [ser_loop].
    assert (K : forall st r, (let* x := ser_segment md S N m st in let '(seg, st) := x in ser_loop md S N (Some m) ms st (r ++ seg))
      = (let* x := ser_segment md S' N' m st in let '(seg, st) := x in ser_loop md S' N' (Some m) ms st (r ++ seg))).
    { intros st0 r0. rewrite ser_segment_ext. destruct (ser_segment md S' N' m st0) as [[seg st1]|]; cbn [bind]; [apply IH | reflexivity]. }
    destruct (negb (p_line (m_generated m) =? ss_generated_line st)).
    - destruct (semicolon_loop _ _ _ _ _) as [[next line]|]; [|reflexivity]. cbn [bind]. rewrite ser_segment_ext.
      match goal with |- bind ?x _ = _ => destruct x as [[seg st1]|] end; cbn [bind]; [apply IH | reflexivity].
    - destruct p as [q|].
      + destruct (compare_by_generated_pos_inflated md m q) as [c|]; [|reflexivity]. cbn [bind].
        destruct (c =? 0); [apply IH|]. rewrite ser_segment_ext.
        match goal with |- bind ?x _ = _ => destruct x as [[seg st1]|] end; cbn [bind]; [apply IH | reflexivity].
      + rewrite ser_segment_ext.
        match goal with |- bind ?x _ = _ => destruct x as [[seg st1]|] end; cbn [bind]; [apply IH | reflexivity].
  Qed.
End Text.

Lemma names_ok_index : forall S S' l l', names_ok S l -> names_ok S' l' -> distinct l = distinct l' ->
  as_array S = as_array S' /\ forall x, as_index_of S x = as_index_of S' x.
Proof.
  intros S S' l l' [[H1 _] A] [[H2 _] B] E. split; [congruence|]. intros x. unfold as_index_of. rewrite H1, H2, A, B, E. reflexivity.
Qed.

Lemma hm_empty : forall V (m m' : hmap V), (forall k, hm_get k m = hm_get k m') -> m = [] -> m' = [].
Proof.
  intros V m m' H ->. destruct m' as [|[k v] m']; [reflexivity|]. specialize (H k). cbn in H.
  rewrite str_eqb_refl in H. discriminate.
Qed.

Lemma contents_get : forall md U file root skip ops ops' g g',
  gen_run md U (gen_new file root skip) ops = Ok g -> gen_run md U (gen_new file root skip) ops' = Ok g' ->
  same_contents md U root ops ops' ->
  forall k, hm_get k (g_source_contents g) = hm_get k (g_source_contents g').
Proof.
  intros md U file root skip ops ops' g g' Eg Eg' H. destruct root as [r|].
  - destruct H as [key [K H]]. intros k.
    rewrite (proj1 (keyed_contents md U file r skip key K ops g Eg)), (proj1 (keyed_contents md U file r skip key K ops' g' Eg')). apply H.
  - intros k. rewrite (bi_contents _ _ _ _ _ (base_inv_run _ _ _ _ _ _ _ Eg) eq_refl),
      (bi_contents _ _ _ _ _ (base_inv_run _ _ _ _ _ _ _ Eg') eq_refl). apply H.
Qed.

Lemma generate_ext : forall md U g g' root l, (forall k, hm_get k (g_source_contents g) = hm_get k (g_source_contents g')) ->
  generate_sources_contents md U g l root = generate_sources_contents md U g' l root.
Proof.
  intros md U g g' root l H. unfold generate_sources_contents. induction l as [|x l IH]; [reflexivity|]. cbn [mapM].
  unfold hm_contains. destruct (match root with Some r => relative md U r x | None => Ok x end) as [k|]; cbn [bind]; [|reflexivity].
  rewrite H. unfold hm_contains in IH. rewrite IH. reflexivity.
Qed.

(** ** Lists of mappings *)
Lemma natural_run : forall md ops, Forall natural (added ops) ->
  exists l, ml_run md ml_new ops = Ok l /\ natural_list l (added ops).
Proof.
  intros md ops. induction ops as [|op ops IH] using rev_ind; intros H.
  - exists ml_new. split; [reflexivity|]. split; [constructor | exact I].
  - assert (A : added (ops ++ [op]) = added ops ++ added [op]).
    { clear. induction ops as [|[m|] ops IH]; cbn; [reflexivity | rewrite IH; reflexivity | exact IH]. }
    rewrite A in *. apply Forall_app in H. destruct H as [H1 H2]. destruct (IH H1) as [l [E N]].
    rewrite ml_run_app, E. cbn [bind]. destruct op as [m|]; cbn [ml_run added] in *.
    + inv H2. destruct N as [Np Nl].
      destruct (add_window md 0 i32_max (mkGen None None false as_new as_new l []) m window_nat Nl H3) as [g' [Eg [Hl Ha]]].
      unfold gen_add_mapping in Eg. cbn [g_mappings] in Eg. destruct (ml_add md l m) as [l'|]; cbn [bind] in *; [|discriminate].
      inv Eg. exists l'. split; [reflexivity|]. cbn [g_mappings] in *. split; [|exact Hl]. rewrite Ha. apply Permutation_app_tail. exact Np.
    + destruct (array_natural md l (added ops) N H1) as [a [l' [Ea N']]]. rewrite Ea. cbn [bind]. rewrite app_nil_r.
      exists l'. split; [reflexivity | exact N'].
Qed.

Lemma natural_sorted : forall md ops l, Forall natural (added ops) -> ml_run md ml_new ops = Ok l ->
  exists a l', ml_to_array md l = Ok (a, l') /\ Permutation (added ops) a /\ gen_sorted a.
Proof.
  intros md ops l H E. destruct (natural_run Debug ops H) as [l0 [E0 N0]].
  assert (l = l0).
  { destruct md; [congruence|]. destruct (agree_ml_run ops ml_new) as [A|A]; rewrite E0 in A; [discriminate | congruence]. }
  subst l0. destruct (array_natural Debug l (added ops) N0 H) as [a [l' [Ea _]]]. exists a, l'.
  split; [|exact (debug_sorted _ _ _ _ E0 Ea)].
  destruct md; [exact Ea|]. destruct (agree_ml_to_array l) as [A|A]; rewrite Ea in A; [discriminate | congruence].
Qed.

Lemma sorted_once : forall ms ms' a a', Permutation ms ms' -> NoDup (map m_generated ms) ->
  Permutation ms a -> gen_sorted a -> Permutation ms' a' -> gen_sorted a' -> a = a'.
Proof.
  intros ms ms' a a' P D Pa Sa Pa' Sa'. eapply sorted_perm_unique; [exact Sa | exact Sa' | |].
  - rewrite <- Pa, P. exact Pa'.
  - intros x y Hx Hy H1 H2. apply (distinct_positions_eq ms); auto.
    + eapply Permutation_in; [symmetry; exact Pa | exact Hx].
    + eapply Permutation_in; [symmetry; exact Pa | exact Hy].
    + apply pos_le_antisym; assumption.
Qed.

(** ** The same JSON *)
Lemma json_alike : forall md U file root skip ops ops' g g' a l l',
  gen_run md U (gen_new file root skip) ops = Ok g -> gen_run md U (gen_new file root skip) ops' = Ok g' ->
  same_first_uses (added_mappings ops) (added_mappings ops') -> same_contents md U root ops ops' ->
  ml_to_array md (g_mappings g) = Ok (a, l) -> ml_to_array md (g_mappings g') = Ok (a, l') ->
  (let* r := gen_as_json md U g in Ok (fst r)) = (let* r := gen_as_json md U g' in Ok (fst r)).
Proof.
  intros md U file root skip ops ops' g g' a l l' Eg Eg' [F1 F2] C A A'.
  pose proof (contents_get _ _ _ _ _ _ _ _ _ Eg Eg' C) as G.
  destruct (base_inv_run _ _ _ _ _ _ _ Eg) as [B1 B2 B3 B4 B5 _ _].
  destruct (base_inv_run _ _ _ _ _ _ _ Eg') as [D1 D2 D3 D4 D5 _ _].
  destruct (names_ok_index _ _ _ _ B4 D4 F1) as [S1 S2]. destruct (names_ok_index _ _ _ _ B5 D5 F2) as [N1 N2].
  unfold gen_as_json. unfold as_to_vec. rewrite S1, B2, D2.
  assert (Sc : match g_source_contents g with
     | [] => Ok None
     | _ => let* l := generate_sources_contents md U g (as_array (g_sources g')) root in Ok (Some (flatten_options l)) end
   = match g_source_contents g' with
     | [] => Ok None
     | _ => let* l := generate_sources_contents md U g' (as_array (g_sources g')) root in Ok (Some (flatten_options l)) end).
  { rewrite (generate_ext md U g g' root _ G).
    destruct (g_source_contents g) as [|x m] eqn:E1.
    - rewrite (hm_empty _ _ _ G eq_refl). reflexivity.
    - destruct (g_source_contents g') as [|x' m'] eqn:E2; [|reflexivity].
      pose proof (hm_empty _ [] (x :: m) (fun k => eq_sym (G k)) eq_refl). discriminate. }
  rewrite Sc. clear Sc.
  match goal with |- (let* r := bind ?x _ in _) = _ => destruct x as [sc|p] end; cbn [bind]; [|reflexivity].
  unfold serialize_mappings. rewrite A, A'. cbn [bind g_sources g_names].
  rewrite (ser_loop_ext md (g_sources g) (g_sources g') (g_names g) (g_names g') S2 N2).
  destruct (ser_loop md (g_sources g') (g_names g') None a ser_init []) as [s|p]; cbn [bind]; [|reflexivity].
  cbn [fst g_names g_file g_source_root]. rewrite N1, B1, D1, ?B2, ?D2. reflexivity.
Qed.

Lemma same_map : forall md U file root skip ops ops' g g',
  Forall natural (added_mappings ops) -> NoDup (map m_generated (added_mappings ops)) ->
  Permutation (added_mappings ops) (added_mappings ops') ->
  same_first_uses (added_mappings ops) (added_mappings ops') -> same_contents md U root ops ops' ->
  gen_run md U (gen_new file root skip) ops = Ok g -> gen_run md U (gen_new file root skip) ops' = Ok g' ->
  (let* r := gen_as_json md U g in Ok (fst r)) = (let* r := gen_as_json md U g' in Ok (fst r)).
Proof.
  intros md U file root skip ops ops' g g' H D P F C Eg Eg'.
  pose proof (list_run _ _ _ _ _ Eg) as L. pose proof (list_run _ _ _ _ _ Eg') as L'. cbn [gen_new g_mappings] in L, L'.
  assert (H' : Forall natural (added_mappings ops')) by (eapply Permutation_Forall; eassumption).
  destruct (natural_sorted md (list_ops ops) (g_mappings g)) as [a [l [A [Pa Sa]]]]; [rewrite added_list_ops; exact H | exact L|].
  destruct (natural_sorted md (list_ops ops') (g_mappings g')) as [a' [l' [A' [Pa' Sa']]]]; [rewrite added_list_ops; exact H' | exact L'|].
  rewrite added_list_ops in Pa, Pa'. assert (a = a') by exact (sorted_once _ _ _ _ P D Pa Sa Pa' Sa'). subst a'.
  eapply json_alike; eassumption.
Qed.

(** With overflow checks, any mappings *)
Lemma same_map_debug : forall U file root skip ops ops' j j',
  NoDup (map m_generated (added_mappings ops)) ->
  Permutation (added_mappings ops) (added_mappings ops') ->
  same_first_uses (added_mappings ops) (added_mappings ops') -> same_contents Debug U root ops ops' ->
  observe_json Debug U (gen_new file root skip) ops = Ok j -> observe_json Debug U (gen_new file root skip) ops' = Ok j' ->
  j = j'.
Proof.
  intros U file root skip ops ops' j j' D P F C O O'. unfold observe_json in O, O'.
  destruct (gen_run Debug U (gen_new file root skip) ops) as [g|] eqn:Eg; [|discriminate].
  destruct (gen_run Debug U (gen_new file root skip) ops') as [g'|] eqn:Eg'; [|discriminate]. cbn [bind] in O, O'.
  destruct (gen_as_json Debug U g) as [[j0 g1]|] eqn:J; [|discriminate].
  destruct (gen_as_json Debug U g') as [[j0' g1']|] eqn:J'; [|discriminate].
  pose proof (list_run _ _ _ _ _ Eg) as L. pose proof (list_run _ _ _ _ _ Eg') as L'. cbn [gen_new g_mappings] in L, L'.
  destruct (as_json_inv _ _ _ _ _ J) as [a [l [s [sc [A _]]]]]. destruct (as_json_inv _ _ _ _ _ J') as [a' [l' [s' [sc' [A' _]]]]].
  destruct (debug_sorted _ _ _ _ L A) as [Pa Sa]. destruct (debug_sorted _ _ _ _ L' A') as [Pa' Sa'].
  rewrite added_list_ops in Pa, Pa'. assert (a = a') by exact (sorted_once _ _ _ _ P D Pa Sa Pa' Sa'). subst a'.
  pose proof (json_alike _ _ _ _ _ _ _ _ _ _ _ _ Eg Eg' F C A A') as R. rewrite J, J' in R. cbn [bind fst] in *. congruence.
Qed.

(** ** Whatever order sources and names are used in: the same mappings are read *)
Lemma same_reading : forall md U file root skip ops ops' g g' j j' h h',
  Forall valid_mapping (added_mappings ops) -> steps_fit ops -> steps_fit ops' -> few_names (2^30) (added_mappings ops) ->
  NoDup (map m_generated (added_mappings ops)) -> Permutation (added_mappings ops) (added_mappings ops') ->
  gen_run md U (gen_new file root skip) ops = Ok g -> gen_as_json md U g = Ok (j, h) ->
  gen_run md U (gen_new file root skip) ops' = Ok g' -> gen_as_json md U g' = Ok (j', h') ->
  (exists r, read_json j = Some r /\ read_json j' = Some r)
  /\ exists s n s' n', smj_sources j = Some s /\ smj_names j = Some n /\ smj_sources j' = Some s' /\ smj_names j' = Some n'
     /\ Permutation s s' /\ Permutation n n'.
Proof.
  intros md U file root skip ops ops' g g' j j' h h' V N N' F D P Eg J Eg' J'.
  assert (V' : Forall valid_mapping (added_mappings ops')) by (eapply Permutation_Forall; eassumption).
  assert (F' : few_names (2^30) (added_mappings ops')).
  { eapply few_incl; [|exact F]. intros x Hx. eapply Permutation_in; [symmetry; exact P | exact Hx]. }
  assert (D' : NoDup (map m_generated (added_mappings ops'))).
  { eapply Permutation_NoDup; [apply Permutation_map; exact P | exact D]. }
  split.
  - destruct (roundtrip_held _ _ _ _ _ _ _ _ _ V N F Eg J) as [a [r [_ [R [_ [I [S [ND _]]]]]]]].
    destruct (roundtrip_held _ _ _ _ _ _ _ _ _ V' N' F' Eg' J') as [a' [r' [_ [R' [_ [I' [S' [ND' _]]]]]]]].
    exists r. split; [exact R|]. rewrite R'. f_equal. symmetry.
    assert (PR : Permutation r r').
    { apply NoDup_Permutation; auto. intros x. rewrite I, I'. split; intros [m [Hm E]]; exists m; split; auto.
      - eapply Permutation_in; eassumption.
      - eapply Permutation_in; [symmetry; exact P | exact Hm]. }
    eapply sorted_perm_unique; [exact S | exact S' | exact PR|].
    intros x y Hx Hy H1 H2. apply I in Hx. apply I in Hy. destruct Hx as [m [Hm ->]]. destruct Hy as [m' [Hm' ->]].
    f_equal. apply (distinct_positions_eq (added_mappings ops)); auto.
    assert (G : forall m, m_generated (written m) = m_generated m) by (intros []; reflexivity).
    rewrite <- (G m), <- (G m'). apply pos_le_antisym; assumption.
  - apply as_json_inv in J. apply as_json_inv in J'. destruct J as [a [l [s [sc [_ [_ [_ [-> _]]]]]]]].
    destruct J' as [a' [l' [s' [sc' [_ [_ [_ [-> _]]]]]]]]. cbn [smj_sources smj_names].
    do 4 eexists. repeat (split; [reflexivity|]).
    destruct (base_inv_run _ _ _ _ _ _ _ Eg) as [_ _ _ [_ B4] [_ B5] _ _].
    destruct (base_inv_run _ _ _ _ _ _ _ Eg') as [_ _ _ [_ D4] [_ D5] _ _]. rewrite B4, B5, D4, D5.
    assert (K : forall f : Mapping -> option str, Permutation (distinct (present (map f (added_mappings ops)))) (distinct (present (map f (added_mappings ops'))))).
    { intros f. apply NoDup_Permutation; try apply distinct_NoDup. intros x. rewrite !distinct_In, !present_In, !in_map_iff.
      split; intros [m [E Hm]]; exists m; split; auto.
      - eapply Permutation_in; eassumption.
      - eapply Permutation_in; [symmetry; exact P | exact Hm]. }
    split; apply K.
Qed.
