(** * Lemmas about SourceMapGenerator, continued: C20-C28 *)
From Verif Require Import F_Base M_Base64Vlq M_ArraySet M_Mapping M_Util M_SourceMap M_MapLib M_Generator
  S_Vlq S_List S_Decode S_Mapping S_Generator S_Far F_Vlq F_ArraySet F_Sort F_Mapping F_MappingList F_Decode F_Serialize
  F_FarLoop F_Generator.
From Coq Require Import Sorting.Sorted Sorting.Permutation.

(** ** collapsed *)
Lemma collapsed_In : forall A (l r : list A), collapsed l r -> forall x, In x l <-> In x r.
Proof.
  intros A l r H. induction H; intros z; cbn in *; try tauto.
  - rewrite <- IHcollapsed. tauto.
  - rewrite <- IHcollapsed. tauto.
Qed.

Lemma collapsed_sorted : forall A (R : A -> A -> Prop) l r, collapsed l r ->
  StronglySorted R l -> StronglySorted R r.
Proof.
  intros A R l r H. induction H; intros Hs; auto.
  - apply IHcollapsed. inv Hs. assumption.
  - inv Hs. constructor; [auto|]. rewrite Forall_forall in *. intros z Hz. apply H4.
    eapply collapsed_In; eassumption.
Qed.

Lemma collapsed_head : forall A (l r : list A), collapsed l r ->
  match l, r with [], [] => True | x :: _, y :: _ => x = y | _, _ => False end.
Proof. intros A l r H. induction H; auto. Qed.

Lemma collapsed_fun : forall A (l r1 r2 : list A), collapsed l r1 -> collapsed l r2 -> r1 = r2.
Proof.
  intros A l r1 r2 H. revert r2. induction H; intros r2 H2.
  - inv H2. reflexivity.
  - inv H2. reflexivity.
  - inv H2; [auto | contradiction].
  - inv H2; [contradiction|]. f_equal. auto.
Qed.

Lemma collapsed_NoDup : forall A (l r : list A), collapsed l r -> NoDup l -> NoDup r.
Proof.
  intros A l r H. induction H; intros Hn; auto.
  - apply IHcollapsed. inv Hn. assumption.
  - inv Hn. constructor; [|auto]. intros Hin. apply H3. eapply collapsed_In; eassumption.
Qed.

(** sorted with repetitions: nothing is left twice *)
Lemma collapsed_strict : forall A (lt : A -> A -> Prop) l r,
  (forall x, ~ lt x x) -> (forall x y z, lt x y -> lt y z -> lt x z) ->
  collapsed l r -> StronglySorted (fun x y => lt x y \/ x = y) l -> NoDup r.
Proof.
  intros A lt l r Hirr Htr H. induction H; intros Hs.
  - constructor.
  - constructor; [intros []|constructor].
  - apply IHcollapsed. inv Hs. assumption.
  - inv Hs. constructor; [|auto]. intros Hin. apply (collapsed_In _ _ _ H0) in Hin.
    pose proof (Forall_inv H4) as Hxy. destruct Hxy as [Hxy|Hxy]; [|contradiction].
    destruct Hin as [Hin|Hin]; [symmetry in Hin; contradiction|].
    inv H3. rewrite Forall_forall in H6. destruct (H6 x Hin) as [Hyx|Hyx]; [|symmetry in Hyx; contradiction].
    apply (Hirr x). eapply Htr; eassumption.
Qed.

Lemma written_sorted : forall ms, gen_sorted ms -> gen_sorted (map written ms).
Proof.
  intros ms H. induction H; cbn; constructor; auto. rewrite Forall_map. exact H0.
Qed.

(** ** Reading the produced JSON *)
Definition expressible_run (ops : list gen_op) : Prop :=
  Forall expressible (added_mappings ops) /\ steps_fit ops
  /\ few_names 1073741824 (added_mappings ops).

Definition readable_run (ops : list gen_op) : Prop :=
  Forall valid_mapping (added_mappings ops) /\ steps_fit ops
  /\ few_names 1073741824 (added_mappings ops).

Lemma valid_expressible : forall m, valid_mapping m -> expressible m.
Proof.
  intros m [Hm [Hl Ho]]. split; [exact Hm|]. split; [exact Hl|]. destruct (m_original m); [exact Ho | exact I].
Qed.
Lemma readable_expressible : forall ops, readable_run ops -> expressible_run ops.
Proof.
  intros ops [H1 H2]. split; [|exact H2]. eapply Forall_impl; [|exact H1]. exact valid_expressible.
Qed.

Lemma expressible_encodable : forall ops, expressible_run ops -> encodable_run ops.
Proof.
  intros ops [H1 [_ H2]]. split; [|apply (few_more 1073741824); [lia | exact H2]]. eapply Forall_impl; [|exact H1].
  intros m [Hm [Hl _]]. split; assumption.
Qed.

Lemma array_held : forall md ops l a l', Forall wf_mapping (added_mappings ops) ->
  ml_run md ml_new (list_ops ops) = Ok l -> ml_to_array md l = Ok (a, l') -> held (list_ops ops ++ [ToArray]) a.
Proof.
  intros md ops l a l' Hv El Ea. rewrite <- added_list_ops in Hv.
  destruct (history_held md _ Hv) as [l2 [a2 [l2' [E1 [_ [_ [E2 H]]]]]]].
  rewrite El in E1. injection E1 as <-. rewrite Ea in E2. injection E2 as <- <-. exact H.
Qed.

Lemma generate_read_back : forall md U file root skip ops, expressible_run ops ->
  (root = None \/ no_content ops) ->
  exists g j g' l a l' r, gen_run md U (gen_new file root skip) ops = Ok g
    /\ gen_as_json md U g = Ok (j, g')
    /\ ml_run md ml_new (list_ops ops) = Ok l /\ ml_to_array md l = Ok (a, l')
    /\ Permutation (added_mappings ops) a /\ gen_sorted a
    /\ read_json j = Some (map read_back r) /\ collapsed (map written a) r.
Proof.
  intros md U file root skip ops Hr Hroot. pose proof (expressible_encodable _ Hr) as He.
  destruct (gen_run_ok md U file root skip ops He Hroot) as [g [Eg [HB Hml]]].
  destruct (as_json_ok md U file root skip ops g HB He Hml Hroot)
    as [j [g' [a [ml' [Ej [Ea [Hp [Hs _]]]]]]]].
  pose proof (list_run _ _ _ _ _ Eg) as El. cbn [gen_new g_mappings] in El.
  pose proof (as_json_inv _ _ _ _ _ Ej) as [a2 [ml2 [s [sc [Ea2 [Es [_ [Hj _]]]]]]]].
  rewrite Ea in Ea2. injection Ea2 as <- <-.
  destruct Hr as [Hv [Hsm Hn]]. pose proof HB as [_ _ _ H4 H5 _ _].
  destruct (far_loop_start md (g_sources g) (g_names g) a) as [s2 [r [Es2 [Hc [[V1 _] _]]]]].
  { rewrite Forall_forall. intros m Hm.
    assert (Hin : In m (added_mappings ops)) by (eapply Permutation_in; [symmetry; exact Hp | exact Hm]).
    rewrite Forall_forall in Hv. split; [apply Hv; exact Hin|].
    split; [|apply known_name]; (eapply known_all; [eassumption | first [exact (proj1 Hn) | exact (proj2 Hn)] | eassumption]). }
  { exact Hs. }
  rewrite Es in Es2. injection Es2 as <-.
  assert (Hheld : held (list_ops ops ++ [ToArray]) a).
  { eapply array_held; [|exact El | exact Ea]. eapply Forall_impl; [|exact Hv]. intros m [Hm _]. exact Hm. }
  destruct (V1 (Hsm _ _ Hheld Hc)) as [raws [Hd Hres]].
  exists g, j, g', (g_mappings g), a, ml', r. repeat (split; [assumption|]).
  split; [|exact Hc]. subst j. unfold read_json. cbn [smj_sources smj_names smj_mappings].
  rewrite Hd. exact Hres.
Qed.

Lemma read_back_valid : forall m, valid_mapping m -> read_back m = written m.
Proof.
  intros m [[_ Hm] [_ Hn]]. unfold read_back, written. destruct (m_original m), (m_source m); try contradiction.
  - reflexivity.
  - rewrite Hn. reflexivity.
Qed.

Lemma generate_read : forall md U file root skip ops, readable_run ops ->
  (root = None \/ no_content ops) ->
  exists g j g' l a l' r, gen_run md U (gen_new file root skip) ops = Ok g
    /\ gen_as_json md U g = Ok (j, g')
    /\ ml_run md ml_new (list_ops ops) = Ok l /\ ml_to_array md l = Ok (a, l')
    /\ Permutation (added_mappings ops) a /\ gen_sorted a
    /\ read_json j = Some r /\ collapsed (map written a) r.
Proof.
  intros md U file root skip ops [H1 [H2 H3]] Hroot.
  destruct (generate_read_back md U file root skip ops) as [g [j [g' [l [a [l' [r [Eg [Ej [El [Ea [Hp [Hs [Hr Hc]]]]]]]]]]]]]].
  { apply readable_expressible. exact (conj H1 (conj H2 H3)). }
  { exact Hroot. }
  exists g, j, g', l, a, l', r. repeat (split; [assumption|]). split; [|exact Hc]. rewrite Hr. f_equal.
  rewrite <- (map_id r) at 2. apply map_ext_in. intros x Hx. apply (collapsed_In _ _ _ Hc) in Hx.
  apply in_map_iff in Hx. destruct Hx as [m [<- Hm]]. rewrite Forall_forall in H1.
  change (read_back (written m)) with (read_back m). apply read_back_valid, H1.
  eapply Permutation_in; [symmetry; exact Hp | exact Hm].
Qed.

(** C65 *)
Lemma generate_expressible : forall md U file root skip ops,
  Forall expressible (added_mappings ops) -> steps_fit ops ->
  few_names (2^30) (added_mappings ops) -> (root = None \/ no_content ops) ->
  exists g j g' r, gen_run md U (gen_new file root skip) ops = Ok g
    /\ gen_as_json md U g = Ok (j, g')
    /\ read_json j = Some r
    /\ (forall x, In x r <-> exists m, In m (added_mappings ops) /\ x = read_back m)
    /\ gen_sorted r.
Proof.
  intros md U file root skip ops H1 H2 H3 H4. change (2^30) with 1073741824 in H3.
  destruct (generate_read_back md U file root skip ops (conj H1 (conj H2 H3)) H4)
    as [g [j [g' [l [a [l' [r [Eg [Ej [_ [_ [Hp [Hs [Hr Hc]]]]]]]]]]]]]].
  exists g, j, g', (map read_back r). repeat (split; [assumption|]). split.
  - intros x. rewrite in_map_iff. split.
    + intros [y [<- Hy]]. apply (collapsed_In _ _ _ Hc) in Hy. apply in_map_iff in Hy. destruct Hy as [m [<- Hm]].
      exists m. split; [|reflexivity]. eapply Permutation_in; [symmetry; exact Hp | exact Hm].
    + intros [m [Hm ->]]. exists (written m). split; [reflexivity|]. apply (collapsed_In _ _ _ Hc). apply in_map.
      eapply Permutation_in; [exact Hp | exact Hm].
  - pose proof (collapsed_sorted _ _ _ _ Hc (written_sorted _ Hs)) as Hrs.
    clear - Hrs. induction Hrs; cbn; constructor; auto. rewrite Forall_map. exact H.
Qed.

(** C20 *)
Lemma generate_roundtrip : forall md U file root skip ops,
  Forall valid_mapping (added_mappings ops) -> steps_fit ops ->
  few_names (2^30) (added_mappings ops) -> (root = None \/ no_content ops) ->
  exists g j g' r, gen_run md U (gen_new file root skip) ops = Ok g
    /\ gen_as_json md U g = Ok (j, g')
    /\ read_json j = Some r
    /\ (forall x, In x r <-> exists m, In m (added_mappings ops) /\ x = written m)
    /\ gen_sorted r.
Proof.
  intros md U file root skip ops H1 H2 H3 H4. change (2^30) with 1073741824 in H3.
  destruct (generate_read md U file root skip ops (conj H1 (conj H2 H3)) H4)
    as [g [j [g' [l [a [l' [r [Eg [Ej [_ [_ [Hp [Hs [Hr Hc]]]]]]]]]]]]]].
  exists g, j, g', r. repeat (split; [assumption|]). split.
  - intros x. rewrite <- (collapsed_In _ _ _ Hc), in_map_iff. split.
    + intros [m [<- Hm]]. exists m. split; [|reflexivity]. eapply Permutation_in; [symmetry; exact Hp | exact Hm].
    + intros [m [Hm ->]]. exists m. split; [reflexivity|]. eapply Permutation_in; [exact Hp | exact Hm].
  - eapply collapsed_sorted; [exact Hc | apply written_sorted; exact Hs].
Qed.

(** C21 *)
Lemma generate_arrays : forall md U file root skip ops g j g',
  gen_run md U (gen_new file root skip) ops = Ok g -> gen_as_json md U g = Ok (j, g') ->
  smj_version j = 3
  /\ smj_sources j = Some (distinct (present (map m_source (added_mappings ops))))
  /\ smj_names j = Some (distinct (present (map m_name (added_mappings ops))))
  /\ smj_file j = file /\ smj_source_root j = root /\ smj_sections j = None.
Proof.
  intros md U file root skip ops g j g' Eg Ej. apply base_inv_run in Eg. destruct Eg as [H1 H2 H3 [_ H4] [_ H5] _ _].
  apply as_json_inv in Ej. destruct Ej as [a [ml' [s [sc [_ [_ [_ [-> _]]]]]]]]. cbn. rewrite H4, H5.
  repeat split; assumption.
Qed.

(** C22 *)
Lemma generate_collapsed : forall md U file root skip ops,
  Forall valid_mapping (added_mappings ops) -> steps_fit ops ->
  few_names (2^30) (added_mappings ops) -> (root = None \/ no_content ops) ->
  exists g j g' l a l' r, gen_run md U (gen_new file root skip) ops = Ok g
    /\ gen_as_json md U g = Ok (j, g')
    /\ ml_run md ml_new (list_ops ops) = Ok l /\ ml_to_array md l = Ok (a, l')
    /\ read_json j = Some r /\ collapsed (map written a) r
    /\ (NoDup (map m_generated (added_mappings ops)) -> NoDup r)
    /\ (~ In GJson ops -> ~ gen_sorted (added_mappings ops) -> NoDup r).
Proof.
  intros md U file root skip ops H1 H2 H3 H4. change (2^30) with 1073741824 in H3.
  destruct (generate_read md U file root skip ops (conj H1 (conj H2 H3)) H4)
    as [g [j [g' [l [a [l' [r [Eg [Ej [El [Ea [Hp [Hs [Hr Hc]]]]]]]]]]]]]].
  exists g, j, g', l, a, l', r. repeat (split; [assumption|]). split.
  - intros Hn. eapply collapsed_NoDup; [exact Hc|].
    apply (NoDup_map_inv m_generated). rewrite map_map. cbn [written m_generated].
    eapply Permutation_NoDup; [|exact Hn]. apply Permutation_map. exact Hp.
  - intros Hj Hu.
    assert (Eops : list_ops ops = adds (added_mappings ops)).
    { clear - Hj. induction ops as [|[m|s c|] ops IH]; cbn in *; [reflexivity| | |].
      - unfold adds in *. cbn. rewrite IH by tauto. reflexivity.
      - apply IH. intros H. apply Hj. right. exact H.
      - exfalso. apply Hj. left. reflexivity. }
    assert (Hw : Forall wf_mapping (added_mappings ops)).
    { eapply Forall_impl; [|exact H1]. intros m [Hm _]. exact Hm. }
    destruct (to_array_stable_wf md (added_mappings ops) Hw) as [l2 [a2 [l2' [El2 [Ea2 [_ Hst]]]]]].
    rewrite Eops, El2 in El. injection El as <-. rewrite Ea2 in Ea. injection Ea as <- <-.
    destruct (Hst Hu) as [_ [Hsort _]].
    apply (collapsed_strict _ mapping_lt (map written a2)); try assumption.
    + intros x Hx. destruct mapping_order as [_ [Hirr _]]. apply (Hirr x x); [|exact Hx].
      repeat split; reflexivity.
    + intros x y z. apply mapping_order.
    + clear - Hsort. induction Hsort; cbn; constructor; auto. rewrite Forall_map.
      eapply Forall_impl; [|exact H]. cbn beta. intros y [Hy|Hy].
      * left. exact Hy.
      * right. apply written_eq. exact Hy.
Qed.

(** All numbers below 2^30: no step reaches it. *)
Lemma held_perm : forall ops a, held ops a -> Permutation (added ops) a.
Proof.
  intros ops a H. induction H.
  - constructor.
  - rewrite added_app. cbn [added]. apply Permutation_app_tail. exact IHheld.
  - rewrite added_app. cbn [added]. rewrite app_nil_r. exact IHheld.
  - rewrite added_app. cbn [added]. rewrite app_nil_r. destruct H1 as [H1 _]. exact (Permutation_trans IHheld H1).
Qed.

Definition lies_low (m : Mapping) : Prop :=
  0 <= p_column (m_generated m) < 1073741824
  /\ match m_original m with
     | Some p => 1 <= p_line p <= 1073741824 /\ 0 <= p_column p < 1073741824
     | None => True
     end.

Lemma low_steps : forall ms gen orig, Forall lies_low ms -> 0 <= p_column gen < 1073741824 ->
  1 <= p_line orig <= 1073741824 -> 0 <= p_column orig < 1073741824 -> Forall near (steps gen orig ms).
Proof.
  induction ms as [|m ms IH]; intros gen orig H Hg Hl Hc; cbn [steps]; [constructor|]. inv H. destruct H2 as [H1 H2].
  constructor.
  { apply near_iff. destruct (p_line (m_generated m) =? p_line gen); lia. }
  destruct (m_original m) as [o|].
  - constructor; [apply near_iff; lia|]. constructor; [apply near_iff; lia|]. apply IH; try assumption; lia.
  - apply IH; assumption.
Qed.

Lemma small_near : forall ms, Forall expressible ms -> Forall small_mapping ms -> near_by ms.
Proof.
  intros ms Hv Hs. apply low_steps; cbn; try lia. rewrite Forall_forall in *. intros m Hin.
  destruct (Hv _ Hin) as [[[Hg1 Hg2] Ho] [_ Hl]]. destruct (Hs _ Hin) as [S1 S2].
  change (2^30) with 1073741824 in *. unfold lies_low.
  unfold line1 in Hl. destruct (m_original m) as [o|]; [|split; [lia | exact I]].
  destruct (m_source m); [|contradiction]. destruct Ho as [Ho1 Ho2]. split; [lia|]. split; lia.
Qed.

Lemma small_fits : forall ops, Forall expressible (added_mappings ops) -> Forall small_mapping (added_mappings ops) ->
  steps_fit ops.
Proof.
  intros ops Hv Hs a r Ha Hc. apply held_perm in Ha. rewrite added_app, added_list_ops in Ha. cbn [added] in Ha.
  rewrite app_nil_r in Ha.
  assert (Hall : forall x, In x r -> exists m, In m (added_mappings ops) /\ x = written m).
  { intros x Hx. apply (collapsed_In _ _ _ Hc) in Hx. apply in_map_iff in Hx. destruct Hx as [m [<- Hm]].
    exists m. split; [eapply Permutation_in; [symmetry; exact Ha | exact Hm] | reflexivity]. }
  apply small_near; rewrite Forall_forall in *; intros x Hx; destruct (Hall x Hx) as [m [Hm ->]];
    [exact (Hv m Hm) | exact (Hs m Hm)].
Qed.

Lemma small_fit : forall ops, Forall valid_mapping (added_mappings ops) -> Forall small_mapping (added_mappings ops) ->
  steps_fit ops.
Proof. intros ops Hv. apply small_fits. eapply Forall_impl; [|exact Hv]. exact valid_expressible. Qed.

(** C23 *)
Lemma as_json_again : forall md U g j g', gen_as_json md U g = Ok (j, g') ->
  gen_as_json md U g' = Ok (j, g').
Proof.
  intros md U g j g' H. pose proof (as_json_inv _ _ _ _ _ H) as [a [ml' [s [sc [Ea [Es [Hg _]]]]]]].
  unfold gen_as_json in *. subst g'.
  cbn [g_file g_source_root g_skip_validation g_sources g_names g_mappings g_source_contents].
  unfold serialize_mappings in *. rewrite Ea in H. cbn [bind] in H.
  cbn [g_file g_source_root g_skip_validation g_sources g_names g_mappings g_source_contents] in *.
  rewrite (to_array_repeat _ _ _ _ Ea). cbn [bind].
  cbn [g_file g_source_root g_skip_validation g_sources g_names g_mappings g_source_contents].
  exact H.
Qed.

Lemma added_without_json : forall ops, added_mappings (without_json ops) = added_mappings ops.
Proof. induction ops as [|[m|s c|] ops IH]; cbn; rewrite ?IH; reflexivity. Qed.
Lemma content_without_json : forall s ops now, last_content s (without_json ops) now = last_content s ops now.
Proof. intros s. induction ops as [|[m|s' c|] ops IH]; intros now; cbn; auto. Qed.
Lemma In_without_json : forall s c ops, In (GContent s c) (without_json ops) -> In (GContent s c) ops.
Proof.
  induction ops as [|[m|s' c'|] ops IH]; cbn; auto; intros [H|H]; auto.
Qed.

Lemma json_in_the_middle : forall md U file root skip ops,
  Forall valid_mapping (added_mappings ops) -> steps_fit ops -> steps_fit (without_json ops) ->
  few_names (2^30) (added_mappings ops) -> (root = None \/ no_content ops) ->
  exists g1 j1 g1' r1 g2 j2 g2' r2,
    gen_run md U (gen_new file root skip) ops = Ok g1 /\ gen_as_json md U g1 = Ok (j1, g1')
    /\ gen_run md U (gen_new file root skip) (without_json ops) = Ok g2 /\ gen_as_json md U g2 = Ok (j2, g2')
    /\ smj_sources j1 = smj_sources j2 /\ smj_names j1 = smj_names j2
    /\ read_json j1 = Some r1 /\ read_json j2 = Some r2 /\ (forall x, In x r1 <-> In x r2).
Proof.
  intros md U file root skip ops H1 H2 H2' H3 H4.
  destruct (generate_roundtrip md U file root skip ops H1 H2 H3 H4) as [g1 [j1 [g1' [r1 [Eg1 [Ej1 [Er1 [Hr1 _]]]]]]]].
  destruct (generate_roundtrip md U file root skip (without_json ops)) as [g2 [j2 [g2' [r2 [Eg2 [Ej2 [Er2 [Hr2 _]]]]]]]].
  - rewrite added_without_json. exact H1.
  - exact H2'.
  - rewrite added_without_json. exact H3.
  - destruct H4 as [H4|H4]; [left; exact H4|]. right. intros s c Hin. apply (H4 s c). apply In_without_json. exact Hin.
  - pose proof (generate_arrays _ _ _ _ _ _ _ _ _ Eg1 Ej1) as [_ [A1 [A2 _]]].
    pose proof (generate_arrays _ _ _ _ _ _ _ _ _ Eg2 Ej2) as [_ [B1 [B2 _]]].
    rewrite added_without_json in B1, B2.
    exists g1, j1, g1', r1, g2, j2, g2', r2. repeat (split; [assumption || congruence|]).
    intros x. rewrite Hr1, Hr2, added_without_json. reflexivity.
Qed.

(** C26 *)
Lemma hm_get_all_none : forall V (m : hmap V), (forall k, hm_get k m = None) -> m = [].
Proof.
  intros V [|[k v] m] H; [reflexivity|]. specialize (H k). cbn in H. rewrite str_eqb_refl in H. discriminate.
Qed.

Lemma generate_contents : forall md U file skip ops g j g',
  gen_run md U (gen_new file None skip) ops = Ok g -> gen_as_json md U g = Ok (j, g') ->
  exists sources, smj_sources j = Some sources
    /\ ((forall s, last_content s ops None = None) -> smj_sources_content j = None)
    /\ ((exists s, last_content s ops None <> None) ->
        smj_sources_content j = Some (present (map (fun s => last_content s ops None) sources))).
Proof.
  intros md U file skip ops g j g' Eg Ej. apply base_inv_run in Eg. destruct Eg as [H1 H2 H3 H4 H5 H6 H7].
  specialize (H6 eq_refl).
  apply as_json_inv in Ej. destruct Ej as [a [ml' [s [sc [_ [_ [_ [-> Hsc]]]]]]]].
  exists (as_array (g_sources g)). cbn. split; [reflexivity|]. split.
  - intros Hn. assert (E : g_source_contents g = []).
    { apply hm_get_all_none. intros k. rewrite H6. apply Hn. }
    rewrite E in Hsc. exact Hsc.
  - intros [s0 Hs0]. destruct (g_source_contents g) as [|kv m] eqn:E.
    { exfalso. apply Hs0. rewrite <- H6. reflexivity. }
    destruct Hsc as [l [El ->]]. rewrite H2 in El. unfold generate_sources_contents in El. f_equal. f_equal.
    erewrite mapM_ok in El; [injection El as <-; reflexivity|].
    intros x _. cbn [bind]. f_equal. rewrite E. unfold hm_contains. rewrite <- H6.
    destruct (hm_get x (kv :: m)); reflexivity.
Qed.

(** C25 *)
Lemma present_all : forall (content : str -> option str) sources,
  contents_first sources content -> aligned sources (present (map content sources)) content.
Proof.
  intros content. induction sources as [|x l IH]; intros Hf i s E.
  - destruct i; discriminate.
  - cbn [map present]. destruct (content x) as [c|] eqn:Ec.
    + destruct i as [|i]; cbn in *; [congruence|]. apply IH; [|exact E].
      intros i1 i2 s1 s2 Hi E1 E2. apply (Hf (S i1) (S i2)); [lia | exact E1 | exact E2].
    + assert (Hn : forall k s', nth_error (x :: l) k = Some s' -> content s' = None).
      { intros [|k] s' E'; [cbn in E'; congruence|].
        destruct (content s') eqn:Es'; [|reflexivity]. exfalso.
        apply (Hf 0%nat (S k) x s'); [lia | reflexivity | exact E' | congruence | exact Ec]. }
      rewrite (Hn i s E). assert (Hp : present (map content l) = []).
      { assert (Hl : forall s', In s' l -> content s' = None).
        { intros s' Hin. apply In_nth_error in Hin. destruct Hin as [k Hk]. apply (Hn (S k)). exact Hk. }
        clear - Hl. induction l as [|y l IH]; [reflexivity|]. cbn. rewrite Hl by (left; reflexivity).
        apply IH. intros s' Hs'. apply Hl. right. exact Hs'. }
      rewrite Hp. destruct i; reflexivity.
Qed.

Lemma contents_alignment : forall md U file skip ops g j g' sources contents,
  gen_run md U (gen_new file None skip) ops = Ok g -> gen_as_json md U g = Ok (j, g') ->
  smj_sources j = Some sources -> smj_sources_content j = Some contents ->
  (aligned sources contents (fun s => last_content s ops None)
   <-> contents_first sources (fun s => last_content s ops None)).
Proof.
  intros md U file skip ops g j g' sources contents Eg Ej Es Ec.
  destruct (generate_contents _ _ _ _ _ _ _ _ Eg Ej) as [src [Hs [Hno Hsome]]].
  assert (src = sources) by congruence. subst src.
  assert (Hex : contents = present (map (fun s => last_content s ops None) sources)).
  { pose proof (base_inv_run _ _ _ _ _ _ _ Eg) as [_ _ _ _ _ H6 _]. specialize (H6 eq_refl).
    destruct (g_source_contents g) as [|[k v] m] eqn:E.
    - rewrite Hno in Ec; [discriminate|]. intros s. rewrite <- H6. reflexivity.
    - rewrite Hsome in Ec; [congruence|]. exists k. rewrite <- H6. cbn. rewrite str_eqb_refl. discriminate. }
  split.
  - intros Ha i i' s s' Hi E E' Hs' Hnone. pose proof (Ha i s E) as A1. pose proof (Ha i' s' E') as A2.
    cbn beta in *. rewrite Hnone in A1. apply nth_error_None in A1.
    assert (A3 : nth_error contents i' = None) by (apply nth_error_None; lia). congruence.
  - intros Hf. rewrite Hex. apply present_all. exact Hf.
Qed.

(** C27 *)
Definition set_flag (b : bool) (g : Generator) : Generator :=
  mkGen (g_file g) (g_source_root g) b (g_sources g) (g_names g) (g_mappings g) (g_source_contents g).

Definition res_map {A B} (f : A -> B) (r : res A) : res B :=
  match r with Ok a => Ok (f a) | Panic p => Panic p end.

Lemma as_json_flag : forall md U b g,
  gen_as_json md U (set_flag b g) = res_map (fun r => (fst r, set_flag b (snd r))) (gen_as_json md U g).
Proof.
  intros md U b g. unfold gen_as_json, set_flag, generate_sources_contents.
  cbn [g_file g_source_root g_skip_validation g_sources g_names g_mappings g_source_contents].
  match goal with |- bind ?x _ = _ => destruct x as [sc|]; [|reflexivity] end. cbn [bind].
  unfold serialize_mappings.
  cbn [g_file g_source_root g_skip_validation g_sources g_names g_mappings g_source_contents].
  destruct (ml_to_array md (g_mappings g)) as [[a ml]|]; [|reflexivity]. cbn [bind].
  cbn [g_file g_source_root g_skip_validation g_sources g_names g_mappings g_source_contents].
  destruct (ser_loop md (g_sources g) (g_names g) None a ser_init []); reflexivity.
Qed.

Lemma gen_step_flag : forall md U b g op,
  gen_step md U (set_flag b g) op = res_map (set_flag b) (gen_step md U g op).
Proof.
  intros md U b g [m|s c|]; cbn [gen_step].
  - unfold gen_add_mapping, set_flag. cbn. destruct (ml_add md (g_mappings g) m); reflexivity.
  - unfold gen_set_source_content, set_flag. cbn.
    match goal with |- bind ?x _ = _ => destruct x as [sc|]; reflexivity end.
  - rewrite as_json_flag. destruct (gen_as_json md U g) as [[j g']|]; reflexivity.
Qed.

Lemma gen_run_flag : forall md U b ops g,
  gen_run md U (set_flag b g) ops = res_map (set_flag b) (gen_run md U g ops).
Proof.
  intros md U b. induction ops as [|op ops IH]; intros g; cbn [gen_run]; [reflexivity|].
  rewrite gen_step_flag. destruct (gen_step md U g op); cbn; [apply IH | reflexivity].
Qed.


Lemma flag_irrelevant : forall md U file root ops,
  observe_json md U (gen_new file root true) ops = observe_json md U (gen_new file root false) ops.
Proof.
  intros. unfold observe_json. change (gen_new file root true) with (set_flag true (gen_new file root false)).
  rewrite gen_run_flag. destruct (gen_run md U (gen_new file root false) ops) as [g|]; [|reflexivity].
  cbn [res_map bind]. rewrite as_json_flag. destruct (gen_as_json md U g) as [[j g']|]; reflexivity.
Qed.

Lemma compare_release : forall a b, exists c, compare_by_generated_pos_inflated Release a b = Ok c.
Proof.
  assert (Hsub : forall x y, exists z, i32_sub Release x y = Ok z).
  { intros. unfold i32_sub, checked_i32. destruct (in_i32 (x - y)); eauto. }
  intros a b. unfold compare_by_generated_pos_inflated.
  destruct (Hsub (p_line (m_generated a)) (p_line (m_generated b))) as [z1 ->]. cbn [bind].
  destruct (negb (z1 =? 0)); [eauto|].
  destruct (Hsub (p_column (m_generated a)) (p_column (m_generated b))) as [z2 ->]. cbn [bind].
  destruct (negb (z2 =? 0)); [eauto|]. destruct (negb (strcmp (m_source a) (m_source b) =? 0)); [eauto|].
  destruct (m_original a) as [oa|]; [|eauto]. destruct (m_original b) as [ob|]; [|eauto].
  destruct (Hsub (p_line oa) (p_line ob)) as [z3 ->]. cbn [bind]. destruct (negb (z3 =? 0)); [eauto|].
  destruct (Hsub (p_column oa) (p_column ob)) as [z4 ->]. cbn [bind]. destruct (negb (z4 =? 0)); eauto.
Qed.

Lemma add_release : forall g m, exists g', gen_add_mapping Release g m = Ok g'.
Proof.
  intros g m. unfold gen_add_mapping, ml_add, generated_position_after.
  match goal with |- context [match ml_last ?l with Some x => x | None => ml_dummy_last end] =>
    set (last := match ml_last l with Some x => x | None => ml_dummy_last end) end.
  match goal with |- context [if ?c then Ok true else _] => destruct c end; cbn [bind]; [eauto|].
  destruct (compare_release last m) as [c ->]. cbn [bind]. destruct (c <=? 0); cbn [bind]; eauto.
Qed.

Lemma last_content_adds : forall s ms now, last_content s (map GAdd ms) now = now.
Proof. induction ms as [|m ms IH]; intros now; cbn; auto. Qed.

Lemma gpa_window : forall md lo hi a b, window lo hi -> window_mapping lo hi a -> window_mapping lo hi b ->
  exists r, generated_position_after md a b = Ok r.
Proof.
  intros md lo hi a b Hw Ha Hb. unfold generated_position_after.
  match goal with |- context [if ?c then _ else _] => destruct c end; [eauto|].
  rewrite (compare_window md lo hi a b Hw Ha Hb). cbn [bind]. eauto.
Qed.

Definition last_in_window lo hi (l : MappingList) : Prop :=
  match ml_last l with Some x => window_mapping lo hi x | None => True end.

Lemma add_window : forall md lo hi g m, window lo hi -> last_in_window lo hi (g_mappings g) ->
  window_mapping lo hi m ->
  exists g', gen_add_mapping md g m = Ok g' /\ last_in_window lo hi (g_mappings g')
    /\ ml_array (g_mappings g') = ml_array (g_mappings g) ++ [m].
Proof.
  intros md lo hi g m Hw Hl Hm. unfold gen_add_mapping, ml_add.
  assert (E : exists r, generated_position_after md
             match ml_last (g_mappings g) with Some x => x | None => ml_dummy_last end m = Ok r).
  { unfold last_in_window in Hl. destruct (ml_last (g_mappings g)) as [x|].
    - eapply gpa_window; eassumption.
    - destruct (gpa_dummy md m) as [r [E _]]; [|eauto].
      destruct Hm as [[Hm1 Hm2] _]. unfold window in Hw. unfold in_window. lia. }
  destruct E as [r ->]. cbn [bind]. destruct r; cbn [bind]; eexists; (split; [reflexivity|]); cbn; split; auto.
Qed.

Lemma adds_window : forall md U lo hi ms g, window lo hi -> last_in_window lo hi (g_mappings g) ->
  Forall (window_mapping lo hi) ms ->
  exists g', gen_run md U g (map GAdd ms) = Ok g'
    /\ ml_array (g_mappings g') = ml_array (g_mappings g) ++ ms.
Proof.
  intros md U lo hi. induction ms as [|m ms IH]; intros g Hw Hl HF; cbn [map gen_run gen_step].
  - exists g. rewrite app_nil_r. auto.
  - inv HF. destruct (add_window md lo hi g m Hw Hl H1) as [g1 [E1 [Hl1 Ha1]]]. rewrite E1. cbn [bind].
    destruct (IH g1 Hw Hl1 H2) as [g' [E2 Ha2]]. exists g'. split; [exact E2|].
    rewrite Ha2, Ha1, <- app_assoc. reflexivity.
Qed.

Lemma insert_perm : forall A (cmp : A -> A -> res Z) x l r, sort_insert cmp x l = Ok r -> Permutation (x :: l) r.
Proof.
  intros A cmp x. induction l as [|y l IH]; intros r H; cbn in H.
  - inv H. reflexivity.
  - bind_inv H. destruct (0 <? x0).
    + bind_inv H. inv H. rewrite perm_swap. apply perm_skip. auto.
    + inv H. reflexivity.
Qed.

Lemma sort_perm : forall A (cmp : A -> A -> res Z) l r, sort_by cmp l = Ok r -> Permutation l r.
Proof.
  intros A cmp. induction l as [|x l IH]; intros r H; cbn in H; [inv H; reflexivity|].
  bind_inv H. apply insert_perm in H. rewrite <- H. apply perm_skip. auto.
Qed.

Lemma to_array_perm : forall md l a l', ml_to_array md l = Ok (a, l') -> Permutation (ml_array l) a.
Proof.
  intros md l a l' H. unfold ml_to_array in H. destruct (ml_sorted l); cbn [negb] in H.
  - inv H. reflexivity.
  - bind_inv H. inv H. eapply sort_perm. eassumption.
Qed.

Lemma segment_no_original : forall md S N m st r, m_source m <> None -> m_original m = None ->
  ser_segment md S N m st <> Ok r.
Proof.
  intros md S N m st r Hs Ho H. unfold ser_segment in H. bind_inv H. bind_inv H. bind_inv H.
  unfold ser_tail in H2. rewrite Ho in H2. destruct (m_source m); [|contradiction].
  bind_inv H2. bind_inv H2. bind_inv H2. cbn in H2. discriminate.
Qed.

Lemma compare_zero_window : forall md lo hi a b, window lo hi -> window_mapping lo hi a -> window_mapping lo hi b ->
  compare_by_generated_pos_inflated md a b = Ok 0 -> m_generated a = m_generated b.
Proof.
  intros md lo hi a b Hw Ha Hb H. rewrite (compare_window md lo hi a b Hw Ha Hb) in H. injection H as H.
  unfold cmpZ, lex in H.
  destruct (negb (p_line (m_generated a) - p_line (m_generated b) =? 0)) eqn:E1; [lia|].
  destruct (negb (p_column (m_generated a) - p_column (m_generated b) =? 0)) eqn:E2; [lia|].
  apply pos_eq; lia.
Qed.

Lemma ser_loop_no_original : forall md lo hi S N m, window lo hi -> m_source m <> None -> m_original m = None ->
  window_mapping lo hi m ->
  forall pre post prev st result r, Forall (window_mapping lo hi) pre ->
  (forall x, In x pre -> m_generated x <> m_generated m) ->
  match prev with Some p => window_mapping lo hi p /\ m_generated p <> m_generated m | None => True end ->
  ser_loop md S N prev (pre ++ m :: post) st result <> Ok r.
Proof.
  intros md lo hi S N m Hw Hs Ho Hm. induction pre as [|x pre IH]; intros post prev st result r HF Hne Hprev H.
  - cbn [app ser_loop] in H. destruct (negb (p_line (m_generated m) =? ss_generated_line st)).
    + bind_inv H. destruct x as [next line]. bind_inv H. exact (segment_no_original _ _ _ _ _ _ Hs Ho H1).
    + destruct prev as [p|].
      * destruct Hprev as [Hp Hpm]. bind_inv H. destruct (x =? 0) eqn:Ex.
        { apply Z.eqb_eq in Ex. subst. apply Hpm. symmetry.
          eapply compare_zero_window; eassumption. }
        bind_inv H. exact (segment_no_original _ _ _ _ _ _ Hs Ho H1).
      * bind_inv H. exact (segment_no_original _ _ _ _ _ _ Hs Ho H0).
  - inv HF. assert (Hx : window_mapping lo hi x /\ m_generated x <> m_generated m).
    { split; [assumption|]. apply Hne. left. reflexivity. }
    assert (Hpre : forall z, In z pre -> m_generated z <> m_generated m).
    { intros z Hz. apply Hne. right. exact Hz. }
    cbn [app ser_loop] in H. destruct (negb (p_line (m_generated x) =? ss_generated_line st)).
    + bind_inv H. destruct x0 as [next line]. bind_inv H. destruct x0 as [seg st'].
      exact (IH post (Some x) _ _ _ H3 Hpre Hx H).
    + destruct prev as [p|].
      * bind_inv H. destruct (x0 =? 0); [exact (IH post (Some x) _ _ _ H3 Hpre Hx H)|].
        bind_inv H. destruct x1 as [seg st']. exact (IH post (Some x) _ _ _ H3 Hpre Hx H).
      * bind_inv H. destruct x0 as [seg st']. exact (IH post (Some x) _ _ _ H3 Hpre Hx H).
Qed.

Lemma not_ok_panic : forall A (r : res A), (forall a, r <> Ok a) -> is_panic r.
Proof. intros A [a|p] H; [exfalso; exact (H a eq_refl) | exists p; reflexivity]. Qed.

Lemma no_original_panics : forall md U file root skip lo hi before m after,
  window lo hi -> Forall (window_mapping lo hi) (before ++ m :: after) ->
  m_source m <> None -> m_original m = None ->
  (forall x, In x (before ++ after) -> m_generated x <> m_generated m) ->
  exists g, gen_run md U (gen_new file root skip) (map GAdd (before ++ m :: after)) = Ok g
    /\ is_panic (gen_as_json md U g).
Proof.
  intros md U file root skip lo hi before m after Hw HF Hs Ho Hne.
  destruct (adds_window md U lo hi (before ++ m :: after) (gen_new file root skip) Hw I HF) as [g [Eg Ha]].
  exists g. split; [exact Eg|]. apply not_ok_panic. intros [j g'] Ej.
  apply as_json_inv in Ej. destruct Ej as [a [ml' [s [sc [Ea [Es _]]]]]].
  apply to_array_perm in Ea. rewrite Ha in Ea. cbn [gen_new g_mappings ml_new ml_array app] in Ea.
  assert (Hin : In m a).
  { eapply Permutation_in; [exact Ea|]. apply in_app_iff. right. left. reflexivity. }
  apply in_split in Hin. destruct Hin as [pre [post ->]].
  assert (Hfa : Forall (window_mapping lo hi) (pre ++ m :: post)) by (rewrite <- Ea; exact HF).
  apply Forall_app in Hfa. destruct Hfa as [Hpre Hpost].
  apply (ser_loop_no_original md lo hi (g_sources g) (g_names g) m Hw Hs Ho (Forall_inv Hpost) pre post None ser_init [] s Hpre);
    [|exact I | exact Es].
  intros x Hx. apply Hne. apply Permutation_app_inv in Ea.
  eapply Permutation_in; [symmetry; exact Ea|]. apply in_app_iff. left. exact Hx.
Qed.

Lemma added_GAdd : forall ms, added_mappings (map GAdd ms) = ms.
Proof. induction ms as [|m ms IH]; cbn; rewrite ?IH; reflexivity. Qed.

(** C28 *)
Lemma encode_release : forall v, -2147483648 <= v <= 2147483647 -> exists s, base64vlq_encode Release v = Ok s.
Proof.
  intros v Hv. assert (Hi : in_i32 v = true) by (apply in_i32_iff; exact Hv).
  destruct (encode_range Release v Hi) as [Hsmall Hbig].
  destruct (Z_lt_dec (Z.abs v) (2^30)) as [Hl|Hl].
  - apply Hsmall in Hl. destruct Hl as [s [E _]]. eauto.
  - destruct Hbig as [[_ [E _]]|[c [w [E _]]]]; [lia | discriminate | eauto].
Qed.

Lemma sub_release : forall x y, exists z, i32_sub Release x y = Ok z /\ -2147483648 <= z <= 2147483647.
Proof.
  intros x y. unfold i32_sub. destruct (checked_i32 Release (x - y)) as [z|p] eqn:E.
  - exists z. split; [reflexivity|]. eapply checked_i32_range. exact E.
  - unfold checked_i32 in E. destruct (in_i32 (x - y)); discriminate.
Qed.

Definition found (S : ArraySet) (x : option str) : Prop :=
  match x with None => True | Some s => exists i, as_index_of S s = Some i end.

Ltac rsub := let z := fresh "z" in let E := fresh "E" in let R := fresh "R" in
  match goal with |- context [i32_sub Release ?x ?y] =>
    destruct (sub_release x y) as [z [E R]]; rewrite E; cbn [bind] end.
Ltac renc := let s := fresh "s" in let E := fresh "E" in
  match goal with H : -2147483648 <= ?z <= 2147483647 |- context [base64vlq_encode Release ?z] =>
    destruct (encode_release z H) as [s E]; rewrite E; cbn [bind] end.

Lemma segment_release : forall S N m st, shaped m -> found S (m_source m) -> found N (m_name m) ->
  exists seg st', ser_segment Release S N m st = Ok (seg, st')
    /\ ss_generated_line st' = ss_generated_line st.
Proof.
  intros S N m st Hm HS HN. unfold ser_segment, ser_tail, shaped in *. rsub. renc.
  cbn [ss_generated_column ss_generated_line ss_original_column ss_original_line ss_name ss_source].
  destruct (m_source m) as [s0|].
  - destruct HS as [i ->]. cbn [unwrap bind]. rsub. renc.
    destruct (m_original m) as [o|]; [|contradiction]. cbn [unwrap bind].
    rsub. rsub. renc. rsub. renc. destruct (m_name m) as [n|].
    + destruct HN as [k ->]. cbn [unwrap bind]. rsub. renc. do 2 eexists. split; reflexivity.
    + do 2 eexists. split; reflexivity.
  - cbn [bind]. do 2 eexists. split; reflexivity.
Qed.

Definition i32_line (m : Mapping) : Prop := -2147483648 <= p_line (m_generated m) <= 2147483647.

Lemma fuel_mod : forall line prev, Z.of_nat (semicolon_fuel line prev) = (line - prev) mod 4294967296.
Proof.
  intros. unfold semicolon_fuel. change (2^32) with 4294967296.
  rewrite Z2Nat.id; [reflexivity|]. apply Z.mod_pos_bound. lia.
Qed.

Lemma ser_loop_release : forall S N ms prev st,
  Forall (fun m => shaped m /\ found S (m_source m) /\ found N (m_name m) /\ i32_line m) ms ->
  -2147483648 <= ss_generated_line st <= 2147483647 ->
  exists s, ser_loop Release S N prev ms st [] = Ok s.
Proof.
  intros S N. induction ms as [|m ms IH]; intros prev st HF Hl; cbn [ser_loop]; [eauto|].
  inv HF. destruct H1 as [Hm1 [Hm2 [Hm3 Hm4]]].
  destruct (negb (p_line (m_generated m) =? ss_generated_line st)) eqn:E.
  - cbn [ss_generated_line].
    rewrite semicolon_loop_release; [|exact Hm4 | exact Hl | symmetry; apply fuel_mod]. cbn [bind].
    match goal with |- context [ser_segment Release S N m ?s] => set (st1 := s) end.
    destruct (segment_release S N m st1 Hm1 Hm2 Hm3) as [seg [st' [E1 El]]]. rewrite E1. cbn [bind].
    rewrite ser_loop_acc. destruct (IH (Some m) st' H2) as [s Es]; [rewrite El; exact Hm4|].
    rewrite Es. cbn [bind]. eauto.
  - destruct prev as [p|].
    + destruct (compare_release m p) as [c ->]. cbn [bind].
      destruct (c =? 0); [apply IH; assumption|].
      destruct (segment_release S N m st Hm1 Hm2 Hm3) as [seg [st' [E1 El]]]. rewrite E1. cbn [bind].
      rewrite ser_loop_acc. destruct (IH (Some m) st' H2) as [s Es]; [rewrite El; exact Hl|].
      rewrite Es. cbn [bind]. eauto.
    + destruct (segment_release S N m st Hm1 Hm2 Hm3) as [seg [st' [E1 El]]]. rewrite E1. cbn [bind].
      rewrite ser_loop_acc. destruct (IH (Some m) st' H2) as [s Es]; [rewrite El; exact Hl|].
      rewrite Es. cbn [bind]. eauto.
Qed.

Lemma found_all : forall (f : Mapping -> option str) S ms, names_ok S (present (map f ms)) ->
  forall m, In m ms -> found S (f m).
Proof.
  intros f S ms HS m Hm. pose proof (known_all f S ms _ HS (Z.le_refl _) m Hm) as H.
  destruct (f m); [|exact I]. destruct H as [i [E _]]. exists i. exact E.
Qed.

Lemma adds_inv : forall md U file root skip lo hi ms, window lo hi -> Forall (wfw lo hi) ms ->
  exists g, gen_run md U (gen_new file root skip) (map GAdd ms) = Ok g
    /\ base_inv file root skip (map GAdd ms) g /\ ml_inv lo hi (g_mappings g) ms.
Proof.
  intros md U file root skip lo hi ms Hw HF.
  destruct (adds_window md U lo hi ms (gen_new file root skip) Hw I) as [g [Eg _]].
  { eapply Forall_impl; [|exact HF]. intros m [Hm _]. exact Hm. }
  exists g. split; [exact Eg|]. split; [apply (base_inv_run _ _ _ _ _ _ _ Eg)|].
  pose proof (list_run _ _ _ _ _ Eg) as El. cbn [gen_new g_mappings] in El.
  assert (Hadd : added (list_ops (map GAdd ms)) = ms) by (rewrite added_list_ops; apply added_GAdd).
  destruct (ml_run_ok lo hi Hw md (list_ops (map GAdd ms)) ml_new [] (ml_inv_new lo hi)) as [l [El2 Hl]].
  { rewrite Hadd. exact HF. }
  rewrite El in El2. injection El2 as <-. rewrite Hadd in Hl. exact Hl.
Qed.

Lemma low_line : forall U file root skip lo hi ms low,
  window lo hi -> Forall (window_mapping lo hi) ms -> Forall shaped ms ->
  (exists m, In m ms /\ p_line (m_generated m) = low) ->
  Forall (fun m => low <= p_line (m_generated m)) ms -> low < 1 ->
  (exists g, gen_run Debug U (gen_new file root skip) (map GAdd ms) = Ok g
     /\ gen_as_json Debug U g = Panic POverflow)
  /\ (exists g j g' rest, gen_run Release U (gen_new file root skip) (map GAdd ms) = Ok g
     /\ gen_as_json Release U g = Ok (j, g')
     /\ smj_mappings j = Some (repeat (ch ";") (Z.to_nat (2^32 - (1 - low))) ++ rest)).
Proof.
  intros U file root skip lo hi ms low Hw HF Hsh [m0 [Hm0 Hl0]] Hmin Hlow.
  assert (HW : Forall (wfw lo hi) ms).
  { rewrite Forall_forall in *. intros x Hx. split; auto. }
  assert (Hi32 : forall m, In m ms -> i32_line m).
  { intros m Hm. rewrite Forall_forall in HF. destruct (HF m Hm) as [[H1 _] _]. unfold window in Hw.
    unfold i32_line. change i32_min with (-2147483648) in Hw. change i32_max with 2147483647 in Hw. lia. }
  assert (Hcommon : forall md, exists g a ml', gen_run md U (gen_new file root skip) (map GAdd ms) = Ok g
     /\ base_inv file root skip (map GAdd ms) g /\ g_source_contents g = []
     /\ ml_to_array md (g_mappings g) = Ok (a, ml') /\ Permutation ms a
     /\ exists m rest, a = m :: rest /\ p_line (m_generated m) = low).
  { intros md. destruct (adds_inv md U file root skip lo hi ms Hw HW) as [g [Eg [HB Hml]]].
    destruct (ml_to_array_ok lo hi Hw md _ _ Hml) as [a [ml' [Ea [Hml' [Harr [_ [Hs _]]]]]]].
    assert (Hp : Permutation ms a).
    { destruct Hml' as [Hp _ _ _]. rewrite Harr in Hp. exact Hp. }
    exists g, a, ml'. split; [exact Eg|]. split; [exact HB|]. split.
    { apply (bi_no_contents _ _ _ _ _ HB). intros s c Hin. apply in_map_iff in Hin.
      destruct Hin as [x [Hx _]]. discriminate. }
    split; [exact Ea|]. split; [exact Hp|].
    assert (Hin : In m0 a) by (eapply Permutation_in; [exact Hp | exact Hm0]).
    destruct a as [|m rest]; [destruct Hin|]. exists m, rest. split; [reflexivity|].
    assert (Hm : In m ms) by (eapply Permutation_in; [symmetry; exact Hp | left; reflexivity]).
    rewrite Forall_forall in Hmin. pose proof (Hmin m Hm).
    destruct Hin as [->|Hin]; [exact Hl0|]. inv Hs. rewrite Forall_forall in H3.
    specialize (H3 m0 Hin). unfold gen_le, pos_le in H3. lia. }
  assert (Hlow32 : -2147483648 <= low) by (pose proof (Hi32 m0 Hm0) as Hx; unfold i32_line in Hx; lia).
  split.
  - destruct (Hcommon Debug) as [g [a [ml' [Eg [HB [Hc [Ea [Hp [m [rest [-> Hm]]]]]]]]]]].
    exists g. split; [exact Eg|]. unfold gen_as_json. rewrite Hc. cbn [bind].
    unfold serialize_mappings. rewrite Ea. cbn [bind g_sources g_names].
    cbn [ser_loop ser_init ss_generated_line]. rewrite Hm.
    assert (E : negb (low =? 1) = true) by lia. rewrite E.
    rewrite semicolon_loop_debug; [reflexivity | lia | lia |].
    rewrite fuel_mod. rewrite <- (Z_mod_plus_full (low - 1) 1 4294967296).
    rewrite Z.mod_small by lia. lia.
  - destruct (Hcommon Release) as [g [a [ml' [Eg [HB [Hc [Ea [Hp [m [rest [-> Hm]]]]]]]]]]].
    pose proof HB as [_ _ _ H4 H5 _ _]. rewrite added_GAdd in H4, H5.
    assert (Hall : Forall (fun m => shaped m /\ found (g_sources g) (m_source m) /\ found (g_names g) (m_name m)
                            /\ i32_line m) (m :: rest)).
    { rewrite Forall_forall. intros x Hx.
      assert (Hin : In x ms) by (eapply Permutation_in; [symmetry; exact Hp | exact Hx]).
      rewrite Forall_forall in Hsh. split; [auto|]. split; [|split; [|auto]].
      - eapply found_all; eassumption.
      - eapply found_all; eassumption. }
    assert (Hser : exists r, ser_loop Release (g_sources g) (g_names g) None (m :: rest) ser_init []
                   = Ok (repeat (ch ";") (Z.to_nat (2^32 - (1 - low))) ++ r)).
    { cbn [ser_loop ser_init ss_generated_line ss_generated_column ss_original_column ss_original_line ss_name ss_source].
      inv Hall. destruct H1 as [Hm1 [Hm2 [Hm3 Hm4]]].
      assert (E : negb (p_line (m_generated m) =? 1) = true) by lia. rewrite E.
      rewrite semicolon_loop_release; [|exact Hm4 | lia | symmetry; apply fuel_mod]. cbn [bind].
      match goal with |- context [ser_segment Release ?S ?N m ?s] => set (st1 := s) end.
      destruct (segment_release (g_sources g) (g_names g) m st1 Hm1 Hm2 Hm3) as [seg [st' [E1 El]]]. rewrite E1. cbn [bind].
      rewrite ser_loop_acc. destruct (ser_loop_release (g_sources g) (g_names g) rest (Some m) st' H2) as [s Es];
        [rewrite El; exact Hm4|].
      rewrite Es. cbn [bind app]. rewrite <- app_assoc. eexists. f_equal. f_equal. f_equal.
      apply Nat2Z.inj. rewrite fuel_mod. change (2^32) with 4294967296.
      rewrite <- (Z_mod_plus_full (p_line (m_generated m) - 1) 1 4294967296).
      rewrite Z.mod_small by lia. lia. }
    destruct Hser as [r Er].
    do 4 eexists. split; [exact Eg|].
    split; [unfold gen_as_json; rewrite Hc; cbn [bind]; unfold serialize_mappings; rewrite Ea;
            cbn [bind g_sources g_names]; rewrite Er; cbn [bind]; reflexivity|].
    reflexivity.
Qed.

(** C64 *)
Lemma validate_exact : forall m, window_mapping i32_min i32_max m ->
  (validate_mapping m = true <-> valid_mapping m).
Proof.
  intros [[l c] o s n lc] [[Hl Hc] Ho]. unfold validate_mapping, valid_mapping, wf_mapping, nat_pos, line1 in *.
  cbn [m_generated m_original m_source m_name p_line p_column] in *.
  destruct o as [[ol oc]|]; cbn [p_line p_column is_none is_some andb orb] in *.
  - destruct Ho as [Hol Hoc]. cbn [p_line p_column] in *. rewrite andb_false_r. cbn [andb orb].
    destruct s; cbn [is_some]; rewrite ?andb_true_r, ?andb_false_r, ?andb_true_iff, ?Z.ltb_lt, ?Z.leb_le.
    + split; [intros [[[? ?] ?] ?] | intros [[[? ?] [? ?]] [? ?]]]; repeat split; lia.
    + split; [discriminate | intros [[_ []] _]].
  - rewrite orb_false_r, andb_true_r. destruct s, n; cbn [is_none];
      rewrite ?andb_true_r, ?andb_false_r, ?andb_true_iff, ?Z.ltb_lt, ?Z.leb_le.
    + split; [discriminate | intros [[_ []] _]].
    + split; [discriminate | intros [[_ []] _]].
    + split; [discriminate | intros [_ [_ H]]; discriminate].
    + split; [intros [? ?] | intros [[[? ?] _] [? _]]]; repeat split; lia.
Qed.
