(** * Generators after caught panics *)
From Verif Require Import F_Base M_Base64Vlq M_ArraySet M_Mapping M_Util M_SourceMap M_MapLib M_Generator M_UnwindGen
  S_Vlq S_List S_Decode S_Mapping S_Generator S_Far S_UnwindGen F_Vlq F_ArraySet F_Sort F_Mapping F_MappingList F_Decode F_Serialize
  F_FarLoop F_Generator F_GeneratorProps.
From Verif Require S_Adds F_Adds.
From Coq Require Import Sorting.Sorted Sorting.Permutation.

Lemma as_json_parts : forall md U g, gen_as_json md U g =
  (let* sc := gen_json_contents md U g in
   let* r := ml_to_array md (g_mappings g) in
   let* s := ser_loop md (g_sources g) (g_names g) None (fst r) ser_init [] in
   Ok (mkSMJ 3 (Some (as_to_vec (g_sources g))) (Some (as_to_vec (g_names g))) (Some s) (g_file g) (g_source_root g) sc None,
       gen_set_mappings g (snd r))).
Proof.
  intros md U g. unfold gen_as_json. fold (gen_json_contents md U g).
  destruct (gen_json_contents md U g) as [sc|p]; [|reflexivity]. cbn [bind]. unfold serialize_mappings.
  destruct (ml_to_array md (g_mappings g)) as [[a ml]|p]; [|reflexivity]. cbn [bind fst snd g_sources g_names].
  destruct (ser_loop _ _ _ _ _ _ _) as [s|p]; reflexivity.
Qed.

Lemma json_step : forall md U g g1, gen_step md U g GJson = Ok g1 ->
  exists a ml, ml_to_array md (g_mappings g) = Ok (a, ml) /\ g1 = gen_set_mappings g ml.
Proof.
  intros md U g g1 H. cbn [gen_step] in H. rewrite as_json_parts in H.
  destruct (gen_json_contents md U g) as [sc|p]; [|discriminate H]. cbn [bind] in H.
  destruct (ml_to_array md (g_mappings g)) as [[a ml]|p]; [|discriminate H]. cbn [bind fst snd] in H.
  destruct (ser_loop _ _ _ _ _ _ _) as [s|p]; [|discriminate H]. cbn in H. inv H. eauto.
Qed.

(** every panicking call leaves something *)
Lemma panic_left : forall md U g op p, gen_step md U g op = Panic p -> exists g1, panic_leaves md U g op g1.
Proof.
  intros md U g [m|s c|] p H; cbn [panic_leaves gen_step] in *; eauto.
  rewrite as_json_parts in H.
  destruct (gen_json_contents md U g) as [sc|e] eqn:E; [|eexists; eapply left_contents; exact E]. cbn [bind] in H.
  destruct (ml_to_array md (g_mappings g)) as [[a ml]|e] eqn:Ea.
  2: { eexists. eapply left_sort; [exact E|exact Ea|apply Permutation_refl]. }
  cbn [bind fst snd] in H. destruct (ser_loop _ _ _ _ _ _ _) as [s|e] eqn:Es; [discriminate H|].
  eexists. eapply left_loop; [exact E|exact Ea|exact Es].
Qed.

Lemma caught_all : forall md U ops g, exists ps g', caught md U g ops ps g'.
Proof.
  intros md U. induction ops as [|op ops IH]; intros g; [exists [], g; constructor|].
  destruct (gen_step md U g op) as [g1|p] eqn:E.
  - destruct (IH g1) as [ps [g' H]]. exists (op :: ps), g'. econstructor; eassumption.
  - destruct (panic_left md U g op p E) as [g1 L]. destruct (IH g1) as [ps [g' H]]. exists ps, g'. eapply caught_panic; eassumption.
Qed.

Lemma caught_no_panic : forall md U ops g g', gen_run md U g ops = Ok g' -> caught md U g ops ops g'.
Proof.
  intros md U. induction ops as [|op ops IH]; intros g g' H; cbn in H; [inv H; constructor|].
  destruct (gen_step md U g op) as [g1|] eqn:E; [|discriminate]. econstructor; [exact E|]. apply IH. exact H.
Qed.

Lemma caught_only : forall md U ops g g' ps g2, gen_run md U g ops = Ok g' -> caught md U g ops ps g2 -> ps = ops /\ g2 = g'.
Proof.
  intros md U. induction ops as [|op ops IH]; intros g g' ps g2 H C; cbn in H; inv C; [inv H; auto| |].
  - rewrite H3 in H. cbn in H. destruct (IH _ _ _ _ H H6) as [-> ->]. auto.
  - rewrite H2 in H. discriminate.
Qed.

(** ** sources and names: of every add_mapping, passed or not *)
Record kept_inv (file root : option str) (skip : bool) (ms : list Mapping) (g : Generator) : Prop := {
  ki_file : g_file g = file;
  ki_root : g_source_root g = root;
  ki_skip : g_skip_validation g = skip;
  ki_sources : names_ok (g_sources g) (present (map m_source ms));
  ki_names : names_ok (g_names g) (present (map m_name ms)) }.

Lemma kept_add : forall file root skip ms g m ml, kept_inv file root skip ms g ->
  kept_inv file root skip (ms ++ [m]) (gen_set_mappings (gen_add_left g m) ml).
Proof.
  intros file root skip ms g m ml [H1 H2 H3 H4 H5]. constructor; cbn; try assumption.
  - rewrite map_app, present_app. apply add_if_absent_ok. exact H4.
  - rewrite map_app, present_app. apply add_if_absent_ok. exact H5.
Qed.

Lemma kept_set : forall file root skip ms g ml, kept_inv file root skip ms g -> kept_inv file root skip ms (gen_set_mappings g ml).
Proof. intros file root skip ms g ml [H1 H2 H3 H4 H5]. constructor; assumption. Qed.

Lemma step_kept : forall md U g op g1 file root skip ms, gen_step md U g op = Ok g1 -> kept_inv file root skip ms g ->
  kept_inv file root skip (ms ++ added_mappings [op]) g1.
Proof.
  intros md U g [m|s c|] g1 file root skip ms H K; cbn [gen_step added_mappings] in *; rewrite ?app_nil_r.
  - unfold gen_add_mapping in H. bind_inv H. inv H. exact (kept_add _ _ _ _ _ m x K).
  - unfold gen_set_source_content in H. bind_inv H. inv H. destruct K; constructor; assumption.
  - destruct (json_step _ _ _ _ H) as [a [ml [_ ->]]]. apply kept_set. exact K.
Qed.

Lemma panic_kept : forall md U g op g1 file root skip ms, panic_leaves md U g op g1 -> kept_inv file root skip ms g ->
  kept_inv file root skip (ms ++ added_mappings [op]) g1.
Proof.
  intros md U g [m|s c|] g1 file root skip ms H K; cbn [panic_leaves added_mappings] in *; rewrite ?app_nil_r.
  - subst g1. exact (kept_add _ _ _ _ _ m (g_mappings g) K).
  - subst g1. exact K.
  - destruct H; [exact K|apply kept_set; exact K|apply kept_set; exact K].
Qed.

Lemma added_cons : forall op ops, added_mappings (op :: ops) = added_mappings [op] ++ added_mappings ops.
Proof. intros [m|s c|] ops; reflexivity. Qed.

Lemma caught_kept : forall md U g ops ps g' file root skip ms, caught md U g ops ps g' -> kept_inv file root skip ms g ->
  kept_inv file root skip (ms ++ added_mappings ops) g'.
Proof.
  intros md U g ops ps g' file root skip ms C. revert ms.
  induction C as [g|g op g1 ops ps g' E C IH|g op p g1 ops ps g' E P C IH]; intros ms K.
  - cbn. rewrite app_nil_r. exact K.
  - rewrite added_cons, app_assoc. apply IH. eapply step_kept; eassumption.
  - rewrite added_cons, app_assoc. apply IH. eapply panic_kept; eassumption.
Qed.

Lemma kept_new : forall file root skip, kept_inv file root skip [] (gen_new file root skip).
Proof. intros. constructor; cbn; try reflexivity; (split; [apply as_inv_new | reflexivity]). Qed.

Lemma caught_arrays : forall md U file root skip ops ps g j g',
  caught md U (gen_new file root skip) ops ps g -> gen_as_json md U g = Ok (j, g') ->
  smj_version j = 3
  /\ smj_sources j = Some (distinct (present (map m_source (added_mappings ops))))
  /\ smj_names j = Some (distinct (present (map m_name (added_mappings ops))))
  /\ smj_file j = file /\ smj_source_root j = root /\ smj_sections j = None.
Proof.
  intros md U file root skip ops ps g j g' C H.
  destruct (caught_kept _ _ _ _ _ _ file root skip [] C (kept_new file root skip)) as [H1 H2 _ [_ H4] [_ H5]]. cbn [app] in *.
  apply as_json_inv in H. destruct H as [a [ml' [s [sc [_ [_ [_ [-> _]]]]]]]]. cbn. rewrite H4, H5. repeat split; assumption.
Qed.

(** ** the mappings held: those of the add_mapping that passed *)
Lemma step_array : forall md U g op g1, gen_step md U g op = Ok g1 ->
  Permutation (ml_array (g_mappings g) ++ added_mappings [op]) (ml_array (g_mappings g1)).
Proof.
  intros md U g [m|s c|] g1 H; cbn [gen_step added_mappings] in *; rewrite ?app_nil_r.
  - unfold gen_add_mapping, ml_add in H. bind_inv H. inv H. bind_inv H0. destruct x0; inv H0; apply Permutation_refl.
  - unfold gen_set_source_content in H. bind_inv H. inv H. apply Permutation_refl.
  - destruct (json_step _ _ _ _ H) as [a [ml [H1 ->]]]. cbn. unfold ml_to_array in H1. destruct (negb (ml_sorted (g_mappings g))).
    + bind_inv H1. inv H1. cbn. eapply sort_perm. eassumption.
    + inv H1. apply Permutation_refl.
Qed.

Lemma panic_array : forall md U g op g1, panic_leaves md U g op g1 -> Permutation (ml_array (g_mappings g)) (ml_array (g_mappings g1)).
Proof.
  intros md U g [m|s c|] g1 H; cbn [panic_leaves] in *; [subst; apply Permutation_refl|subst; apply Permutation_refl|].
  destruct H as [p H|sc p a H H0 H1|sc a ml p H H0 H1]; [apply Permutation_refl|exact H1|].
  cbn. unfold ml_to_array in H0. destruct (negb (ml_sorted (g_mappings g))).
  - bind_inv H0. inv H0. cbn. eapply sort_perm. eassumption.
  - inv H0. apply Permutation_refl.
Qed.

Lemma caught_array : forall md U g ops ps g', caught md U g ops ps g' ->
  Permutation (ml_array (g_mappings g) ++ added_mappings ps) (ml_array (g_mappings g')).
Proof.
  intros md U g ops ps g' C. induction C as [g|g op g1 ops ps g' E C IH|g op p g1 ops ps g' E P C IH].
  - cbn. rewrite app_nil_r. apply Permutation_refl.
  - rewrite added_cons, app_assoc. eapply Permutation_trans; [|exact IH]. apply Permutation_app_tail. eapply step_array. exact E.
  - eapply Permutation_trans; [|exact IH]. apply Permutation_app_tail. eapply panic_array. exact P.
Qed.

(** ** mappings the format can express *)
Lemma encodable_state : forall md U file root skip ms g m, Forall encodable (ms ++ m) -> few_names 2147483648 (ms ++ m) ->
  kept_inv file root skip ms g -> ml_inv 0 i32_max (g_mappings g) ms ->
  forall sc, gen_json_contents md U g = Ok sc -> exists j g', gen_as_json md U g = Ok (j, g').
Proof.
  intros md U file root skip ms g m Hv Hn [H1 H2 H3 H4 H5] Hml sc Hsc.
  apply Forall_app in Hv. destruct Hv as [Hv _].
  assert (Hn' : few_names 2147483648 ms) by (eapply few_incl; [|exact Hn]; apply incl_appl, incl_refl).
  destruct (ml_to_array_ok 0 i32_max window_nat md _ _ Hml) as [a [ml' [Ea [Hml' [Harr [_ [Hs _]]]]]]].
  assert (Hp : Permutation ms a).
  { destruct Hml' as [Hp _ _ _]. rewrite Harr in Hp. exact Hp. }
  destruct (ser_text_short md (g_sources g) (g_names g) a) as [s [Es Hg]]; [|exact Hs|].
  { rewrite Forall_forall. intros x Hm.
    assert (Hin : In x ms) by (eapply Permutation_in; [symmetry; exact Hp | exact Hm]).
    rewrite Forall_forall in Hv. destruct (Hv x Hin) as [Hw Hl].
    split; [exact Hw|]. split; [exact Hl|]. split.
    - eapply known_all; [eassumption | exact (proj1 Hn') | eassumption].
    - apply known_name. eapply known_all; [eassumption | exact (proj2 Hn') | eassumption]. }
  rewrite as_json_parts, Hsc. cbn [bind]. rewrite Ea. cbn [bind fst snd]. rewrite Es. cbn [bind]. eauto.
Qed.

Lemma caught_encodable : forall md U file root skip g ops ps g' ms, caught md U g ops ps g' ->
  Forall encodable (ms ++ added_mappings ops) -> few_names 2147483648 (ms ++ added_mappings ops) ->
  kept_inv file root skip ms g -> ml_inv 0 i32_max (g_mappings g) ms ->
  gen_run md U g ps = Ok g' /\ added_mappings ps = added_mappings ops /\ ml_inv 0 i32_max (g_mappings g') (ms ++ added_mappings ops).
Proof.
  intros md U file root skip g ops ps g' ms C. revert ms.
  induction C as [g|g op g1 ops ps g' E C IH|g op p g1 ops ps g' E P C IH]; intros ms Hv Hn K Hml.
  - split; [reflexivity|]. split; [reflexivity|]. cbn. rewrite app_nil_r. exact Hml.
  - rewrite added_cons, app_assoc in Hv, Hn. cbn [gen_run]. rewrite E. cbn [bind].
    destruct (IH _ Hv Hn (step_kept _ _ _ _ _ _ _ _ _ E K)) as [A [B D]].
    + destruct op as [m|s c|]; cbn [gen_step added_mappings] in *; rewrite ?app_nil_r in *.
      * unfold gen_add_mapping in E. bind_inv E. inv E. cbn.
        apply Forall_app in Hv. destruct Hv as [Hv _]. apply Forall_app in Hv. destruct Hv as [_ Hv]. apply Forall_inv in Hv.
        destruct (ml_add_ok 0 i32_max window_nat md _ _ m Hml) as [l' [El [Hl _]]]; [apply wf_window; apply Hv|].
        rewrite El in E0. inv E0. exact Hl.
      * unfold gen_set_source_content in E. bind_inv E. inv E. exact Hml.
      * destruct (json_step _ _ _ _ E) as [a [ml [Ea ->]]]. cbn.
        destruct (ml_to_array_ok 0 i32_max window_nat md _ _ Hml) as [a3 [ml3 [Ea3 [Hml3 _]]]].
        rewrite Ea3 in Ea. inv Ea. exact Hml3.
    + split; [exact A|]. rewrite (added_cons op ops), (added_cons op ps), B, app_assoc. split; [reflexivity|exact D].
  - rewrite added_cons, app_assoc in Hv, Hn.
    assert (X : g1 = g /\ added_mappings [op] = []).
    { destruct op as [m|s c|]; cbn [gen_step panic_leaves added_mappings] in *.
      - exfalso. unfold gen_add_mapping in E. apply Forall_app in Hv. destruct Hv as [Hv _]. apply Forall_app in Hv. destruct Hv as [_ Hv]. apply Forall_inv in Hv.
        destruct (ml_add_ok 0 i32_max window_nat md _ _ m Hml) as [l' [El [Hl _]]]; [apply wf_window; apply Hv|].
        rewrite El in E. discriminate E.
      - auto.
      - split; [|reflexivity]. rewrite app_nil_r in Hv, Hn.
        destruct P as [q P|sc q a P P0 P1|sc a ml q P P0 P1]; [reflexivity| |];
          exfalso; destruct (encodable_state md U file root skip ms g _ Hv Hn K Hml sc P) as [j [g2 X]];
          rewrite X in E; discriminate E. }
    destruct X as [-> X]. rewrite X, app_nil_r in Hv, Hn.
    destruct (IH _ Hv Hn K Hml) as [A [B D]]. split; [exact A|]. rewrite (added_cons op ops), X. exact (conj B D).
Qed.

Lemma caught_as_passing : forall md U file root skip ops ps g,
  Forall encodable (added_mappings ops) -> few_names 2147483648 (added_mappings ops) ->
  caught md U (gen_new file root skip) ops ps g ->
  gen_run md U (gen_new file root skip) ps = Ok g /\ added_mappings ps = added_mappings ops.
Proof.
  intros md U file root skip ops ps g Hv Hn C.
  destruct (caught_encodable md U file root skip _ _ _ _ [] C Hv Hn (kept_new file root skip) (ml_inv_new 0 i32_max)) as [A [B _]].
  exact (conj A B).
Qed.

Lemma caught_roundtrip : forall md U file root skip ops ps g j g',
  Forall valid_mapping (added_mappings ops) -> steps_fit ps -> few_names (2^30) (added_mappings ops) ->
  caught md U (gen_new file root skip) ops ps g -> gen_as_json md U g = Ok (j, g') ->
  exists r, read_json j = Some r
    /\ (forall x, In x r <-> exists m, In m (added_mappings ops) /\ x = written m)
    /\ gen_sorted r.
Proof.
  intros md U file root skip ops ps g j g' H1 H2 H3 C Ej. change (2^30) with 1073741824 in H3.
  assert (Hv : Forall encodable (added_mappings ops)) by (eapply Forall_impl; [|exact H1]; intros m [Hm [Hl _]]; split; assumption).
  assert (Hn : few_names 2147483648 (added_mappings ops)) by (apply (few_more 1073741824); [lia | exact H3]).
  destruct (caught_encodable md U file root skip _ _ _ _ [] C Hv Hn (kept_new file root skip) (ml_inv_new 0 i32_max)) as [Eg [HB Hml]].
  cbn [app] in Hml.
  destruct (caught_kept _ _ _ _ _ _ file root skip [] C (kept_new file root skip)) as [_ _ _ H4 H5]. cbn [app] in *.
  pose proof (list_run _ _ _ _ _ Eg) as El. cbn [gen_new g_mappings] in El.
  pose proof (as_json_inv _ _ _ _ _ Ej) as [a [ml2 [s [sc [Ea [Es [_ [Hj _]]]]]]]].
  destruct (ml_to_array_ok 0 i32_max window_nat md _ _ Hml) as [a2 [ml' [Ea2 [Hml' [Harr [_ [Hs _]]]]]]].
  rewrite Ea in Ea2. injection Ea2 as <- <-.
  assert (Hp : Permutation (added_mappings ops) a).
  { destruct Hml' as [Hp _ _ _]. rewrite Harr in Hp. exact Hp. }
  destruct (far_loop_start md (g_sources g) (g_names g) a) as [s2 [r [Es2 [Hc [[V1 _] _]]]]].
  { rewrite Forall_forall. intros m Hm.
    assert (Hin : In m (added_mappings ops)) by (eapply Permutation_in; [symmetry; exact Hp | exact Hm]).
    rewrite Forall_forall in H1. split; [apply valid_expressible, H1; exact Hin|].
    split; [|apply known_name]; (eapply known_all; [eassumption | first [exact (proj1 H3) | exact (proj2 H3)] | eassumption]). }
  { exact Hs. }
  rewrite Es in Es2. injection Es2 as <-.
  assert (Hheld : held (list_ops ps ++ [ToArray]) a).
  { eapply array_held; [|exact El | exact Ea]. rewrite HB. eapply Forall_impl; [|exact Hv]. intros m [Hm _]. exact Hm. }
  destruct (V1 (H2 _ _ Hheld Hc)) as [raws [Hd Hres]].
  assert (Hr : map read_back r = r).
  { rewrite <- (map_id r) at 2. apply map_ext_in. intros x Hx. apply (collapsed_In _ _ _ Hc) in Hx.
    apply in_map_iff in Hx. destruct Hx as [m [<- Hm]]. rewrite Forall_forall in H1.
    change (read_back (written m)) with (read_back m). apply read_back_valid, H1.
    eapply Permutation_in; [symmetry; exact Hp | exact Hm]. }
  exists r. split; [subst j; unfold read_json; cbn [smj_sources smj_names smj_mappings]; rewrite Hd, <- Hr at 1; exact Hres|]. split.
  - intros x. rewrite <- (collapsed_In _ _ _ Hc), in_map_iff. split.
    + intros [m [<- Hm]]. exists m. split; [|reflexivity]. eapply Permutation_in; [symmetry; exact Hp | exact Hm].
    + intros [m [Hm ->]]. exists m. split; [reflexivity|]. eapply Permutation_in; [exact Hp | exact Hm].
  - eapply collapsed_sorted; [exact Hc | apply written_sorted; exact Hs].
Qed.

(** ** as_json panics again *)
Lemma json_panics_again : forall md U g p g1 r, gen_as_json md U g = Panic p -> ml_to_array md (g_mappings g) = Ok r ->
  panic_leaves md U g GJson g1 -> gen_as_json md U g1 = Panic p.
Proof.
  intros md U g p g1 r H Hr L. cbn [panic_leaves] in L. destruct L as [q P|sc q a P P0 P1|sc a ml q P P0 P1]; [exact H|congruence|].
  rewrite as_json_parts in H |- *.
  assert (E : gen_json_contents md U (gen_set_mappings g ml) = gen_json_contents md U g) by reflexivity.
  rewrite E. rewrite P in H |- *. cbn [bind] in H |- *. rewrite P0 in H. cbn [bind fst snd] in H.
  cbn [gen_set_mappings g_mappings g_sources g_names]. rewrite (to_array_repeat _ _ _ _ P0). cbn [bind fst snd].
  rewrite P1 in H |- *. exact H.
Qed.

(** release builds: all mappings are held *)
Lemma release_adds : forall U g ops ps g', caught Release U g ops ps g' -> added_mappings ps = added_mappings ops.
Proof.
  intros U g ops ps g' C. induction C as [g|g op g1 ops ps g' E C IH|g op p g1 ops ps g' E P C IH]; [reflexivity| |].
  - rewrite (added_cons op ops), (added_cons op ps), IH. reflexivity.
  - rewrite (added_cons op ops), IH. destruct op as [m|s c|]; [|reflexivity|reflexivity].
    cbn in E. destruct (add_release g m) as [x X]. congruence.
Qed.

(** ** contents *)
Lemma caught_base : forall md U g ops ps g' file root skip pre, caught md U g ops ps g' -> base_inv file root skip pre g ->
  base_inv file root skip (pre ++ ops) g'.
Proof.
  intros md U g ops ps g' file root skip pre C. revert pre.
  induction C as [g|g op g1 ops ps g' E C IH|g op p g1 ops ps g' E P C IH]; intros pre B.
  - rewrite app_nil_r. exact B.
  - rewrite (app_assoc pre [op] ops : pre ++ op :: ops = (pre ++ [op]) ++ ops). apply IH. eapply base_inv_step; eassumption.
  - rewrite (app_assoc pre [op] ops : pre ++ op :: ops = (pre ++ [op]) ++ ops). apply IH. clear IH C ops ps g'.
    destruct B as [H1 H2 H3 H4 H5 H6 H7]. destruct op as [m|s c|]; cbn [panic_leaves gen_step] in *.
    + subst g1. split; cbn; auto.
      * rewrite added_mappings_app, map_app, present_app. cbn [added_mappings map app]. apply add_if_absent_ok. exact H4.
      * rewrite added_mappings_app, map_app, present_app. cbn [added_mappings map app]. apply add_if_absent_ok. exact H5.
      * intros Hr s. rewrite last_content_app. cbn. auto.
      * intros Hn. apply no_content_app in Hn. tauto.
    + subst g1. unfold gen_content_left. split; auto.
      * rewrite added_mappings_app. cbn. rewrite app_nil_r. exact H4.
      * rewrite added_mappings_app. cbn. rewrite app_nil_r. exact H5.
      * intros Hr. exfalso. unfold gen_set_source_content in E. rewrite H2, Hr in E. discriminate E.
      * intros Hn. apply no_content_app in Hn. destruct Hn as [_ Hn]. exfalso. apply (Hn s c). left. reflexivity.
    + assert (X : forall ml, base_inv file root skip (pre ++ [GJson]) (gen_set_mappings g ml)).
      { intros ml. split; cbn; auto.
        * rewrite added_mappings_app. cbn. rewrite app_nil_r. exact H4.
        * rewrite added_mappings_app. cbn. rewrite app_nil_r. exact H5.
        * intros Hr s'. rewrite last_content_app. cbn. auto.
        * intros Hn. apply no_content_app in Hn. tauto. }
      destruct P as [q P|sc q a P P0 P1|sc a ml q P P0 P1]; [|apply X|apply X].
      specialize (X (g_mappings g)). destruct g. exact X.
Qed.

Lemma caught_contents : forall md U file skip ops ps g j g',
  caught md U (gen_new file None skip) ops ps g -> gen_as_json md U g = Ok (j, g') ->
  exists sources, smj_sources j = Some sources
    /\ ((forall s, last_content s ops None = None) -> smj_sources_content j = None)
    /\ ((exists s, last_content s ops None <> None) ->
        smj_sources_content j = Some (present (map (fun s => last_content s ops None) sources))).
Proof.
  intros md U file skip ops ps g j g' C Ej.
  destruct (caught_base _ _ _ _ _ _ file None skip [] C (base_inv_new file None skip)) as [H1 H2 H3 H4 H5 H6 H7]. cbn [app] in *.
  specialize (H6 eq_refl).
  apply as_json_inv in Ej. destruct Ej as [a [ml' [s [sc [_ [_ [_ [-> Hsc]]]]]]]].
  exists (as_array (g_sources g)). cbn. split; [reflexivity|]. split.
  - intros Hn. assert (E : g_source_contents g = []).
    { apply hm_get_all_none. intros k. rewrite H6. apply Hn. }
    rewrite E in Hsc. exact Hsc.
  - intros [s0 Hs0]. destruct (g_source_contents g) as [|kv m] eqn:E.
    { exfalso. apply Hs0. rewrite <- H6. reflexivity. }
    destruct Hsc as [l [El ->]]. rewrite H2 in El. unfold generate_sources_contents in El. f_equal. f_equal.
    erewrite mapM_ok in El; [injection El as <-; reflexivity|].
    intros x _. cbn [bind]. f_equal. rewrite E. unfold hm_contains. rewrite <- H6.
    destruct (hm_get x (kv :: m)); reflexivity.
Qed.

(** ** builds with overflow checks *)
Lemma caught_list : forall U g ops ps g' ms, caught Debug U g ops ps g' -> F_Adds.kept (g_mappings g) ms ->
  F_Adds.kept (g_mappings g') (ms ++ added_mappings ps).
Proof.
  intros U g ops ps g' ms C. revert ms.
  induction C as [g|g op g1 ops ps g' E C IH|g op p g1 ops ps g' E P C IH]; intros ms K.
  - cbn. rewrite app_nil_r. exact K.
  - rewrite added_cons, app_assoc. apply IH. destruct op as [m|s c|]; cbn [added_mappings]; rewrite ?app_nil_r.
    + cbn [gen_step] in E. unfold gen_add_mapping in E. bind_inv E. inv E. cbn. eapply F_Adds.kept_add; eassumption.
    + cbn [gen_step] in E. unfold gen_set_source_content in E. bind_inv E. inv E. exact K.
    + destruct (json_step _ _ _ _ E) as [a [ml [Ea ->]]]. exact (proj1 (F_Adds.kept_array _ _ _ _ K Ea)).
  - apply IH. destruct op as [m|s c|]; cbn [panic_leaves] in P; [subst; exact K|subst; exact K|].
    destruct P as [q P|sc q a P P0 P1|sc a ml q P P0 P1]; [exact K| |exact (proj1 (F_Adds.kept_array _ _ _ _ K P0))].
    destruct K as [K1 K2 K3]. unfold ml_to_array in P0. destruct (ml_sorted (g_mappings g)) eqn:Es; cbn [negb] in P0; [discriminate P0|].
    split; cbn.
    + eapply perm_trans; [exact K1|exact P1].
    + exact K2.
    + discriminate.
Qed.

Lemma caught_debug_sorted : forall U file root skip ops ps g a l', caught Debug U (gen_new file root skip) ops ps g ->
  ml_to_array Debug (g_mappings g) = Ok (a, l') -> Permutation (added_mappings ps) a /\ S_Mapping.gen_sorted a.
Proof.
  intros U file root skip ops ps g a l' C H.
  exact (proj2 (F_Adds.kept_array _ _ _ _ (caught_list _ _ _ _ _ [] C F_Adds.kept_new) H)).
Qed.

Lemma caught_add : forall U file root skip ops ps g m, caught Debug U (gen_new file root skip) ops ps g ->
  Forall S_Adds.i32_place (added_mappings ps) -> S_Adds.i32_place m ->
  exists M, S_Adds.latest (S_Adds.places (added_mappings ps)) M
    /\ (S_Adds.far_before (m_generated m) M -> gen_add_mapping Debug g m = Panic POverflow)
    /\ (~ S_Adds.far_before (m_generated m) M -> exists g', gen_add_mapping Debug g m = Ok g').
Proof.
  intros U file root skip ops ps g m C Hms Hm.
  destruct (F_Adds.add_exact_at _ _ m (caught_list _ _ _ _ _ [] C F_Adds.kept_new) Hms Hm) as [M [A [B D]]].
  exists M. split; [exact A|]. unfold gen_add_mapping. split.
  - intros F. rewrite (B F). reflexivity.
  - intros F. destruct (D F) as [l' ->]. cbn [bind]. eauto.
Qed.
