(** * Lemmas about source contents: C61, C62 *)
From Verif Require Import F_Base M_Base64Vlq M_ArraySet M_Mapping M_Util M_SourceMap M_MapLib M_Generator
  S_Vlq S_List S_Decode S_Mapping S_Generator S_Far S_Contents F_ArraySet F_Sort F_Mapping F_MappingList F_Decode F_Serialize F_Generator F_GeneratorProps.
From Coq Require Import Sorting.Sorted Sorting.Permutation.

Definition no_contents (g : Generator) : Generator :=
  mkGen (g_file g) (g_source_root g) (g_skip_validation g) (g_sources g) (g_names g) (g_mappings g) [].

Lemma added_without_content : forall ops, added_mappings (without_content ops) = added_mappings ops.
Proof. induction ops as [|[m|s c|] ops IH]; cbn; rewrite ?IH; reflexivity. Qed.
Lemma list_without_content : forall ops, list_ops (without_content ops) = list_ops ops.
Proof. induction ops as [|[m|s c|] ops IH]; cbn; rewrite ?IH; reflexivity. Qed.
Lemma no_content_without : forall ops, no_content (without_content ops).
Proof.
  intros ops s c. induction ops as [|[m|s' c'|] ops IH]; cbn; auto; intros [H|H]; try discriminate; auto.
Qed.
Lemma GJson_without : forall ops, In GJson (without_content ops) <-> In GJson ops.
Proof.
  induction ops as [|[m|s' c'|] ops IH]; cbn; [tauto| | |].
  - rewrite IH. split; intros [H|H]; try discriminate; auto.
  - rewrite IH. split; [auto|]. intros [H|H]; [discriminate | exact H].
  - rewrite IH. tauto.
Qed.

Definition with_contents (j : SourceMapJson) (c : option (list str)) : SourceMapJson :=
  mkSMJ (smj_version j) (smj_sources j) (smj_names j) (smj_mappings j) (smj_file j) (smj_source_root j) c (smj_sections j).

Lemma json_no_contents : forall md U g j g', gen_as_json md U g = Ok (j, g') ->
  gen_as_json md U (no_contents g) = Ok (with_contents j None, no_contents g').
Proof.
  intros md U g j g' H. apply as_json_inv in H. destruct H as [a [ml' [s [sc [Ea [Es [-> [-> _]]]]]]]].
  unfold gen_as_json, no_contents. cbn [g_source_contents g_sources g_mappings bind].
  unfold serialize_mappings. cbn [g_mappings]. rewrite Ea. cbn [bind g_sources g_names].
  rewrite Es. reflexivity.
Qed.

Lemma run_no_contents : forall md U ops g g', gen_run md U g ops = Ok g' ->
  gen_run md U (no_contents g) (without_content ops) = Ok (no_contents g').
Proof.
  intros md U. induction ops as [|[m|s c|] ops IH]; intros g g' H; cbn [gen_run without_content gen_step] in *.
  - inv H. reflexivity.
  - bind_inv H. apply IH in H. unfold gen_add_mapping in *. bind_inv H0. inv H0.
    cbn [no_contents g_mappings g_sources g_names] in *. rewrite H1. cbn [bind]. exact H.
  - bind_inv H. apply IH in H. unfold gen_set_source_content in H0. bind_inv H0. inv H0. exact H.
  - bind_inv H. bind_inv H0. destruct x0 as [j g1]. inv H0. cbn [snd] in H.
    rewrite (json_no_contents _ _ _ _ _ H1). cbn [bind snd]. apply IH. exact H.
Qed.

(** C61 *)
Lemma contents_independent : forall md U file root skip ops g j g',
  gen_run md U (gen_new file root skip) ops = Ok g -> gen_as_json md U g = Ok (j, g') ->
  exists g2 j2 g2', gen_run md U (gen_new file root skip) (without_content ops) = Ok g2
    /\ gen_as_json md U g2 = Ok (j2, g2')
    /\ smj_version j2 = smj_version j /\ smj_sources j2 = smj_sources j /\ smj_names j2 = smj_names j
    /\ smj_mappings j2 = smj_mappings j /\ smj_file j2 = smj_file j /\ smj_source_root j2 = smj_source_root j
    /\ smj_sections j2 = smj_sections j /\ smj_sources_content j2 = None.
Proof.
  intros md U file root skip ops g j g' Hr Hj.
  exists (no_contents g), (with_contents j None), (no_contents g').
  split; [exact (run_no_contents _ _ _ _ _ Hr)|]. split; [exact (json_no_contents _ _ _ _ _ Hj)|].
  repeat split.
Qed.

Lemma roundtrip_any_root : forall md U file root skip ops g j g',
  Forall valid_mapping (added_mappings ops) -> steps_fit ops ->
  few_names (2^30) (added_mappings ops) ->
  gen_run md U (gen_new file root skip) ops = Ok g -> gen_as_json md U g = Ok (j, g') ->
  exists l a l' r, ml_run md ml_new (list_ops ops) = Ok l /\ ml_to_array md l = Ok (a, l')
    /\ read_json j = Some r /\ collapsed (map written a) r
    /\ (forall x, In x r <-> exists m, In m (added_mappings ops) /\ x = written m) /\ gen_sorted r
    /\ (NoDup (map m_generated (added_mappings ops)) -> NoDup r)
    /\ (~ In GJson ops -> ~ gen_sorted (added_mappings ops) -> NoDup r).
Proof.
  intros md U file root skip ops g j g' Hv Hs Hn Hr Hj.
  destruct (contents_independent _ _ _ _ _ _ _ _ _ Hr Hj) as [g2 [j2 [g2' [Hr2 [Hj2 [_ [E2 [E3 [E4 _]]]]]]]]].
  assert (Hread : read_json j2 = read_json j) by (unfold read_json; rewrite E2, E3, E4; reflexivity).
  rewrite <- added_without_content in Hv, Hn.
  assert (Hs' : steps_fit (without_content ops)) by (unfold steps_fit; rewrite list_without_content; exact Hs).
  clear Hs. rename Hs' into Hs.
  pose proof (or_intror (no_content_without ops) : root = None \/ _) as Hc.
  destruct (generate_roundtrip md U file root skip _ Hv Hs Hn Hc) as [g3 [j3 [g3' [r3 [A1 [A2 [A3 [A4 A5]]]]]]]].
  rewrite Hr2 in A1. inv A1. rewrite Hj2 in A2. inv A2.
  destruct (generate_collapsed md U file root skip _ Hv Hs Hn Hc)
    as [g4 [j4 [g4' [l [a [l' [r4 [B1 [B2 [B3 [B4 [B5 [B6 [B7 B8]]]]]]]]]]]]]].
  rewrite Hr2 in B1. inv B1. rewrite Hj2 in B2. inv B2. rewrite A3 in B5. inv B5.
  rewrite list_without_content in B3. rewrite added_without_content in *. rewrite GJson_without in B8.
  exists l, a, l', r4. rewrite <- Hread.
  split; [exact B3|]. split; [exact B4|]. split; [exact A3|]. split; [exact B6|]. split; [exact A4|].
  split; [exact A5|]. split; [exact B7 | exact B8].
Qed.

(** the same with the meaning of the list's history, C78 *)
Lemma valid_held : forall md ops l a l', Forall valid_mapping (added_mappings ops) ->
  ml_run md ml_new (list_ops ops) = Ok l -> ml_to_array md l = Ok (a, l') -> held (list_ops ops ++ [ToArray]) a.
Proof.
  intros md ops l a l' Hv. apply array_held. eapply Forall_impl; [|exact Hv]. intros m [Hm _]. exact Hm.
Qed.

Lemma generate_held : forall md U file root skip ops,
  Forall valid_mapping (added_mappings ops) -> steps_fit ops ->
  few_names (2^30) (added_mappings ops) -> (root = None \/ no_content ops) ->
  exists g j g' a r, gen_run md U (gen_new file root skip) ops = Ok g
    /\ gen_as_json md U g = Ok (j, g')
    /\ held (list_ops ops ++ [ToArray]) a
    /\ read_json j = Some r /\ collapsed (map written a) r
    /\ (NoDup (map m_generated (added_mappings ops)) -> NoDup r)
    /\ (~ In GJson ops -> ~ gen_sorted (added_mappings ops) -> NoDup r).
Proof.
  intros md U file root skip ops H1 H2 H3 H4.
  destruct (generate_collapsed md U file root skip ops H1 H2 H3 H4)
    as [g [j [g' [l [a [l' [r [B1 [B2 [B3 [B4 [B5 [B6 [B7 B8]]]]]]]]]]]]]].
  exists g, j, g', a, r. pose proof (valid_held _ _ _ _ _ H1 B3 B4). auto 10.
Qed.

Lemma roundtrip_held : forall md U file root skip ops g j g',
  Forall valid_mapping (added_mappings ops) -> steps_fit ops ->
  few_names (2^30) (added_mappings ops) ->
  gen_run md U (gen_new file root skip) ops = Ok g -> gen_as_json md U g = Ok (j, g') ->
  exists a r, held (list_ops ops ++ [ToArray]) a
    /\ read_json j = Some r /\ collapsed (map written a) r
    /\ (forall x, In x r <-> exists m, In m (added_mappings ops) /\ x = written m) /\ gen_sorted r
    /\ (NoDup (map m_generated (added_mappings ops)) -> NoDup r)
    /\ (~ In GJson ops -> ~ gen_sorted (added_mappings ops) -> NoDup r).
Proof.
  intros md U file root skip ops g j g' H1 H2 H3 Hr Hj.
  destruct (roundtrip_any_root md U file root skip ops g j g' H1 H2 H3 Hr Hj)
    as [l [a [l' [r [B3 [B4 [B5 [B6 [B7 [B8 [B9 B10]]]]]]]]]]].
  exists a, r. pose proof (valid_held _ _ _ _ _ H1 B3 B4). auto 10.
Qed.

Lemma structure_any_root : forall md U file root skip ops g j g',
  Forall encodable (added_mappings ops) -> few_names 2147483648 (added_mappings ops) ->
  gen_run md U (gen_new file root skip) ops = Ok g -> gen_as_json md U g = Ok (j, g') ->
  exists s n, smj_mappings j = Some s /\ is_last_line (added_mappings ops) n
    /\ Z.of_nat (count_occ N.eq_dec s (ch ";")) = n - 1 /\ good_text short_field s.
Proof.
  intros md U file root skip ops g j g' Hv Hn Hr Hj.
  destruct (contents_independent _ _ _ _ _ _ _ _ _ Hr Hj) as [g2 [j2 [g2' [Hr2 [Hj2 [_ [_ [_ [E4 _]]]]]]]]].
  rewrite <- added_without_content in Hv, Hn.
  destruct (generate_line_structure md U file root skip _ Hv Hn (or_intror (no_content_without ops)))
    as [g3 [j3 [g3' [s [n [A1 [A2 [A3 [A4 A5]]]]]]]]].
  rewrite Hr2 in A1. inv A1. rewrite Hj2 in A2. inv A2. rewrite added_without_content in A4.
  exists s, n. rewrite <- E4. tauto.
Qed.

(** ** Contents under a root *)
Lemma renamed_app : forall f a b, renamed f (a ++ b) = renamed f a ++ renamed f b.
Proof. intros f. induction a as [|[m|s c|] a IH]; intros b; cbn; rewrite ?IH; reflexivity. Qed.

Lemma keyed_contents : forall md U file root skip key
    (same : forall s k, relative md U root s = Ok k -> key s = k) ops g,
  gen_run md U (gen_new file (Some root) skip) ops = Ok g ->
  (forall k, hm_get k (g_source_contents g) = last_content k (renamed key ops) None)
  /\ (forall s c, In (GContent s c) ops -> relative md U root s = Ok (key s)).
Proof.
  intros md U file root skip key same ops. induction ops as [|op ops IH] using rev_ind; intros g H.
  - inv H. split; [reflexivity | intros s c []].
  - rewrite gen_run_snoc in H. bind_inv H. rename x into g0. destruct (IH g0 H0) as [I1 I2]. clear IH.
    pose proof (base_inv_run _ _ _ _ _ _ _ H0) as [_ B2 _ _ _ _ _].
    rewrite renamed_app. destruct op as [m|s c|]; cbn [gen_step renamed] in *.
    + unfold gen_add_mapping in H. bind_inv H. inv H. split.
      * intros k. rewrite last_content_app. cbn. apply I1.
      * intros s c Hin. apply in_app_iff in Hin. destruct Hin as [Hin|[Hin|[]]]; [eauto | discriminate].
    + unfold gen_set_source_content in H. rewrite B2 in H. bind_inv H. rename x into k0. inv H.
      pose proof (same _ _ H1) as Ek. subst k0. cbn [g_source_contents]. split.
      * intros k. rewrite last_content_app. cbn [last_content]. rewrite <- I1.
        destruct (str_eqb k (key s)) eqn:E.
        -- apply str_eqb_eq in E. subst. destruct c; [apply hm_get_insert_same | apply hm_get_remove_same].
        -- apply str_eqb_neq in E. destruct c; [apply hm_get_insert_other | apply hm_get_remove_other]; exact E.
      * intros s' c' Hin. apply in_app_iff in Hin. destruct Hin as [Hin|[Hin|[]]]; [eauto|]. inv Hin. exact H1.
    + bind_inv H. destruct x as [j g1]. cbn [snd] in H. inv H.
      apply as_json_inv in H1. destruct H1 as [a [ml' [s [sc [_ [_ [-> _]]]]]]]. cbn [g_source_contents]. split.
      * intros k. rewrite last_content_app. cbn. apply I1.
      * intros s' c Hin. apply in_app_iff in Hin. destruct Hin as [Hin|[Hin|[]]]; [eauto | discriminate].
Qed.

(** C62 *)
Lemma contents_by_key : forall md U file root skip ops g j g' key,
  gen_run md U (gen_new file (Some root) skip) ops = Ok g -> gen_as_json md U g = Ok (j, g') ->
  (forall s k, relative md U root s = Ok k -> key s = k) ->
  exists sources, smj_sources j = Some sources
    /\ (forall s c, In (GContent s c) ops -> relative md U root s = Ok (key s))
    /\ ((forall k, last_content k (renamed key ops) None = None) -> smj_sources_content j = None)
    /\ ((exists k, last_content k (renamed key ops) None <> None) ->
        (forall s, In s sources -> relative md U root s = Ok (key s))
        /\ smj_sources_content j = Some (present (map (fun s => last_content (key s) (renamed key ops) None) sources))).
Proof.
  intros md U file root skip ops g j g' key Eg Ej same.
  destruct (keyed_contents _ _ _ _ _ _ same _ _ Eg) as [K1 K2].
  apply base_inv_run in Eg. destruct Eg as [_ B2 _ _ _ _ _].
  apply as_json_inv in Ej. destruct Ej as [a [ml' [s [sc [_ [_ [_ [-> Hsc]]]]]]]].
  exists (as_array (g_sources g)). cbn. split; [reflexivity|]. split; [exact K2|]. split.
  - intros Hn. assert (E : g_source_contents g = []).
    { apply hm_get_all_none. intros k. rewrite K1. apply Hn. }
    rewrite E in Hsc. exact Hsc.
  - intros [s0 Hs0]. destruct (g_source_contents g) as [|kv m] eqn:E.
    { exfalso. apply Hs0. rewrite <- K1. reflexivity. }
    destruct Hsc as [l [El ->]]. rewrite B2 in El. unfold generate_sources_contents in El.
    assert (HR : forall s, In s (as_array (g_sources g)) -> relative md U root s = Ok (key s)).
    { apply mapM_inv in El. intros x Hx. clear - El Hx same.
      induction El as [|y r l l' Hy _ IH]; [destruct Hx|]. destruct Hx as [->|Hx]; [|apply IH; exact Hx].
      destruct (relative md U root x) as [k|] eqn:Er; [|discriminate]. rewrite (same _ _ Er). reflexivity. }
    split; [exact HR|]. f_equal. f_equal.
    erewrite mapM_ok in El; [injection El as <-; reflexivity|].
    intros x Hx. rewrite (HR x Hx). cbn [bind]. f_equal. rewrite E. unfold hm_contains. rewrite <- K1.
    destruct (hm_get (key x) (kv :: m)); reflexivity.
Qed.

(** ** Where a panic comes from *)
Lemma mapM_panic : forall A B (f : A -> res B) l p, mapM f l = Panic p -> exists x, In x l /\ f x = Panic p.
Proof.
  intros A B f. induction l as [|x l IH]; intros p H; cbn in H; [discriminate|].
  destruct (f x) eqn:E; cbn [bind] in H.
  - destruct (mapM f l) eqn:E2; cbn [bind] in H; [discriminate|]. inv H.
    destruct (IH _ eq_refl) as [y [Hy Ey]]. exists y. split; [right; exact Hy | exact Ey].
  - inv H. exists x. split; [left; reflexivity | exact E].
Qed.

Definition relative_panic (md : mode) (U : UrlLib) (root : str) (ops : list gen_op) (p : panic_kind) : Prop :=
  exists s, relative md U root s = Panic p
    /\ ((exists c, In (GContent s c) ops) \/ (exists m, In m (added_mappings ops) /\ m_source m = Some s)).

Lemma relative_panic_app : forall md U root a b p,
  relative_panic md U root a p -> relative_panic md U root (a ++ b) p.
Proof.
  intros md U root a b p [s [E H]]. exists s. split; [exact E|]. destruct H as [[c H]|[m [H Hm]]].
  - left. exists c. apply in_app_iff. auto.
  - right. exists m. split; [|exact Hm]. rewrite added_mappings_app. apply in_app_iff. auto.
Qed.

Lemma json_panic : forall md U file root skip ops g, base_inv file (Some root) skip ops g ->
  encodable_run ops -> ml_inv 0 i32_max (g_mappings g) (added_mappings ops) ->
  (exists j g', gen_as_json md U g = Ok (j, g') /\ ml_inv 0 i32_max (g_mappings g') (added_mappings ops))
  \/ (exists p, gen_as_json md U g = Panic p /\ relative_panic md U root ops p).
Proof.
  intros md U file root skip ops g HB He Hml.
  destruct (as_json_ok md U file (Some root) skip (without_content ops) (no_contents g)) as [j [g' [a [ml' [Ej [Ea _]]]]]].
  - destruct HB as [B1 B2 B3 B4 B5 _ _]. split; cbn; auto; rewrite ?added_without_content; auto. discriminate.
  - unfold encodable_run. rewrite added_without_content. exact He.
  - rewrite added_without_content. exact Hml.
  - right. apply no_content_without.
  - cbn [no_contents g_mappings] in Ea. unfold gen_as_json in *.
    cbn [no_contents g_source_contents bind] in Ej.
    unfold serialize_mappings in *. cbn [no_contents g_mappings] in Ej. rewrite Ea in *. cbn [bind g_sources g_names] in *.
    destruct (ser_loop md (g_sources g) (g_names g) None a ser_init []) as [t|p] eqn:Es;
      cbn [no_contents g_sources g_names] in Ej; rewrite Es in Ej; cbn [bind] in *; [|discriminate].
    match goal with |- context [bind ?x _] => destruct x as [sc|p] eqn:Esc end; cbn [bind].
    + left. do 2 eexists. split; [reflexivity|]. cbn [g_mappings].
      destruct (ml_to_array_ok 0 i32_max window_nat md _ _ Hml) as [a3 [ml3 [Ea3 [Hml3 _]]]].
      rewrite Ea3 in Ea. inv Ea. exact Hml3.
    + right. exists p. split; [reflexivity|]. destruct (g_source_contents g); [discriminate|].
      destruct HB as [_ B2 _ [_ B4] _ _ _]. rewrite B2 in Esc.
      destruct (generate_sources_contents md U g (as_to_vec (g_sources g)) (Some root)) eqn:E; [discriminate|].
      cbn [bind] in Esc. inv Esc. unfold generate_sources_contents in E. apply mapM_panic in E.
      destruct E as [x [Hx Ex]]. destruct (relative md U root x) eqn:Er; cbn [bind] in Ex; [discriminate|]. inv Ex.
      exists x. split; [exact Er|]. right. unfold as_to_vec in Hx. rewrite B4 in Hx. rewrite distinct_In in Hx.
      apply present_In in Hx. apply in_map_iff in Hx. destruct Hx as [m [Em Hm]]. exists m. auto.
Qed.

Lemma run_panic : forall md U file root skip ops, encodable_run ops ->
  (exists g, gen_run md U (gen_new file (Some root) skip) ops = Ok g
     /\ ml_inv 0 i32_max (g_mappings g) (added_mappings ops))
  \/ (exists p, gen_run md U (gen_new file (Some root) skip) ops = Panic p /\ relative_panic md U root ops p).
Proof.
  intros md U file root skip ops. induction ops as [|op ops IH] using rev_ind; intros He.
  - left. exists (gen_new file (Some root) skip). split; [reflexivity | apply ml_inv_new].
  - pose proof (encodable_prefix _ _ He) as He'. rewrite gen_run_snoc.
    destruct (IH He') as [[g [Eg Hml]]|[p [Ep Hp]]]; clear IH.
    2: { right. exists p. rewrite Ep. split; [reflexivity | apply relative_panic_app; exact Hp]. }
    rewrite Eg. cbn [bind]. pose proof (base_inv_run _ _ _ _ _ _ _ Eg) as HB.
    rewrite added_mappings_app. destruct op as [m|s c|]; cbn [gen_step added_mappings]; rewrite ?app_nil_r.
    + left. unfold gen_add_mapping. destruct He as [He _]. rewrite added_mappings_app in He.
      apply Forall_app in He. destruct He as [_ He]. cbn in He. inv He.
      destruct (ml_add_ok 0 i32_max window_nat md _ _ m Hml) as [l' [El [Hl _]]].
      { apply wf_window. apply H1. }
      rewrite El. cbn [bind]. eexists. split; [reflexivity | exact Hl].
    + unfold gen_set_source_content. rewrite (bi_root _ _ _ _ _ HB).
      destruct (relative md U root s) as [k|p] eqn:E; cbn [bind].
      * left. eexists. split; [reflexivity | exact Hml].
      * right. exists p. split; [reflexivity|]. exists s. split; [exact E|]. left. exists c.
        apply in_app_iff. right. left. reflexivity.
    + destruct (json_panic md U file root skip ops g HB He' Hml) as [[j [g' [Ej Hml']]]|[p [Ep Hp]]].
      * left. rewrite Ej. exists g'. split; [reflexivity | exact Hml'].
      * right. rewrite Ep. exists p. split; [reflexivity | apply relative_panic_app; exact Hp].
Qed.

Lemma only_relative_panics : forall md U file root skip ops p,
  Forall encodable (added_mappings ops) -> few_names 2147483648 (added_mappings ops) ->
  (let* g := gen_run md U (gen_new file (Some root) skip) ops in gen_as_json md U g) = Panic p ->
  exists s, relative md U root s = Panic p
    /\ ((exists c, In (GContent s c) ops) \/ (exists m, In m (added_mappings ops) /\ m_source m = Some s)).
Proof.
  intros md U file root skip ops p H1 H2 H. pose proof (conj H1 H2 : encodable_run ops) as He.
  destruct (run_panic md U file root skip ops He) as [[g [Eg Hml]]|[q [Ep Hp]]].
  - rewrite Eg in H. cbn [bind] in H. pose proof (base_inv_run _ _ _ _ _ _ _ Eg) as HB.
    destruct (json_panic md U file root skip ops g HB He Hml) as [[j [g' [Ej _]]]|[q [Ep Hp]]].
    + rewrite Ej in H. discriminate.
    + rewrite Ep in H. inv H. exact Hp.
  - rewrite Ep in H. inv H. exact Hp.
Qed.

(** ** Any mappings: contents add no panic but those of [relative] *)
Definition relative_fails (md : mode) (U : UrlLib) (root : option str) (ops : list gen_op) (p : panic_kind) : Prop :=
  exists r, root = Some r /\ relative_panic md U r ops p.

Lemma relative_fails_app : forall md U root a b p, relative_fails md U root a p -> relative_fails md U root (a ++ b) p.
Proof. intros md U root a b p [r [E H]]. exists r. split; [exact E | apply relative_panic_app; exact H]. Qed.

Lemma json_any_panic : forall md U file root skip ops g p, base_inv file root skip ops g ->
  gen_as_json md U g = Panic p ->
  gen_as_json md U (no_contents g) = Panic p \/ relative_fails md U root ops p.
Proof.
  intros md U file root skip ops g p HB H. destruct HB as [_ B2 _ [_ B4] _ _ _]. unfold gen_as_json in H.
  match type of H with context [bind ?x _] => destruct x as [sc|q] eqn:Esc end; cbn [bind] in H.
  - left. unfold gen_as_json. cbn [no_contents g_source_contents bind].
    unfold serialize_mappings in *. cbn [no_contents g_mappings g_sources g_names].
    destruct (ml_to_array md (g_mappings g)) as [[a ml']|q]; cbn [bind] in *; [|exact H].
    cbn [g_sources g_names] in *.
    destruct (ser_loop md (g_sources g) (g_names g) None a ser_init []) as [t|q]; cbn [bind] in *; [discriminate | exact H].
  - injection H as ->. right. destruct (g_source_contents g) as [|kv m] eqn:Ec; [discriminate|].
    destruct root as [r|].
    + exists r. split; [reflexivity|]. rewrite B2 in Esc.
      destruct (generate_sources_contents md U g (as_to_vec (g_sources g)) (Some r)) eqn:E; [discriminate|].
      cbn [bind] in Esc. inv Esc. unfold generate_sources_contents in E. apply mapM_panic in E.
      destruct E as [x [Hx Ex]]. destruct (relative md U r x) eqn:Er; cbn [bind] in Ex; [discriminate|]. inv Ex.
      exists x. split; [exact Er|]. right. unfold as_to_vec in Hx. rewrite B4 in Hx. rewrite distinct_In in Hx.
      apply present_In in Hx. apply in_map_iff in Hx. destruct Hx as [m0 [Em Hm]]. exists m0. auto.
    + exfalso. destruct (contents_ok md U g (or_introl B2)) as [sc Esc2]. rewrite Ec in Esc2. rewrite Esc in Esc2. discriminate.
Qed.

Lemma run_any_panic : forall md U file root skip ops p,
  gen_run md U (gen_new file root skip) ops = Panic p ->
  gen_run md U (gen_new file root skip) (without_content ops) = Panic p \/ relative_fails md U root ops p.
Proof.
  intros md U file root skip ops. induction ops as [|op ops IH] using rev_ind; intros p H; [discriminate|].
  rewrite gen_run_snoc in H.
  assert (W : forall a b, without_content (a ++ b) = without_content a ++ without_content b).
  { intros a b. induction a as [|[m|s c|] a IHa]; cbn; rewrite ?IHa; reflexivity. }
  assert (R : forall a b, gen_run md U (gen_new file root skip) a = Panic b ->
    forall c, gen_run md U (gen_new file root skip) (a ++ c) = Panic b).
  { intros a b Ha c. revert Ha. generalize (gen_new file root skip). induction a as [|x a IHa]; intros g Ha; [discriminate|].
    cbn [app gen_run] in *. destruct (gen_step md U g x); cbn [bind] in *; [apply IHa; exact Ha | exact Ha]. }
  rewrite W. destruct (gen_run md U (gen_new file root skip) ops) as [g|q] eqn:Eg; cbn [bind] in H.
  2: { inv H. destruct (IH _ eq_refl) as [A|A]; [left; apply R; exact A | right; apply relative_fails_app; exact A]. }
  pose proof (base_inv_run _ _ _ _ _ _ _ Eg) as HB. pose proof (run_no_contents _ _ _ _ _ Eg) as En.
  change (no_contents (gen_new file root skip)) with (gen_new file root skip) in En.
  destruct op as [m|s c|]; cbn [without_content gen_step] in *.
  - left. rewrite gen_run_snoc, En. cbn [bind gen_step]. unfold gen_add_mapping in *. cbn [no_contents g_mappings].
    destruct (ml_add md (g_mappings g) m) as [l|q]; cbn [bind] in *; [discriminate | exact H].
  - right. unfold gen_set_source_content in H. rewrite (bi_root _ _ _ _ _ HB) in H.
    destruct root as [r|]; [|discriminate]. destruct (relative md U r s) as [k|q] eqn:E; cbn [bind] in H; [discriminate|]. inv H.
    exists r. split; [reflexivity|]. exists s. split; [exact E|]. left. exists c. apply in_app_iff. right. left. reflexivity.
  - destruct (gen_as_json md U g) as [[j g']|q] eqn:Ej; cbn [bind] in H; [discriminate|]. inv H.
    destruct (json_any_panic md U file root skip ops g p HB Ej) as [A|A].
    + left. rewrite gen_run_snoc, En. cbn [bind gen_step]. rewrite A. reflexivity.
    + right. apply relative_fails_app. exact A.
Qed.

Lemma contents_panics : forall md U file root skip ops p,
  observe_json md U (gen_new file root skip) ops = Panic p ->
  observe_json md U (gen_new file root skip) (without_content ops) = Panic p
  \/ exists r s, root = Some r /\ relative md U r s = Panic p
     /\ ((exists c, In (GContent s c) ops) \/ (exists m, In m (added_mappings ops) /\ m_source m = Some s)).
Proof.
  intros md U file root skip ops p H. unfold observe_json in *.
  assert (F : forall q, relative_fails md U root ops q ->
    exists r s, root = Some r /\ relative md U r s = Panic q
     /\ ((exists c, In (GContent s c) ops) \/ (exists m, In m (added_mappings ops) /\ m_source m = Some s))).
  { intros q [r [E [s S]]]. exists r, s. tauto. }
  destruct (gen_run md U (gen_new file root skip) ops) as [g|q] eqn:Eg; cbn [bind] in H.
  - destruct (gen_as_json md U g) as [[j g']|q] eqn:Ej; cbn [bind] in H; [discriminate|]. inv H.
    destruct (json_any_panic md U file root skip ops g p (base_inv_run _ _ _ _ _ _ _ Eg) Ej) as [A|A]; [left | right; auto].
    pose proof (run_no_contents _ _ _ _ _ Eg) as En.
    change (no_contents (gen_new file root skip)) with (gen_new file root skip) in En. rewrite En. cbn [bind]. rewrite A. reflexivity.
  - inv H. destruct (run_any_panic _ _ _ _ _ _ _ Eg) as [A|A]; [left; rewrite A; reflexivity | right; auto].
Qed.
