(** * Lemmas about SourceMapGenerator *)
From Verif Require Import F_Base M_Base64Vlq M_ArraySet M_Mapping M_Util M_SourceMap M_MapLib M_Generator
  S_Vlq S_List S_Decode S_Mapping S_Generator F_Vlq F_ArraySet F_Sort F_Mapping F_MappingList F_Decode F_Serialize.
From Coq Require Import Sorting.Sorted Sorting.Permutation.

(** ** Histories *)
Lemma gen_run_app : forall md U a b g,
  gen_run md U g (a ++ b) = let* g' := gen_run md U g a in gen_run md U g' b.
Proof.
  intros md U. induction a as [|op a IH]; intros b g; cbn [gen_run app]; [reflexivity|].
  destruct (gen_step md U g op); cbn [bind]; auto.
Qed.

Lemma gen_run_snoc : forall md U a op g,
  gen_run md U g (a ++ [op]) = let* g' := gen_run md U g a in gen_step md U g' op.
Proof.
  intros. rewrite gen_run_app. destruct (gen_run md U g a) as [g'|]; [|reflexivity]. cbn.
  destruct (gen_step md U g' op); reflexivity.
Qed.

Lemma added_mappings_app : forall a b, added_mappings (a ++ b) = added_mappings a ++ added_mappings b.
Proof. induction a as [|[m|s c|] a IH]; intros b; cbn; rewrite ?IH; reflexivity. Qed.
Lemma list_ops_app : forall a b, list_ops (a ++ b) = list_ops a ++ list_ops b.
Proof. induction a as [|[m|s c|] a IH]; intros b; cbn; rewrite ?IH; reflexivity. Qed.
Lemma added_list_ops : forall ops, added (list_ops ops) = added_mappings ops.
Proof. induction ops as [|[m|s c|] a IH]; cbn; rewrite ?IH; reflexivity. Qed.
Lemma last_content_app : forall s a b now,
  last_content s (a ++ b) now = last_content s b (last_content s a now).
Proof. intros s. induction a as [|[m|s' c|] a IH]; intros b now; cbn; auto. Qed.
Lemma present_app : forall A (a b : list (option A)), present (a ++ b) = present a ++ present b.
Proof. induction a as [|[x|] a IH]; intros b; cbn; rewrite ?IH; reflexivity. Qed.
Lemma present_length : forall A (a : list (option A)), (length (present a) <= length a)%nat.
Proof. induction a as [|[x|] a IH]; cbn; lia. Qed.
Lemma present_In : forall A (a : list (option A)) x, In x (present a) <-> In (Some x) a.
Proof.
  induction a as [|[y|] a IH]; intros x; cbn; [tauto| |].
  - rewrite IH. split; intros [H|H]; auto; [left; congruence | left; congruence].
  - rewrite IH. split; [auto|]. intros [H|H]; [discriminate | exact H].
Qed.
Lemma flatten_present : forall A (l : list (option A)), flatten_options l = present l.
Proof. induction l as [|[x|] l IH]; cbn; rewrite ?IH; reflexivity. Qed.

Lemma distinct_from_length : forall l seen, (length (distinct_from seen l) <= length l)%nat.
Proof.
  induction l as [|x l IH]; intros seen; cbn; [lia|].
  destruct (mem x seen); cbn; [specialize (IH seen) | specialize (IH (x :: seen))]; lia.
Qed.

Lemma no_content_app : forall a b, no_content (a ++ b) -> no_content a /\ no_content b.
Proof.
  intros a b H. split; intros s c Hin; apply (H s c); apply in_app_iff; auto.
Qed.

(** ** What producing the JSON returns *)
Lemma as_json_inv : forall md U g j g', gen_as_json md U g = Ok (j, g') ->
  exists a ml' s sc,
    ml_to_array md (g_mappings g) = Ok (a, ml')
    /\ ser_loop md (g_sources g) (g_names g) None a ser_init [] = Ok s
    /\ g' = mkGen (g_file g) (g_source_root g) (g_skip_validation g) (g_sources g) (g_names g) ml'
                  (g_source_contents g)
    /\ j = mkSMJ 3 (Some (as_array (g_sources g))) (Some (as_array (g_names g))) (Some s)
                 (g_file g) (g_source_root g) sc None
    /\ match g_source_contents g with
       | [] => sc = None
       | _ => exists l, generate_sources_contents md U g (as_array (g_sources g)) (g_source_root g) = Ok l
                        /\ sc = Some (present l)
       end.
Proof.
  intros md U g j g' H. unfold gen_as_json in H. bind_inv H. bind_inv H. destruct x0 as [s g1].
  unfold serialize_mappings in H1. bind_inv H1. destruct x0 as [a ml']. bind_inv H1. cbn [g_sources g_names] in *.
  inv H1. inv H. exists a, ml', s, x. repeat split; auto.
  destruct (g_source_contents g); [inv H0; reflexivity|].
  bind_inv H0. inv H0. eexists. split; [eassumption|]. reflexivity.
Qed.

(** ** sources and names *)
Definition names_ok (S : ArraySet) (l : list str) : Prop := as_inv S /\ as_array S = distinct l.

Lemma add_if_absent_ok : forall S l o, names_ok S l ->
  names_ok (add_if_absent S o) (l ++ present [o]).
Proof.
  intros S l o [HI Ha]. unfold add_if_absent. destruct o as [x|]; cbn [present].
  - rewrite (as_has_iff S HI). destruct (mem x (as_array S)) eqn:E; cbn [negb].
    + split; [exact HI|]. rewrite distinct_snoc. rewrite Ha in E. apply mem_In in E.
      rewrite distinct_In in E. apply mem_In in E. rewrite E. exact Ha.
    + split; [apply as_inv_add; exact HI|]. rewrite (as_add_array S HI), E. cbn [negb orb].
      rewrite distinct_snoc. rewrite Ha in E. apply mem_false in E. rewrite distinct_In in E.
      apply mem_false in E. rewrite E, Ha. reflexivity.
  - rewrite app_nil_r. split; assumption.
Qed.

Record base_inv (file root : option str) (skip : bool) (ops : list gen_op) (g : Generator) : Prop := {
  bi_file : g_file g = file;
  bi_root : g_source_root g = root;
  bi_skip : g_skip_validation g = skip;
  bi_sources : names_ok (g_sources g) (present (map m_source (added_mappings ops)));
  bi_names : names_ok (g_names g) (present (map m_name (added_mappings ops)));
  bi_contents : root = None -> forall s, hm_get s (g_source_contents g) = last_content s ops None;
  bi_no_contents : no_content ops -> g_source_contents g = [] }.

Lemma base_inv_new : forall file root skip, base_inv file root skip [] (gen_new file root skip).
Proof. intros. split; cbn; auto; try (split; [apply as_inv_new | reflexivity]). Qed.

Lemma hm_remove_nil_iff : forall V k (m : hmap V), m = [] -> hm_remove k m = [].
Proof. intros; subst; reflexivity. Qed.

Lemma base_inv_step : forall md U file root skip ops g op g', base_inv file root skip ops g ->
  gen_step md U g op = Ok g' -> base_inv file root skip (ops ++ [op]) g'.
Proof.
  intros md U file root skip ops g op g' [H1 H2 H3 H4 H5 H6 H7] H. destruct op as [m|s c|]; cbn [gen_step] in H.
  - unfold gen_add_mapping in H. bind_inv H. inv H. split; cbn; auto.
    + rewrite added_mappings_app, map_app, present_app. cbn [added_mappings map app].
      apply add_if_absent_ok. exact H4.
    + rewrite added_mappings_app, map_app, present_app. cbn [added_mappings map app].
      apply add_if_absent_ok. exact H5.
    + intros Hr s. rewrite last_content_app. cbn. auto.
    + intros Hn. apply no_content_app in Hn. tauto.
  - unfold gen_set_source_content in H. bind_inv H. inv H. split; cbn; auto.
    + rewrite added_mappings_app. cbn. rewrite app_nil_r. exact H4.
    + rewrite added_mappings_app. cbn. rewrite app_nil_r. exact H5.
    + intros Hr s'. rewrite Hr in H0. inv H0. rewrite last_content_app. cbn [last_content].
      rewrite <- (H6 Hr). destruct (str_eqb s' x) eqn:E.
      * apply str_eqb_eq in E. subst. destruct c; [apply hm_get_insert_same | apply hm_get_remove_same].
      * apply str_eqb_neq in E. destruct c; [apply hm_get_insert_other | apply hm_get_remove_other]; exact E.
    + intros Hn. apply no_content_app in Hn. destruct Hn as [_ Hn]. exfalso. apply (Hn s c). left. reflexivity.
  - bind_inv H. destruct x as [j g1]. cbn [snd] in H. inv H.
    apply as_json_inv in H0. destruct H0 as [a [ml' [s [sc [_ [_ [-> [_ _]]]]]]]].
    split; cbn; auto.
    + rewrite added_mappings_app. cbn. rewrite app_nil_r. exact H4.
    + rewrite added_mappings_app. cbn. rewrite app_nil_r. exact H5.
    + intros Hr s'. rewrite last_content_app. cbn. auto.
    + intros Hn. apply no_content_app in Hn. tauto.
Qed.

Lemma base_inv_run : forall md U file root skip ops g,
  gen_run md U (gen_new file root skip) ops = Ok g -> base_inv file root skip ops g.
Proof.
  intros md U file root skip ops. induction ops as [|op ops IH] using rev_ind; intros g H.
  - inv H. apply base_inv_new.
  - rewrite gen_run_snoc in H. bind_inv H. eapply base_inv_step; [apply IH; eassumption | exact H].
Qed.

Lemma list_run : forall md U ops g g', gen_run md U g ops = Ok g' ->
  ml_run md (g_mappings g) (list_ops ops) = Ok (g_mappings g').
Proof.
  intros md U. induction ops as [|[m|s c|] ops IH]; intros g g' H; cbn [gen_run list_ops ml_run gen_step] in *.
  - inv H. reflexivity.
  - bind_inv H. unfold gen_add_mapping in H0. bind_inv H0. inv H0. rewrite H1. cbn [bind].
    apply IH in H. exact H.
  - bind_inv H. unfold gen_set_source_content in H0. bind_inv H0. inv H0. apply IH in H. exact H.
  - bind_inv H. bind_inv H0. destruct x0 as [j g1]. inv H0. cbn [snd] in H.
    apply as_json_inv in H1. destruct H1 as [a [ml' [s [sc [Ea [_ [-> _]]]]]]]. rewrite Ea. cbn [bind snd].
    apply IH in H. exact H.
Qed.

(** ** Running valid histories *)
Lemma names_known : forall S l bound x, names_ok S l -> len (distinct l) <= bound -> In x l -> known S bound (Some x).
Proof.
  intros S l bound x [[HI _] Ha] Hb Hx. unfold known, as_index_of. rewrite HI, Ha.
  destruct (first_index_In x (distinct l)) as [n E]; [apply distinct_In; exact Hx|].
  rewrite E. cbn [option_map]. exists (Z.of_nat n). split; [reflexivity|].
  apply first_index_some in E. destruct E as [E _].
  rewrite Nat2Z.id. split; [|exact E].
  assert (n < length (distinct l))%nat by (apply nth_error_Some; rewrite E; discriminate).
  unfold len in *. lia.
Qed.

Lemma known_all : forall (f : Mapping -> option str) S ms bound, names_ok S (present (map f ms)) ->
  len (distinct (present (map f ms))) <= bound -> forall m, In m ms -> known S bound (f m).
Proof.
  intros f S ms bound HS Hb m Hm. destruct (f m) as [x|] eqn:E; [|exact I].
  eapply names_known; [exact HS | exact Hb|].
  apply present_In. rewrite <- E. apply in_map. exact Hm.
Qed.

(** ** How many names *)
Lemma distinct_incl : forall a b, incl a b -> len (distinct a) <= len (distinct b).
Proof.
  intros a b H. unfold len. apply inj_le. apply NoDup_incl_length; [apply distinct_NoDup|].
  intros x Hx. apply distinct_In. apply H. apply distinct_In. exact Hx.
Qed.
Lemma few_impl : forall n (g : Mapping -> Mapping) a b, (forall m, m_source (g m) = m_source m /\ m_name (g m) = m_name m) ->
  incl a (map g b) -> few_names n b -> few_names n a.
Proof.
  intros n g a b Hg H [H1 H2].
  assert (X : forall f : Mapping -> option str, (forall m, f (g m) = f m) ->
              len (distinct (present (map f a))) <= len (distinct (present (map f b)))).
  { intros f Hf. apply distinct_incl. intros x Hx. apply present_In. apply present_In in Hx. apply in_map_iff in Hx.
    destruct Hx as [m [E Hm]]. apply H in Hm. apply in_map_iff in Hm. destruct Hm as [m' [<- Hm']]. rewrite <- E, Hf.
    apply in_map. exact Hm'. }
  split; eapply Z.le_trans; [apply (X m_source), Hg | exact H1 | apply (X m_name), Hg | exact H2].
Qed.
Lemma few_incl : forall n a b, incl a b -> few_names n b -> few_names n a.
Proof. intros n a b H. apply (few_impl n (fun m => m)); [auto|]. rewrite map_id. exact H. Qed.
Lemma few_more : forall n n' ms, n <= n' -> few_names n ms -> few_names n' ms.
Proof. intros n n' ms H [H1 H2]. split; eapply Z.le_trans; eassumption. Qed.
Lemma few_count : forall n ms, len ms <= n -> few_names n ms.
Proof.
  intros n ms H. unfold few_names, len, distinct in *.
  pose proof (distinct_from_length (present (map m_source ms)) []). pose proof (present_length _ (map m_source ms)).
  pose proof (distinct_from_length (present (map m_name ms)) []). pose proof (present_length _ (map m_name ms)).
  rewrite map_length in *. lia.
Qed.

Lemma contents_ok : forall md U g, g_source_root g = None \/ g_source_contents g = [] ->
  exists sc, match g_source_contents g with
             | [] => Ok None
             | _ => let* l := generate_sources_contents md U g (as_to_vec (g_sources g)) (g_source_root g) in
                    Ok (Some (flatten_options l))
             end = Ok sc.
Proof.
  intros md U g H. destruct (g_source_contents g) as [|kv m] eqn:E; [eauto|].
  destruct H as [H|H]; [|discriminate]. unfold generate_sources_contents. rewrite H, E.
  erewrite mapM_ok; [cbn [bind]; eauto|]. intros x _. cbn [bind]. reflexivity.
Qed.

Definition encodable_run (ops : list gen_op) : Prop :=
  Forall encodable (added_mappings ops) /\ few_names 2147483648 (added_mappings ops).

Lemma encodable_prefix : forall a b, encodable_run (a ++ b) -> encodable_run a.
Proof.
  intros a b [H1 H2]. rewrite added_mappings_app in *. apply Forall_app in H1.
  split; [tauto|]. eapply few_incl; [|exact H2]. apply incl_appl, incl_refl.
Qed.

Lemma encodable_wfw : forall ms, Forall encodable ms -> Forall (wfw 0 i32_max) ms.
Proof. intros ms H. eapply Forall_impl; [|exact H]. intros m [Hm _]. apply wf_window. exact Hm. Qed.

Lemma as_json_ok : forall md U file root skip ops g, base_inv file root skip ops g ->
  encodable_run ops -> ml_inv 0 i32_max (g_mappings g) (added_mappings ops) ->
  (root = None \/ no_content ops) ->
  exists j g' a ml', gen_as_json md U g = Ok (j, g')
    /\ ml_to_array md (g_mappings g) = Ok (a, ml') /\ Permutation (added_mappings ops) a /\ gen_sorted a
    /\ exists s, smj_mappings j = Some s /\ start_good short_field s (last_line a 1).
Proof.
  intros md U file root skip ops g HB [Hv Hn] Hml Hroot. pose proof HB as [H1 H2 H3 H4 H5 H6 H7].
  destruct (ml_to_array_ok 0 i32_max window_nat md _ _ Hml) as [a [ml' [Ea [Hml' [Harr [_ [Hs _]]]]]]].
  assert (Hp : Permutation (added_mappings ops) a).
  { destruct Hml' as [Hp _ _ _]. rewrite Harr in Hp. exact Hp. }
  destruct (ser_text_short md (g_sources g) (g_names g) a) as [s [Es Hg]]; [|exact Hs|].
  { rewrite Forall_forall. intros m Hm.
    assert (Hin : In m (added_mappings ops)) by (eapply Permutation_in; [symmetry; exact Hp | exact Hm]).
    rewrite Forall_forall in Hv. destruct (Hv m Hin) as [Hw Hl].
    split; [exact Hw|]. split; [exact Hl|]. split.
    - eapply known_all; [eassumption | exact (proj1 Hn) | eassumption].
    - apply known_name. eapply known_all; [eassumption | exact (proj2 Hn) | eassumption]. }
  destruct (contents_ok md U g) as [sc Esc].
  { rewrite H2. destruct Hroot as [Hroot|Hroot]; [left; exact Hroot | right; apply H7; exact Hroot]. }
  unfold gen_as_json. rewrite Esc. cbn [bind]. unfold serialize_mappings. rewrite Ea. cbn [bind g_sources g_names].
  rewrite Es. cbn [bind]. do 4 eexists. split; [reflexivity|]. split; [reflexivity|]. split; [exact Hp|].
  split; [exact Hs|]. exists s. split; [reflexivity | exact Hg].
Qed.

Lemma gen_run_ok : forall md U file root skip ops, encodable_run ops ->
  (root = None \/ no_content ops) ->
  exists g, gen_run md U (gen_new file root skip) ops = Ok g /\ base_inv file root skip ops g
    /\ ml_inv 0 i32_max (g_mappings g) (added_mappings ops).
Proof.
  intros md U file root skip ops. induction ops as [|op ops IH] using rev_ind; intros He Hroot.
  - exists (gen_new file root skip). split; [reflexivity|]. split; [apply base_inv_new | apply ml_inv_new].
  - assert (Hroot' : root = None \/ no_content ops).
    { destruct Hroot as [H|H]; [left; exact H | right; apply no_content_app in H; tauto]. }
    destruct (IH (encodable_prefix _ _ He) Hroot') as [g [Eg [HB Hml]]].
    rewrite gen_run_snoc, Eg. cbn [bind].
    assert (Hstep : exists g', gen_step md U g op = Ok g'
              /\ ml_inv 0 i32_max (g_mappings g') (added_mappings (ops ++ [op]))).
    { rewrite added_mappings_app. destruct op as [m|s c|]; cbn [gen_step added_mappings].
      - unfold gen_add_mapping. destruct He as [He _]. rewrite added_mappings_app in He.
        apply Forall_app in He. destruct He as [_ He]. cbn in He. inv He.
        destruct (ml_add_ok 0 i32_max window_nat md _ _ m Hml) as [l' [El [Hl _]]].
        { apply wf_window. apply H1. }
        rewrite El. cbn [bind]. eexists. split; [reflexivity|]. exact Hl.
      - unfold gen_set_source_content. rewrite (bi_root _ _ _ _ _ HB). rewrite app_nil_r.
        destruct Hroot as [->|Hn].
        + cbn [bind]. eexists. split; [reflexivity|]. exact Hml.
        + exfalso. apply (Hn s c). apply in_app_iff. right. left. reflexivity.
      - rewrite app_nil_r.
        destruct (as_json_ok md U file root skip ops g HB (encodable_prefix _ _ He) Hml Hroot')
          as [j [g' [a [ml' [Ej [Ea _]]]]]].
        rewrite Ej. cbn [bind snd]. exists g'. split; [reflexivity|].
        apply as_json_inv in Ej. destruct Ej as [a2 [ml2 [s [sc [Ea2 [_ [-> _]]]]]]]. cbn [g_mappings].
        destruct (ml_to_array_ok 0 i32_max window_nat md _ _ Hml) as [a3 [ml3 [Ea3 [Hml3 _]]]].
        rewrite Ea3 in Ea2. inv Ea2. exact Hml3. }
    destruct Hstep as [g' [Es Hml']]. exists g'. split; [exact Es|]. split; [|exact Hml'].
    eapply base_inv_step; eassumption.
Qed.

(** C19 *)
Lemma generate_total : forall md U file root skip ops,
  Forall encodable (added_mappings ops) -> few_names 2147483648 (added_mappings ops) ->
  (root = None \/ no_content ops) ->
  exists g j g', gen_run md U (gen_new file root skip) ops = Ok g /\ gen_as_json md U g = Ok (j, g').
Proof.
  intros md U file root skip ops H1 H2 H3.
  destruct (gen_run_ok md U file root skip ops (conj H1 H2) H3) as [g [Eg [HB Hml]]].
  destruct (as_json_ok md U file root skip ops g HB (conj H1 H2) Hml H3) as [j [g' [a [ml' [Ej _]]]]].
  exists g, j, g'. auto.
Qed.

(** C24 *)
Lemma last_line_max : forall ms line, gen_sorted ms -> Forall (fun m => line <= p_line (m_generated m)) ms ->
  line <= last_line ms line /\ Forall (fun m => p_line (m_generated m) <= last_line ms line) ms
  /\ (last_line ms line = line \/ exists m, In m ms /\ p_line (m_generated m) = last_line ms line).
Proof.
  induction ms as [|m ms IH]; intros line Hs Hl; cbn [last_line fold_left].
  - repeat split; auto. lia.
  - fold (last_line ms (p_line (m_generated m))). inv Hs. inv Hl.
    destruct (IH (p_line (m_generated m)) H1) as [I1 [I2 I3]].
    { eapply Forall_impl; [|exact H2]. intros x Hx. unfold gen_le, pos_le in Hx. lia. }
    split; [lia|]. split; [constructor; assumption|]. right.
    destruct I3 as [I3|[x [Hx Ix]]]; [exists m; split; [left; reflexivity | lia]|].
    exists x. split; [right; exact Hx | exact Ix].
Qed.

Lemma count_split : forall c s, len (split_on c s) = Z.of_nat (count_occ N.eq_dec s c) + 1.
Proof.
  induction s as [|x s IH]; [reflexivity|]. cbn [split_on count_occ].
  destruct (N.eqb x c) eqn:E.
  - apply N.eqb_eq in E. subst. destruct (N.eq_dec c c) as [_|N]; [|contradiction].
    rewrite len_cons. unfold str in *. rewrite IH. lia.
  - apply N.eqb_neq in E. destruct (N.eq_dec x c) as [N|_]; [contradiction|].
    rewrite <- IH. destruct (split_on_cons c s) as [h [t ->]]. rewrite !len_cons. reflexivity.
Qed.

Lemma generate_line_structure : forall md U file root skip ops,
  Forall encodable (added_mappings ops) -> few_names 2147483648 (added_mappings ops) ->
  (root = None \/ no_content ops) ->
  exists g j g' s n, gen_run md U (gen_new file root skip) ops = Ok g /\ gen_as_json md U g = Ok (j, g')
    /\ smj_mappings j = Some s
    /\ is_last_line (added_mappings ops) n
    /\ Z.of_nat (count_occ N.eq_dec s (ch ";")) = n - 1
    /\ good_text short_field s.
Proof.
  intros md U file root skip ops H1 H2 H3.
  destruct (gen_run_ok md U file root skip ops (conj H1 H2) H3) as [g [Eg [HB Hml]]].
  destruct (as_json_ok md U file root skip ops g HB (conj H1 H2) Hml H3)
    as [j [g' [a [ml' [Ej [Ea [Hp [Hs [s [Es [Hg1 Hg2]]]]]]]]]]].
  exists g, j, g', s, (last_line a 1). split; [exact Eg|]. split; [exact Ej|]. split; [exact Es|].
  assert (Ha : Forall encodable a) by (rewrite <- Hp; exact H1).
  destruct (last_line_max a 1 Hs) as [L1 [L2 L3]].
  { eapply Forall_impl; [|exact Ha]. intros m [_ Hm]. exact Hm. }
  split; [|split; [|exact Hg1]].
  - split; [rewrite Hp; exact L2|]. destruct L3 as [L3|[m [Hm Lm]]].
    + destruct a as [|m a].
      * left. apply Permutation_sym, Permutation_nil in Hp. split; [exact Hp | exact L3].
      * right. exists m. split; [eapply Permutation_in; [symmetry; exact Hp | left; reflexivity]|].
        inv L2. inv Ha. destruct H6 as [_ H6]. unfold line1 in H6. lia.
    + right. exists m. split; [eapply Permutation_in; [symmetry; exact Hp | exact Hm] | exact Lm].
  - rewrite count_split in Hg2. lia.
Qed.
