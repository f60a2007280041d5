(** * Lemmas about generating maps from mappings with any combination of fields *)
From Verif Require Import F_Base M_Base64Vlq M_ArraySet M_Mapping M_SourceMap M_MapLib M_Util M_Generator M_Json M_Consumer M_Indexed
  S_Vlq S_Decode S_List S_Mapping S_Generator S_Far S_Writable S_Modes F_Vlq F_Sort F_Mapping F_MappingList F_Decode F_Serialize
  S_Contents S_MapLib S_Consumer S_EndToEnd F_FarLoop F_Generator F_GeneratorProps F_Far F_Adds F_Contents F_Modes
  F_EndToEnd F_Queries.
From Coq Require Import Sorting.Sorted Sorting.Permutation.

Definition loose (m : Mapping) : Prop := natural m /\ writable m.

(** ** Mappings without a source, told apart by a made-up name
    The loop writes a mapping unless it compares equal to the one before it.  For
    mappings without a source that comparison looks at original positions that are
    never written.  The same text is written for mappings that have a name in
    their place. *)
Definition toggle (t : str) : str := match t with [] => [0%N] | _ => [] end.

Definition retag1 (p p' : option Mapping) (m : Mapping) : Mapping :=
  match m_source m with
  | Some _ => m
  | None =>
      mkMapping (m_generated m) None None
        (Some (match p, p' with
               | Some q, Some q' =>
                   match m_source q, m_name q' with
                   | None, Some t => if cmpZ m q =? 0 then t else toggle t
                   | _, _ => []
                   end
               | _, _ => []
               end)) None
  end.

Fixpoint retag (p p' : option Mapping) (ms : list Mapping) : list Mapping :=
  match ms with
  | [] => []
  | m :: ms' => retag1 p p' m :: retag (Some m) (Some (retag1 p p' m)) ms'
  end.

Definition tagged (m m' : Mapping) : Prop :=
  match m_source m with
  | Some _ => m' = m
  | None => exists t, m' = mkMapping (m_generated m) None None (Some t) None
  end.

Lemma retag1_tagged : forall p p' m, tagged m (retag1 p p' m).
Proof. intros p p' m. unfold tagged, retag1. destruct (m_source m); [reflexivity|]. eexists. reflexivity. Qed.

Lemma retag_tagged : forall ms p p', Forall2 tagged ms (retag p p' ms).
Proof. induction ms as [|m ms IH]; intros p p'; cbn; constructor; [apply retag1_tagged | apply IH]. Qed.

Lemma tagged_generated : forall m m', tagged m m' -> m_generated m' = m_generated m.
Proof. intros m m' H. unfold tagged in H. destruct (m_source m); [subst; reflexivity|]. destruct H as [t ->]. reflexivity. Qed.

Lemma tagged_natural : forall m m', tagged m m' -> natural m -> natural m'.
Proof.
  intros m m' H N. unfold tagged in H. destruct (m_source m); [subst; exact N|]. destruct H as [t ->].
  destruct N as [N _]. split; [exact N | exact I].
Qed.

Lemma tagged_segment : forall md S N m m' st, tagged m m' -> ser_segment md S N m' st = ser_segment md S N m st.
Proof.
  intros md S N m m' st H. unfold tagged in H. destruct (m_source m) eqn:E; [subst; reflexivity|].
  destruct H as [t ->]. unfold ser_segment, ser_tail. cbn [m_generated m_source]. rewrite E. reflexivity.
Qed.

Lemma toggle_other : forall t, toggle t <> t.
Proof. intros [|c t]; cbn; discriminate. Qed.

Lemma lex_zero : forall a b, lex a b = 0 <-> a = 0 /\ b = 0.
Proof. intros a b. unfold lex. destruct (Z.eqb_spec a 0); cbn [negb]; lia. Qed.

Lemma cmp_other_source : forall a b, m_source a <> m_source b -> cmpZ a b <> 0.
Proof.
  intros a b H E. unfold cmpZ in E. apply lex_zero in E. destruct E as [_ E]. apply lex_zero in E. destruct E as [_ E].
  apply lex_zero in E. destruct E as [E _]. apply H, strcmp_eq, E.
Qed.

Lemma cmp_place : forall a b, cmpZ a b = 0 -> m_generated a = m_generated b /\ m_source a = m_source b.
Proof.
  intros a b E. unfold cmpZ in E. apply lex_zero in E. destruct E as [E1 E]. apply lex_zero in E. destruct E as [E2 E].
  apply lex_zero in E. destruct E as [E3 _]. split; [apply pos_eq; lia | apply strcmp_eq, E3].
Qed.

Lemma retag1_cmp : forall p p' m, tagged p p' ->
  (cmpZ (retag1 (Some p) (Some p') m) p' =? 0) = (cmpZ m p =? 0).
Proof.
  intros p p' m T. pose proof (retag1_tagged (Some p) (Some p') m) as M.
  assert (Src : forall a a', tagged a a' -> m_source a' = m_source a).
  { intros a a' H. unfold tagged in H. destruct (m_source a) eqn:E; [subst; exact E|]. destruct H as [t ->]. reflexivity. }
  destruct (Z.eq_dec (strcmp (m_source m) (m_source p)) 0) as [E|E]; [apply strcmp_eq in E|].
  2: { rewrite strcmp_eq in E. pose proof (cmp_other_source m p E) as X. pose proof (cmp_other_source (retag1 (Some p) (Some p') m) p') as Y.
       rewrite (Src _ _ M), (Src _ _ T) in Y. specialize (Y E). lia. }
  unfold retag1. unfold tagged in T. rewrite <- E in T. rewrite <- E. destruct (m_source m) as [s|] eqn:Es; [subst; reflexivity|].
  destruct T as [t ->]. cbn [m_name].
  destruct (Z.eqb_spec (cmpZ m p) 0) as [Z|Z].
  - apply cmp_place in Z. destruct Z as [Z _]. apply Z.eqb_eq. unfold cmpZ. cbn [m_generated m_source m_original m_name].
    rewrite Z. apply lex_zero. split; [lia|]. apply lex_zero. split; [lia|]. apply lex_zero.
    split; apply strcmp_eq; reflexivity.
  - apply Z.eqb_neq. intros X. unfold cmpZ in X. cbn [m_generated m_source m_original m_name] in X.
    apply lex_zero in X. destruct X as [_ X]. apply lex_zero in X. destruct X as [_ X]. apply lex_zero in X. destruct X as [_ X].
    apply (proj1 (strcmp_eq _ _)) in X. injection X as X. exact (toggle_other t X).
Qed.

Definition tagged_prev (p p' : option Mapping) : Prop :=
  match p, p' with
  | Some q, Some q' => tagged q q' /\ natural q
  | None, None => True
  | _, _ => False
  end.

Lemma retag_loop : forall md S N ms p p' st r, Forall natural ms -> tagged_prev p p' ->
  ser_loop md S N p' (retag p p' ms) st r = ser_loop md S N p ms st r.
Proof.
  intros md S N. induction ms as [|m ms IH]; intros p p' st r HF HP; cbn [retag ser_loop]; [reflexivity|].
  inv HF. rename H1 into Hm. rename H2 into HF. pose proof (retag1_tagged p p' m) as T.
  rewrite (tagged_generated _ _ T).
  assert (Next : forall st r, ser_loop md S N (Some (retag1 p p' m)) (retag (Some m) (Some (retag1 p p' m)) ms) st r
            = ser_loop md S N (Some m) ms st r).
  { intros st' r'. apply IH; [exact HF|]. split; [exact T | exact Hm]. }
  destruct (negb (p_line (m_generated m) =? ss_generated_line st)).
  - destruct (semicolon_loop _ _ _ _ _) as [[next line]|]; [|reflexivity]. cbn [bind].
    rewrite (tagged_segment _ _ _ _ _ _ T). destruct (ser_segment _ _ _ _ _) as [[seg st']|]; [|reflexivity]. cbn [bind]. apply Next.
  - destruct p as [q|], p' as [q'|]; try destruct HP.
    + pose proof (retag1_cmp q q' m H) as C.
      rewrite (compare_window md 0 i32_max _ _ window_nat (tagged_natural _ _ T Hm) (tagged_natural _ _ H H0)).
      rewrite (compare_window md 0 i32_max _ _ window_nat Hm H0). cbn [bind]. rewrite C.
      destruct (cmpZ m q =? 0); [apply Next|].
      rewrite (tagged_segment _ _ _ _ _ _ T). destruct (ser_segment _ _ _ _ _) as [[seg st']|]; [|reflexivity]. cbn [bind]. apply Next.
    + rewrite (tagged_segment _ _ _ _ _ _ T). destruct (ser_segment _ _ _ _ _) as [[seg st']|]; [|reflexivity]. cbn [bind]. apply Next.
Qed.

Lemma tagged_all : forall (P Q : Mapping -> Prop) a b, Forall2 tagged a b -> Forall P a ->
  (forall m m', P m -> tagged m m' -> Q m') -> Forall Q b.
Proof.
  intros P Q a b H. induction H; intros HF X; constructor; inv HF.
  - eapply X; eassumption.
  - apply IHForall2; assumption.
Qed.

Lemma tagged_sorted : forall a b, Forall2 tagged a b -> gen_sorted a -> gen_sorted b.
Proof.
  intros a b H. induction H; intros Hs; [constructor|]. inv Hs. constructor; [apply IHForall2; assumption|].
  eapply (tagged_all (gen_le x)); [exact H0 | assumption|]. intros m m' Hm T. unfold gen_le in *.
  rewrite (tagged_generated _ _ H), (tagged_generated _ _ T). exact Hm.
Qed.

Lemma tagged_left : forall m m', tagged m m' -> read_back m' = left_of m.
Proof.
  intros m m' H. unfold tagged in H. unfold left_of, read_back, written. destruct (m_source m) eqn:E.
  - subst. rewrite E. reflexivity.
  - destruct H as [t ->]. reflexivity.
Qed.

Lemma retag_left : forall a b, Forall2 tagged a b -> map read_back b = map left_of a.
Proof. intros a b H. induction H; cbn; [reflexivity|]. rewrite (tagged_left _ _ H), IHForall2. reflexivity. Qed.

(** ** The list of mappings *)
Lemma insert_natural : forall md x l, natural x -> Forall natural l ->
  exists r, sort_insert (compare_by_generated_pos_inflated md) x l = Ok r.
Proof.
  intros md x l Hx. induction l as [|y l IH]; intros HF; cbn [sort_insert]; [eauto|]. inv HF.
  rewrite (compare_window md 0 i32_max x y window_nat Hx H1). cbn [bind].
  destruct (0 <? cmpZ x y); [|eauto]. destruct (IH H2) as [r ->]. cbn [bind]. eauto.
Qed.

Lemma sort_natural : forall md l, Forall natural l -> exists r, sort_by (compare_by_generated_pos_inflated md) l = Ok r.
Proof.
  intros md l. induction l as [|x l IH]; intros HF; cbn [sort_by]; [eauto|]. inv HF.
  destruct (IH H2) as [r E]. rewrite E. cbn [bind]. apply insert_natural; [exact H1|].
  eapply Permutation_Forall; [eapply sort_perm; exact E | exact H2].
Qed.

Definition natural_list (l : MappingList) (ms : list Mapping) : Prop :=
  Permutation ms (ml_array l) /\ last_in_window 0 i32_max l.

Lemma array_natural : forall md l ms, natural_list l ms -> Forall natural ms ->
  exists a l', ml_to_array md l = Ok (a, l') /\ natural_list l' ms.
Proof.
  intros md l ms [Hp Hl] HF. unfold ml_to_array. destruct (ml_sorted l); cbn [negb].
  - do 2 eexists. split; [reflexivity|]. split; assumption.
  - destruct (sort_natural md (ml_array l)) as [r E].
    { eapply Permutation_Forall; eassumption. }
    rewrite E. cbn [bind]. do 2 eexists. split; [reflexivity|]. split; [|exact Hl]. cbn [ml_array].
    rewrite Hp. eapply sort_perm. exact E.
Qed.

(** ** Running histories, with overflow checks *)
Definition loose_run (ops : list gen_op) : Prop :=
  Forall loose (added_mappings ops) /\ few_names 2147483648 (added_mappings ops).

Lemma loose_prefix : forall a b, loose_run (a ++ b) -> loose_run a.
Proof.
  intros a b [H1 H2]. rewrite added_mappings_app in *. apply Forall_app in H1.
  split; [tauto|]. eapply few_incl; [|exact H2]. apply incl_appl, incl_refl.
Qed.

Lemma loose_natural : forall ms, Forall loose ms -> Forall natural ms.
Proof. intros ms. apply Forall_impl. intros m [H _]. exact H. Qed.

Lemma tagged_wf : forall m m', loose m -> tagged m m' -> wf_mapping m' /\ line1 (m_generated m').
Proof.
  intros m m' [[Hg Ho] [Hl Hs]] T. rewrite (tagged_generated _ _ T). split; [|exact Hl].
  unfold tagged in T. destruct (m_source m) as [s|] eqn:E.
  - subst. split; [exact Hg|]. rewrite E. destruct (m_original m); [exact Ho|]. apply Hs; [discriminate | reflexivity].
  - destruct T as [t ->]. split; [exact Hg | exact I].
Qed.

Lemma json_loose : forall U file root skip ops g, gen_run Debug U (gen_new file root skip) ops = Ok g ->
  loose_run ops -> natural_list (g_mappings g) (added_mappings ops) ->
  (root = None \/ no_content ops) ->
  exists j g', gen_as_json Debug U g = Ok (j, g') /\ natural_list (g_mappings g') (added_mappings ops).
Proof.
  intros U file root skip ops g Eg [Hv Hn] Hml Hroot. pose proof (base_inv_run _ _ _ _ _ _ _ Eg) as HB.
  pose proof HB as [H1 H2 H3 H4 H5 H6 H7].
  pose proof (loose_natural _ Hv) as Hnat.
  destruct (array_natural Debug _ _ Hml Hnat) as [a [ml' [Ea Hml']]].
  pose proof (list_run _ _ _ _ _ Eg) as El. cbn [gen_new g_mappings] in El.
  destruct (debug_sorted _ _ _ _ El Ea) as [Hp Hs]. rewrite added_list_ops in Hp.
  assert (Ha : Forall natural a) by (eapply Permutation_Forall; [exact Hp | exact Hnat]).
  pose proof (retag_tagged a None None) as T.
  destruct (ser_text_short Debug (g_sources g) (g_names g) (retag None None a)) as [s [Es _]].
  { eapply (tagged_all (fun m => In m (added_mappings ops))); [exact T| |].
    - rewrite Forall_forall. intros m Hm. eapply Permutation_in; [symmetry; exact Hp | exact Hm].
    - intros m m' Hin Tm. rewrite Forall_forall in Hv. destruct (tagged_wf _ _ (Hv m Hin) Tm) as [W1 W2].
      split; [exact W1|]. split; [exact W2|]. unfold tagged in Tm. destruct (m_source m) as [x|] eqn:Ex.
      + subst. split; [|apply known_name]; (eapply known_all; [eassumption | first [exact (proj1 Hn) | exact (proj2 Hn)] | eassumption]).
      + destruct Tm as [t ->]. split; exact I. }
  { eapply tagged_sorted; eassumption. }
  rewrite retag_loop in Es; [|exact Ha | exact I].
  destruct (contents_ok Debug U g) as [sc Esc].
  { rewrite H2. destruct Hroot as [Hroot|Hroot]; [left; exact Hroot | right; apply H7; exact Hroot]. }
  unfold gen_as_json. rewrite Esc. cbn [bind]. unfold serialize_mappings. rewrite Ea. cbn [bind g_sources g_names].
  rewrite Es. cbn [bind]. do 2 eexists. split; [reflexivity|]. exact Hml'.
Qed.

Lemma run_loose : forall U file root skip ops, loose_run ops -> (root = None \/ no_content ops) ->
  exists g, gen_run Debug U (gen_new file root skip) ops = Ok g
    /\ natural_list (g_mappings g) (added_mappings ops).
Proof.
  intros U file root skip ops. induction ops as [|op ops IH] using rev_ind; intros He Hroot.
  - exists (gen_new file root skip). split; [reflexivity|]. split; [constructor | exact I].
  - assert (Hroot' : root = None \/ no_content ops).
    { destruct Hroot as [H|H]; [left; exact H | right; apply no_content_app in H; tauto]. }
    destruct (IH (loose_prefix _ _ He) Hroot') as [g [Eg Hml]].
    pose proof (base_inv_run _ _ _ _ _ _ _ Eg) as HB.
    rewrite gen_run_snoc, Eg. cbn [bind]. rewrite added_mappings_app.
    destruct op as [m|s c|]; cbn [gen_step added_mappings].
    + destruct He as [He _]. rewrite added_mappings_app in He.
      apply Forall_app in He. destruct He as [_ He]. cbn in He. inv He. destruct H1 as [Hm _].
      destruct Hml as [Hp Hl].
      destruct (add_window Debug 0 i32_max g m window_nat Hl Hm) as [g' [E [Hl' Ha]]].
      exists g'. split; [exact E|]. split; [|exact Hl']. rewrite Ha. apply Permutation_app_tail. exact Hp.
    + unfold gen_set_source_content. rewrite (bi_root _ _ _ _ _ HB). rewrite app_nil_r.
      destruct Hroot as [->|Hn].
      * cbn [bind]. eexists. split; [reflexivity|]. exact Hml.
      * exfalso. apply (Hn s c). apply in_app_iff. right. left. reflexivity.
    + rewrite app_nil_r.
      destruct (json_loose U file root skip ops g Eg (loose_prefix _ _ He) Hml Hroot') as [j [g' [Ej Hml']]].
      rewrite Ej. cbn [bind snd]. exists g'. split; [reflexivity | exact Hml'].
Qed.

(** ** Both build modes *)
Lemma writes : forall md U file root skip ops,
  Forall natural (added_mappings ops) -> Forall writable (added_mappings ops) ->
  few_names 2147483648 (added_mappings ops) -> (root = None \/ no_content ops) ->
  exists g j g', gen_run md U (gen_new file root skip) ops = Ok g /\ gen_as_json md U g = Ok (j, g').
Proof.
  intros md U file root skip ops H1 H2 H3 H4.
  assert (HL : loose_run ops).
  { split; [|exact H3]. rewrite Forall_forall in *. intros m Hm. split; auto. }
  destruct (run_loose U file root skip ops HL H4) as [g [Eg Hml]].
  destruct (json_loose U file root skip ops g Eg HL Hml H4) as [j [g' [Ej _]]].
  destruct md; [exists g, j, g'; auto|].
  pose proof (proj1 (modes_generator U (gen_new file root skip) ops)) as A.
  destruct A as [A|A]; rewrite Eg in A; cbn [bind] in A; rewrite Ej in A; [discriminate|].
  destruct (gen_run Release U (gen_new file root skip) ops) as [g2|p]; [|discriminate]. cbn [bind] in A.
  exists g2, j, g'. auto.
Qed.

(** ** What is needed *)
Definition excused (pool : list Mapping) (m : Mapping) : Prop := lacking m ->
  exists x, In x pool /\ m_generated x = m_generated m /\ m_source x = m_source m /\ m_name x = m_name m
    /\ m_original x <> None.

Lemma loop_excused : forall md S N pool ms p st r s, ser_loop md S N p ms st r = Ok s ->
  Forall natural ms -> incl ms pool ->
  match p with Some q => natural q /\ In q pool /\ excused pool q | None => True end ->
  Forall (excused pool) ms.
Proof.
  intros md S N pool. induction ms as [|m ms IH]; intros p st r s H HF Hi HP; [constructor|].
  inv HF. rename H2 into Hm. rename H3 into HF.
  assert (Hi' : incl ms pool) by (intros x Hx; apply Hi; right; exact Hx).
  assert (Him : In m pool) by (apply Hi; left; reflexivity).
  assert (Seg : forall st0 x, ser_segment md S N m st0 = Ok x -> excused pool m).
  { intros st0 x E [L1 L2]. exfalso. exact (segment_no_original _ _ _ _ _ _ L1 L2 E). }
  cbn [ser_loop] in H. destruct (negb (p_line (m_generated m) =? ss_generated_line st)).
  - bind_inv H. destruct x as [next line]. bind_inv H. destruct x as [seg st']. apply Seg in H1.
    constructor; [exact H1|]. eapply IH; [exact H | exact HF | exact Hi' |]. cbn beta iota. auto.
  - destruct p as [q|].
    + destruct HP as [Hq [Hqi Hqe]]. rewrite (compare_window md 0 i32_max _ _ window_nat Hm Hq) in H. cbn [bind] in H.
      destruct (Z.eqb_spec (cmpZ m q) 0) as [Z|Z].
      * assert (E : excused pool m).
        { intros [L1 L2]. destruct (cmp_place _ _ Z) as [P1 P2].
          assert (P3 : m_name m = m_name q).
          { unfold cmpZ in Z. rewrite L2 in Z. apply lex_zero in Z. destruct Z as [_ Z]. apply lex_zero in Z. destruct Z as [_ Z].
            apply lex_zero in Z. destruct Z as [_ Z]. apply strcmp_eq. exact Z. }
          destruct (m_original q) eqn:Eo.
          - exists q. repeat split; try congruence.
          - destruct Hqe as [x [X1 [X2 [X3 [X4 X5]]]]].
            { split; congruence. }
            exists x. repeat split; congruence. }
        constructor; [exact E|]. eapply IH; [exact H | exact HF | exact Hi' |]. cbn beta iota. auto.
      * bind_inv H. destruct x as [seg st']. apply Seg in H0.
        constructor; [exact H0|]. eapply IH; [exact H | exact HF | exact Hi' |]. cbn beta iota. auto.
    + bind_inv H. destruct x as [seg st']. apply Seg in H0.
      constructor; [exact H0|]. eapply IH; [exact H | exact HF | exact Hi' |]. cbn beta iota. auto.
Qed.

Lemma needed : forall U file root skip ops j,
  Forall natural (added_mappings ops) -> observe_json Debug U (gen_new file root skip) ops = Ok j ->
  forall m, In m (added_mappings ops) -> line1 (m_generated m) /\ excused (added_mappings ops) m.
Proof.
  intros U file root skip ops j HF H m Hm. unfold observe_json in H. bind_inv H. bind_inv H. destruct x0 as [j' g'].
  split.
  - unfold line1. destruct (Z_lt_dec (p_line (m_generated m)) 1) as [L|L]; [|lia]. exfalso.
    exact (low_never _ _ _ _ _ _ _ _ Hm L H0 H1).
  - apply list_run in H0. cbn [gen_new g_mappings] in H0.
    apply as_json_inv in H1. destruct H1 as [a [ml' [s [_ [Ea [Es _]]]]]].
    destruct (debug_sorted _ _ _ _ H0 Ea) as [P _]. rewrite added_list_ops in P.
    assert (E : Forall (excused (added_mappings ops)) a).
    { eapply loop_excused; [exact Es| | |exact I].
      - eapply Permutation_Forall; eassumption.
      - intros y Hy. eapply Permutation_in; [symmetry; exact P | exact Hy]. }
    rewrite Forall_forall in E. apply E. eapply Permutation_in; eassumption.
Qed.

Lemma written_exactly_when : forall U file root skip ops,
  Forall natural (added_mappings ops) -> few_names 2147483648 (added_mappings ops) ->
  (root = None \/ no_content ops) -> lacking_alone (added_mappings ops) ->
  (exists j, observe_json Debug U (gen_new file root skip) ops = Ok j) <-> Forall writable (added_mappings ops).
Proof.
  intros U file root skip ops H1 H2 H3 H4. split.
  - intros [j Hj]. rewrite Forall_forall. intros m Hm. destruct (needed _ _ _ _ _ _ H1 Hj m Hm) as [L E].
    split; [exact L|]. intros Hs Ho. destruct (E (conj Hs Ho)) as [x [X1 [X2 [_ [_ X3]]]]].
    apply X3. rewrite (H4 m x Hm (conj Hs Ho) X1 X2). exact Ho.
  - intros Hw. destruct (writes Debug U file root skip ops H1 Hw H2 H3) as [g [j [g' [Eg Ej]]]].
    exists j. unfold observe_json. rewrite Eg. cbn [bind]. rewrite Ej. reflexivity.
Qed.

(** ** What is read back *)
Lemma left_writable : forall m, valid_mapping (left_of m) -> writable m.
Proof.
  intros m [[_ Hm] [Hl _]]. unfold left_of in *. split.
  - destruct (m_source m); exact Hl.
  - intros Hs Ho. destruct (m_source m) eqn:E; [|contradiction]. cbn [written m_original m_source] in Hm.
    rewrite Ho, E in Hm. exact Hm.
Qed.

Lemma times_same : forall (f : Mapping -> Mapping) (Hf : forall m, m_generated (f m) = m_generated m) p l,
  times_at p (map f l) = times_at p l.
Proof.
  intros f Hf p l. unfold times_at. induction l as [|m l IH]; [reflexivity|]. cbn [map filter].
  replace (at_pos p (f m)) with (at_pos p m) by (unfold at_pos; rewrite Hf; reflexivity).
  destruct (at_pos p m); cbn [length]; rewrite IH; reflexivity.
Qed.

Lemma times_tagged : forall p a b, Forall2 tagged a b -> times_at p b = times_at p a.
Proof.
  intros p a b T. unfold times_at. induction T as [|m m' a b H _ IH]; [reflexivity|]. cbn [filter].
  replace (at_pos p m') with (at_pos p m) by (unfold at_pos; rewrite (tagged_generated _ _ H); reflexivity).
  destruct (at_pos p m); cbn [length]; rewrite IH; reflexivity.
Qed.

Lemma left_generated : forall m, m_generated (left_of m) = m_generated m.
Proof. intros m. unfold left_of. destruct (m_source m); reflexivity. Qed.
Lemma left_written : forall m, written (left_of m) = left_of m.
Proof. intros m. unfold left_of. destruct (m_source m); reflexivity. Qed.
Lemma in_left : forall ms x, (exists m, In m (map left_of ms) /\ x = written m) <-> exists m, In m ms /\ x = left_of m.
Proof.
  intros ms x. split.
  - intros [y [Hy ->]]. apply in_map_iff in Hy. destruct Hy as [m [<- Hm]]. exists m. split; [exact Hm | apply left_written].
  - intros [m [Hm ->]]. exists (left_of m). split; [apply in_map; exact Hm | symmetry; apply left_written].
Qed.

(** what can be read back: small coordinates *)
Definition left_run (ops : list gen_op) : Prop :=
  Forall natural (added_mappings ops) /\ Forall valid_mapping (map left_of (added_mappings ops))
  /\ Forall small_mapping (map left_of (added_mappings ops)) /\ few_names (2^30) (added_mappings ops).

Lemma left_debug : forall U file root skip ops g j g', left_run ops ->
  gen_run Debug U (gen_new file root skip) ops = Ok g -> gen_as_json Debug U g = Ok (j, g') ->
  says (source_names ops) (symbol_names ops) j (map left_of (added_mappings ops))
  /\ exists r, read_json j = Some r
    /\ (forall x, In x r <-> exists m, In m (added_mappings ops) /\ x = left_of m) /\ gen_sorted r.
Proof.
  intros U file root skip ops g j g' [H1 [H2 [H3 H4]]] Eg Ej. change (2^30) with 1073741824 in H4.
  rewrite Forall_map in H2, H3.
  assert (H4' : few_names 2147483648 (added_mappings ops)) by (apply (few_more 1073741824); [lia | exact H4]).
  pose proof (base_inv_run _ _ _ _ _ _ _ Eg) as HB. pose proof HB as [_ _ _ B4 B5 _ _].
  pose proof (list_run _ _ _ _ _ Eg) as El. cbn [gen_new g_mappings] in El.
  pose proof (as_json_inv _ _ _ _ _ Ej) as [a [ml' [s [sc [Ea [Es [_ [Hj _]]]]]]]].
  destruct (debug_sorted _ _ _ _ El Ea) as [Hp Hs]. rewrite added_list_ops in Hp.
  assert (Hin : forall m, In m a -> In m (added_mappings ops)).
  { intros m Hm. eapply Permutation_in; [symmetry; exact Hp | exact Hm]. }
  assert (Ha : Forall natural a) by (eapply Permutation_Forall; [exact Hp | exact H1]).
  pose proof (retag_tagged a None None) as T.
  rewrite Forall_forall in H2, H3.
  assert (Hex : forall m m', In m a -> tagged m m' -> expressible m' /\ small_mapping m').
  { intros m m' Hm Tm. specialize (H2 m (Hin m Hm)). specialize (H3 m (Hin m Hm)).
    rewrite Forall_forall in H1. specialize (H1 m (Hin m Hm)).
    unfold tagged in Tm. unfold left_of in H2, H3. destruct (m_source m) as [x|] eqn:Ex.
    - subst m'. split; [|exact H3]. exact (valid_expressible _ H2).
    - destruct Tm as [t ->]. split; [|exact H3]. destruct H2 as [X1 [X2 _]]. split; [exact X1|]. split; [exact X2 | exact I]. }
  pose proof (tagged_sorted _ _ T Hs) as Hs'.
  destruct (far_loop_start Debug (g_sources g) (g_names g) (retag None None a)) as [s2 [r [Es2 [Hc [[V1 _] Hg]]]]].
  { eapply (tagged_all (fun m => In m a)); [exact T| |].
    - rewrite Forall_forall. auto.
    - intros m m' Hm Tm. split; [apply (Hex m m' Hm Tm)|]. pose proof (Hin m Hm) as Hm'.
      unfold tagged in Tm. destruct (m_source m) as [x|] eqn:Ex.
      + subst. split; [|apply known_name]; (eapply known_all; [eassumption | first [exact (proj1 H4) | exact (proj2 H4)] | eassumption]).
      + destruct Tm as [t ->]. split; exact I. }
  { exact Hs'. }
  rewrite retag_loop in Es2; [|exact Ha | exact I]. rewrite Es in Es2. injection Es2 as <-.
  assert (Hall : Forall (fun m => expressible m /\ small_mapping m) (retag None None a)).
  { eapply (tagged_all (fun m => In m a)); [exact T| |exact Hex]. rewrite Forall_forall. auto. }
  assert (Hr : Forall (fun m => expressible m /\ small_mapping m) r).
  { rewrite Forall_forall. intros x Hx. apply (collapsed_In _ _ _ Hc) in Hx. apply in_map_iff in Hx. destruct Hx as [m [<- Hm]].
    rewrite Forall_forall in Hall. exact (Hall m Hm). }
  assert (Hnear : near_by r).
  { apply small_near; (eapply Forall_impl; [|exact Hr]); intros m [X Y]; assumption. }
  destruct (V1 Hnear) as [raws [Ed R]].
  assert (Hiff : forall x, In x (map read_back r) <-> exists m, In m (added_mappings ops) /\ x = left_of m).
  { assert (X : forall x, In x (map read_back r) <-> In x (map read_back (retag None None a))).
    { intros x. rewrite !in_map_iff. split; intros [y [<- Hy]].
      - apply (collapsed_In _ _ _ Hc) in Hy. apply in_map_iff in Hy. destruct Hy as [m [<- Hm]]. exists m. auto.
      - exists (written y). split; [reflexivity|]. apply (collapsed_In _ _ _ Hc). apply in_map. exact Hy. }
    intros x. rewrite X, (retag_left _ _ T), in_map_iff. split.
    + intros [m [<- Hm]]. exists m. split; [apply Hin; exact Hm | reflexivity].
    + intros [m [Hm ->]]. exists m. split; [reflexivity|]. eapply Permutation_in; [exact Hp | exact Hm]. }
  destruct (generate_arrays Debug U file root skip ops g j g' Eg Ej) as [_ [Esrc [Enm _]]].
  assert (Em : smj_mappings j = Some s) by (subst j; reflexivity).
  assert (Ejr : read_json j = Some (map read_back r)).
  { rewrite Hj. unfold read_json. cbn [smj_sources smj_names smj_mappings]. rewrite Ed. exact R. }
  split.
  - destruct (Hg Hnear) as [Hg1 Hg2]. exists s, raws, (map read_back r).
    split; [exact Em|]. split; [eapply good_text_impl; [|exact Hg1]; intros t [Ht _]; exact Ht|]. split.
    { rewrite count_split in Hg2. destruct (last_line_max (retag None None a) 1 Hs') as [_ [_ L3]].
      { eapply Forall_impl; [|exact Hall]. intros m [[_ [Hm _]] _]. exact Hm. }
      change (2^32) with 4294967296. destruct L3 as [L3|[m [Hm Lm]]]; [lia|].
      rewrite Forall_forall in Hall. destruct (Hall m Hm) as [[[[G _] _] _] _].
      unfold i32_max in G. change (2^31 - 1) with 2147483647 in G. lia. }
    split; [exact Ed|]. split.
    { unfold read_json in Ejr. rewrite Esrc, Enm, Em, Ed in Ejr. exact Ejr. }
    split; [intros x; rewrite Hiff, in_left; reflexivity|].
    intros p Hle. rewrite (times_same read_back) by reflexivity.
    rewrite (times_same left_of left_generated) in Hle.
    pose proof (times_collapsed p _ _ Hc) as X. rewrite times_written, (times_tagged p _ _ T), <- (times_perm p _ _ Hp) in X. lia.
  - exists (map read_back r). split; [exact Ejr|]. split; [exact Hiff|].
    pose proof (collapsed_sorted _ _ _ _ Hc (written_sorted _ Hs')) as Hrs.
    clear - Hrs. induction Hrs; cbn; constructor; auto. rewrite Forall_map. exact H.
Qed.

Lemma left_run_writable : forall ops, left_run ops -> Forall writable (added_mappings ops) /\ few_names 2147483648 (added_mappings ops).
Proof.
  intros ops [_ [H2 [_ H4]]]. change (2^30) with 1073741824 in H4. rewrite Forall_map in H2.
  split; [eapply Forall_impl; [|exact H2]; intros m; apply left_writable | apply (few_more 1073741824); [lia | exact H4]].
Qed.

(** In either build, and with any contents, if the calls return. *)
Lemma left_says : forall md U file root skip ops g j g', left_run ops ->
  gen_run md U (gen_new file root skip) ops = Ok g -> gen_as_json md U g = Ok (j, g') ->
  says (source_names ops) (symbol_names ops) j (map left_of (added_mappings ops))
  /\ exists r, read_json j = Some r
    /\ (forall x, In x r <-> exists m, In m (added_mappings ops) /\ x = left_of m) /\ gen_sorted r.
Proof.
  intros md U file root skip ops g j g' Hl Eg Ej. destruct md; [exact (left_debug _ _ _ _ _ _ _ _ Hl Eg Ej)|].
  destruct (contents_independent _ _ _ _ _ _ _ _ _ Eg Ej) as [g2 [j2 [g2' [Eg2 [Ej2 [_ [Es [En [Em _]]]]]]]]].
  assert (Hl2 : left_run (without_content ops)) by (unfold left_run; rewrite added_without_content; exact Hl).
  pose proof Hl2 as [H1 _]. destruct (left_run_writable _ Hl2) as [Hw Hf].
  destruct (writes Debug U file root skip (without_content ops) H1 Hw Hf (or_intror (no_content_without ops)))
    as [g3 [j3 [g3' [Eg3 Ej3]]]].
  pose proof (proj1 (modes_generator U (gen_new file root skip) (without_content ops))) as A.
  rewrite Eg2, Eg3 in A. cbn [bind] in A. rewrite Ej2, Ej3 in A. destruct A as [A|A]; [discriminate|]. injection A as A _. subst j3.
  destruct (left_debug _ _ _ _ _ _ _ _ Hl2 Eg3 Ej3) as [S R]. unfold source_names, symbol_names in S.
  rewrite added_without_content in S, R. split.
  - unfold says in *. rewrite Em in S. exact S.
  - unfold read_json in *. rewrite Es, En, Em in R. exact R.
Qed.

Lemma read_back_left : forall md U file root skip ops,
  Forall natural (added_mappings ops) -> Forall valid_mapping (map left_of (added_mappings ops)) ->
  Forall small_mapping (map left_of (added_mappings ops)) ->
  few_names (2^30) (added_mappings ops) -> (root = None \/ no_content ops) ->
  exists g j g' r, gen_run md U (gen_new file root skip) ops = Ok g
    /\ gen_as_json md U g = Ok (j, g')
    /\ read_json j = Some r
    /\ (forall x, In x r <-> exists m, In m (added_mappings ops) /\ x = left_of m)
    /\ gen_sorted r.
Proof.
  intros md U file root skip ops H1 H2 H3 H4 H5. pose proof (conj H1 (conj H2 (conj H3 H4)) : left_run ops) as Hl.
  destruct (left_run_writable _ Hl) as [Hw Hf].
  destruct (writes md U file root skip ops H1 Hw Hf H5) as [g [j [g' [Eg Ej]]]].
  destruct (left_says _ _ _ _ _ _ _ _ _ Hl Eg Ej) as [_ [r R]]. exists g, j, g', r. auto.
Qed.

(** ** A consumer on such a map *)
Section LeftQueries.
  Context (md : mode) (L : MapLib) (U : UrlLib) (HL : MapLibOk L).

  Lemma on_left : forall file root skip ops g url c0 lk qs c, left_run ops ->
    gen_run md U (gen_new file root skip) ops = Ok g ->
    opened_on md L U g url c0 lk -> asked md L U c0 qs = Ok c ->
    facts md L U root url ops (map left_of (added_mappings ops)) c0 lk c.
  Proof.
    intros file root skip ops g url c0 lk qs c Hl Eg Eo Ha. pose proof Hl as [H1 [H2 [H3 H4]]].
    eapply on_map; try eassumption. intros j g' Ej. exact (proj1 (left_says _ _ _ _ _ _ _ _ _ Hl Eg Ej)).
  Qed.

  Lemma left_opens : forall file root skip ops url,
    Forall natural (added_mappings ops) -> Forall writable (added_mappings ops) ->
    few_names 2147483648 (added_mappings ops) -> (root = None \/ no_content ops) ->
    exists g s g', gen_run md U (gen_new file root skip) ops = Ok g /\ gen_as_string md U g = Ok (s, g') /\
    match mapM (fun s => compute_source_url md U root s url) (source_names ops) with
    | Panic p => bc_from_source_map md L U g url = Panic p
                 /\ forall order, create_consumer md L U order s url = Panic p
    | Ok urls => (exists c, bc_from_source_map md L U g url = Ok (c, g') /\ bc_get_sources L c = urls)
                 /\ exists c, bc_get_sources L c = urls
                    /\ forall order, create_consumer md L U order s url = Ok (Some (CBasic c))
    end.
  Proof.
    intros file root skip ops url H1 H2 H3 H4.
    destruct (writes md U file root skip ops H1 H2 H3 H4) as [g [j [g' [Eg Ej]]]].
    exists g, (smj_to_string j), g'. split; [exact Eg|]. exact (opens_on md L U _ _ _ _ _ _ _ _ Eg Ej).
  Qed.

  Lemma left_reported : forall file root skip ops g url c0 lk qs c, left_run ops ->
    gen_run md U (gen_new file root skip) ops = Ok g ->
    opened_on md L U g url c0 lk -> asked md L U c0 qs = Ok c ->
    exists l r, reports L c l /\ resolve (source_names ops) (symbol_names ops) l = Some r
      /\ (forall x, In x r <-> exists m, In m (added_mappings ops) /\ x = left_of m)
      /\ gen_sorted r.
  Proof.
    intros file root skip ops g url c0 lk qs c Hl Eg Eo Ha.
    destruct (on_left _ _ _ _ _ _ _ _ _ _ Hl Eg Eo Ha)
      as [_ [_ [_ [_ [_ [_ [_ [l [r [R [_ [Hres [Hin [Hso _]]]]]]]]]]]]]].
    exists l, r. split; [exact R|]. split; [exact Hres|].
    split; [intros x; rewrite Hin, in_left; reflexivity | exact (resolve_sorted _ _ _ _ Hres Hso)].
  Qed.

  Lemma left_original : forall file root skip ops g url c0 lk qs c line column b, left_run ops ->
    gen_run md U (gen_new file root skip) ops = Ok g ->
    opened_on md L U g url c0 lk -> asked md L U c0 qs = Ok c ->
    position_ok line column ->
    let ms := map left_of (added_mappings ops) in
    let ends m last := (last = None \/ column_end ms m last) /\ (In QSpans qs -> column_end ms m last) in
    exists found, nearest (by_generated ms) (line, column) (default_bias b) found
      /\ original_reply md U root url ends line found (answer (bc_original_position_for md L c (mkPos line column) b)).
  Proof.
    intros file root skip ops g url c0 lk qs c line column b Hl Eg Eo Ha Hp.
    exact (original_end_on md L U HL _ _ _ _ _ _ _ _ line column b (proj1 (proj2 Hl)) (on_left _ _ _ _ _ _ _ _ _ _ Hl Eg Eo Ha) Ha Hp).
  Qed.

  Lemma left_generated_for : forall file root skip ops g url c0 lk qs c src i line column b, left_run ops ->
    gen_run md U (gen_new file root skip) ops = Ok g ->
    opened_on md L U g url c0 lk -> asked md L U c0 qs = Ok c ->
    source_lookup md L U c0 src = Ok (Some i) -> position_ok line column ->
    let ms := map left_of (added_mappings ops) in
    let ends m shown := exists last, (last = None \/ column_end ms m last)
      /\ (In QSpans qs -> shown = Some match last with Some e => e | None => -1 end)
      /\ (~ In QSpans qs -> shown = last) in
    exists s u found, nth_error (source_names ops) i = Some s /\ asks_for md U root url lk src s u
      /\ nearest (of_file s ms) (line, column) (default_bias b) found
      /\ generated_reply ends (symbol_names ops) i u found (answer (bc_generated_position_for md L U c src line column b)).
  Proof.
    intros file root skip ops g url c0 lk qs c src i line column b Hl Eg Eo Ha Hk Hp.
    exact (generated_end_on md L U HL _ _ _ _ _ _ _ _ src i line column b (proj1 (proj2 Hl))
             (on_left _ _ _ _ _ _ _ _ _ _ Hl Eg Eo Ha) Ha Hk Hp).
  Qed.

  Lemma left_all_generated : forall file root skip ops g url c0 lk qs c src i line column, left_run ops ->
    gen_run md U (gen_new file root skip) ops = Ok g ->
    opened_on md L U g url c0 lk -> asked md L U c0 qs = Ok c ->
    source_lookup md L U c0 src = Ok (Some i) ->
    let ms := map left_of (added_mappings ops) in
    let col := match column with Some z => z | None => 0 end in
    position_ok line col ->
    exists s u l, nth_error (source_names ops) i = Some s /\ asks_for md U root url lk src s u
      /\ answer (bc_all_generated_position_for md L U c src line column) = Ok l
      /\ ((exists m, In (m, (line + 1, col)) (of_file s ms)) ->
          exists r, resolve (source_names ops) (symbol_names ops) l = Some r
            /\ forall x, In x r <-> exists m, In (m, (line + 1, col)) (of_file s ms) /\ x = written m).
  Proof.
    intros file root skip ops g url c0 lk qs c src i line column Hl Eg Eo Ha Hk ms col Hp.
    exact (all_generated_end_on md L U HL _ _ _ _ _ _ _ _ src i line column (proj1 (proj2 Hl))
             (on_left _ _ _ _ _ _ _ _ _ _ Hl Eg Eo Ha) Ha Hk Hp).
  Qed.
End LeftQueries.
