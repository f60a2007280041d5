(** * Looking up the sources a consumer lists *)
From Verif Require Import Base F_Base M_ArraySet M_Mapping M_Util M_SourceMap M_Generator M_Json M_MapLib M_Consumer M_Indexed
  S_List S_Url S_MapLib S_Consumer S_EndToEnd F_ArraySet F_UrlPath F_UrlOps F_Url F_UrlSource F_UrlProps F_Consumer F_ConsumerProps.

Lemma len_below : forall r p, len (path_text (below r p)) <= len (path_text r) + len (path_text p) + 1.
Proof.
  intros r p. unfold below, path_text. cbn [dirs file]. unfold as_dirs. rewrite !len_app, !len_dirs_app.
  destruct (file r) as [|a f]; [cbn; lia|].
  unfold dirs_text at 2. cbn [map concat]. rewrite app_nil_r, len_app. change (len (lit "/")) with 1. lia.
Qed.

Section Listed.
  Context (md : mode) (L : MapLib) (U : UrlLib) (C : UrlContract U).

  Lemma listed_fixed : forall c0 qs c u, opened md L U c0 -> asked md L U c0 qs = Ok c ->
    len (bc_get_sources L c0) < 2^31 -> In u (bc_get_sources L c0) ->
    compute_source_url md U None u (bc_source_map_url c0) = Ok u ->
    exists k, answer (bc_find_source_index md L U c u) = Ok (Some (Z.of_nat k))
      /\ nth_error (bc_get_sources L c) k = Some u
      /\ (forall i, nth_error (bc_get_sources L c) i = Some u -> (k <= i)%nat).
  Proof.
    intros c0 qs c u Ho H Hl Hin E. destruct (source_lookup_stable md L U c0 qs c u Ho H Hl) as [Es [Ef _]].
    destruct (first_index_In _ _ Hin) as [k Ek]. exists k. rewrite Ef, Es.
    unfold source_lookup, index_of_source. rewrite E. cbn [bind]. rewrite Ek. split; [reflexivity|].
    destruct (first_index_some _ _ _ Ek) as [H1 H2]. split; [exact H1|].
    intros i Hi. destruct (Nat.le_gt_cases k i) as [X|X]; [exact X|]. exfalso. exact (H2 _ X Hi).
  Qed.

  Lemma opened_urls : forall j c0, (bc_from_source_map_json md L U j None = Ok c0 \/ exists s, bc_new md L U s None = Ok c0 /\ smj_from_str s = Some j) ->
    opened md L U c0 /\ bc_source_map_url c0 = None /\ bc_source_map c0 = j
    /\ exists sources, smj_sources j = Some sources
       /\ mapM (fun s => compute_source_url md U (smj_source_root j) s None) sources = Ok (bc_get_sources L c0).
  Proof.
    intros j c0 H. assert (X : opened md L U c0 /\ exists abs, compute_absolute_sources md U j None = Ok abs
        /\ c0 = mkBC j [] abs None None false).
    { destruct H as [H|[s [H Es]]].
      - split; [right; eauto|]. unfold bc_from_source_map_json in H.
        destruct (compute_absolute_sources md U j None) as [abs|p]; [|discriminate]. cbn in H. exists abs. split; congruence.
      - split; [left; eauto|]. unfold bc_new in H. rewrite Es in H. cbn [unwrap_ok bind] in H.
        destruct (compute_absolute_sources md U j None) as [abs|p]; [|discriminate]. cbn in H. exists abs. split; congruence. }
    destruct X as [Ho [abs [Ea ->]]]. split; [exact Ho|]. split; [reflexivity|]. split; [reflexivity|].
    unfold compute_absolute_sources in Ea. destruct (smj_sources j) as [sources|]; [|discriminate].
    cbn [unwrap bind] in Ea. exists sources. split; [reflexivity|].
    destruct (mapM _ sources) as [urls|p]; [|discriminate]. cbn in Ea. injection Ea as <-.
    unfold bc_get_sources. cbn [bc_absolute_sources]. rewrite (proj1 (as_from_array_vec urls)). reflexivity.
  Qed.

  (** plain sources under an optional plain relative root, no map URL *)
  Lemma listed_plain : forall j c0 qs c r ps,
    (bc_from_source_map_json md L U j None = Ok c0 \/ exists s, bc_new md L U s None = Ok c0 /\ smj_from_str s = Some j) ->
    asked md L U c0 qs = Ok c ->
    smj_sources j = Some (map path_text ps) -> smj_source_root j = option_map path_text r ->
    len ps < 2^31 ->
    match r with Some r => plain_path r /\ 2 <= len (path_text r) <= 1073741820 | None => True end ->
    Forall (fun p => plain_path p /\ 2 <= len (path_text p) <= 1073741820 /\ 2 <= len (path_text (normal p))
                     /\ 2 <= len (path_text (normal (in_root r p)))) ps ->
    bc_get_sources L c = map (fun p => path_text (normal (in_root r p))) ps
    /\ (forall u, In u (bc_get_sources L c) -> exists k,
          answer (bc_find_source_index md L U c u) = Ok (Some (Z.of_nat k))
          /\ nth_error (bc_get_sources L c) k = Some u
          /\ (forall i, nth_error (bc_get_sources L c) i = Some u -> (k <= i)%nat))
    /\ (forall p, In p ps -> exists k,
          answer (bc_find_source_index md L U c (path_text p)) = Ok (Some (Z.of_nat k))
          /\ (nth_error (bc_get_sources L c) k = Some (path_text (normal p))
              \/ nth_error (bc_get_sources L c) k = Some (path_text (normal (in_root r p))))).
  Proof.
    intros j c0 qs c r ps Ho H Esrc Eroot Hl Hr Hps.
    destruct (opened_urls j c0 Ho) as [Hop [Eurl [Ej [sources [Es Em]]]]].
    rewrite Esrc in Es. injection Es as <-. rewrite Eroot in Em.
    rewrite Forall_forall in Hps.
    assert (Hone : forall p, In p ps ->
      compute_source_url md U (option_map path_text r) (path_text p) None = Ok (path_text (normal (in_root r p)))).
    { intros p Hp. destruct (Hps p Hp) as [P1 [P2 [P3 P4]]]. destruct r as [r|]; cbn [option_map in_root].
      - destruct Hr as [R1 R2]. apply (root_rel md U C r p false); try assumption; try lia.
      - apply (source_plain md U C); [assumption|lia]. }
    assert (Esources : bc_get_sources L c0 = map (fun p => path_text (normal (in_root r p))) ps).
    { clear - Em Hone. revert Em. cbn [option_map]. generalize (bc_get_sources L c0).
      induction ps as [|p ps IH]; intros l Em; cbn in Em.
      - injection Em as <-. reflexivity.
      - rewrite (Hone p (or_introl eq_refl)) in Em. cbn [bind] in Em.
        destruct (mapM _ (map path_text ps)) as [ys|e] eqn:E; [|discriminate]. cbn in Em. injection Em as <-.
        cbn. f_equal. apply IH; [|reflexivity]. intros q Hq. apply Hone. right. exact Hq. }
    assert (Hlen : len (bc_get_sources L c0) < 2^31).
    { rewrite Esources. unfold len in *. rewrite map_length. exact Hl. }
    destruct (source_lookup_stable md L U c0 qs c [] Hop H Hlen) as [Ec _].
    assert (Hnorm : forall p, In p ps -> plain_path (in_root r p) /\ len (path_text (normal (in_root r p))) <= 2147483645).
    { intros p Hp. destruct (Hps p Hp) as [P1 [P2 [P3 P4]]]. destruct r as [r|]; cbn [in_root].
      - destruct Hr as [R1 R2]. split; [apply below_plain; assumption|].
        pose proof (len_normal (below r p)) as X. pose proof (len_below r p) as Y. lia.
      - split; [assumption|]. pose proof (len_normal p). lia. }
    split; [rewrite Ec; exact Esources|]. split.
    - intros u Hu. rewrite Ec in Hu. apply (listed_fixed c0 qs c u Hop H Hlen Hu). rewrite Eurl.
      rewrite Esources in Hu. apply in_map_iff in Hu. destruct Hu as [p [<- Hp]].
      destruct (Hnorm p Hp) as [N1 N2]. destruct (Hps p Hp) as [_ [_ [_ P4]]].
      rewrite (source_plain md U C (normal (in_root r p))); [rewrite normal_idem; reflexivity | apply plain_normal; assumption | lia].
    - intros p Hp. destruct (source_lookup_stable md L U c0 qs c (path_text p) Hop H Hlen) as [_ [Ef _]].
      rewrite Ef. unfold source_lookup, index_of_source. rewrite Eurl, Ej, Eroot.
      destruct (Hps p Hp) as [P1 [P2 [P3 P4]]].
      rewrite (source_plain md U C p) by (try assumption; lia). cbn [bind].
      destruct (first_index (path_text (normal p)) (bc_get_sources L c0)) as [k|] eqn:Ek.
      + exists k. split; [reflexivity|]. left. rewrite Ec. apply (first_index_some _ _ _ Ek).
      + rewrite (Hone p Hp). cbn [bind].
        destruct (first_index_In (path_text (normal (in_root r p))) (bc_get_sources L c0)) as [k Ek'].
        { rewrite Esources. apply in_map_iff. exists p. auto. }
        rewrite Ek'. exists k. split; [reflexivity|]. right. rewrite Ec. apply (first_index_some _ _ _ Ek').
  Qed.

  (** ** URLs *)
  Lemma opened_map_urls : forall j url c0 lk, opened_map md L U j url c0 lk ->
    opened md L U c0 /\ bc_source_map_url c0 = lk /\ bc_source_map c0 = j
    /\ exists sources, smj_sources j = Some sources
       /\ mapM (fun s => compute_source_url md U (smj_source_root j) s url) sources = Ok (bc_get_sources L c0).
  Proof.
    intros j url c0 lk H. assert (X : opened md L U c0 /\ exists abs, compute_absolute_sources md U j url = Ok abs
        /\ c0 = mkBC j [] abs lk None false).
    { destruct H as [[s [Es [H ->]]]|[s [order [Es [H ->]]]]].
      - split; [left; eauto|]. unfold bc_new in H. rewrite Es in H. cbn [unwrap_ok bind] in H.
        destruct (compute_absolute_sources md U j url) as [abs|p]; [|discriminate]. cbn in H. exists abs. split; congruence.
      - unfold create_consumer in H. rewrite Es in H. destruct (is_some (smj_sections j)).
        { destruct (ic_from_source_map_json md L U order j url); discriminate. }
        destruct (bc_from_source_map_json md L U j url) as [c1|p] eqn:E1; [|discriminate]. cbn [bind] in H. injection H as ->.
        split; [right; eauto|]. unfold bc_from_source_map_json in E1.
        destruct (compute_absolute_sources md U j url) as [abs|p]; [|discriminate]. cbn in E1. exists abs. split; congruence. }
    destruct X as [Ho [abs [Ea ->]]]. split; [exact Ho|]. split; [reflexivity|]. split; [reflexivity|].
    unfold compute_absolute_sources in Ea. destruct (smj_sources j) as [sources|]; [|discriminate].
    cbn [unwrap bind] in Ea. exists sources. split; [reflexivity|].
    destruct (mapM _ sources) as [urls|p]; [|discriminate]. cbn in Ea. injection Ea as <-.
    unfold bc_get_sources. cbn [bc_absolute_sources]. rewrite (proj1 (as_from_array_vec urls)). reflexivity.
  Qed.

  (** an absolute URL is looked up as it is, whatever the map URL *)
  Lemma url_under_map : forall o p mo mp mq mf, plain_origin o -> clean_path p -> len (url_text o p None None) <= 2147483645 ->
    plain_origin mo -> clean_path mp -> plain_opt mq -> plain_opt mf -> len (url_text mo mp mq mf) <= 2147483645 ->
    compute_source_url md U None (url_text o p None None) (Some (url_text mo mp mq mf)) = Ok (url_text o p None None).
  Proof.
    intros o p mo mp mq mf Ho Hp Lp Hmo Hmp Hmq Hmf L2. pose proof (clean_plain _ Hp) as Pp. pose proof (clean_plain _ Hmp) as Pmp.
    rewrite source_map, (source_url md U C) by (try assumption; exact I). cbn [bind].
    destruct (TRIM_any_url md U C mo mp mq mf Hmo Pmp Hmq Hmf L2) as [t' [-> J]]. cbn [bind]. rewrite J, !resolve_clean by assumption. unfold trim_path.
    assert (Hroot : plain_root (url_text mo (mkPath [] (concat (dirs mp))) mq mf)).
    { apply pr_url; try assumption.
      - split; cbn [dirs file]; [constructor|apply plain_concat; apply Pmp].
      - assert (len (url_text mo (mkPath [] (concat (dirs mp))) mq mf) <= len (url_text mo mp mq mf)); [|lia].
        unfold url_text, abs_text. rewrite !len_app. unfold path_text. cbn [dirs file]. rewrite !len_app.
        assert (G : forall l, len (concat l) <= len (dirs_text l)).
        { induction l as [|x l IH]; [cbn; lia|]. rewrite len_dirs_cons. cbn [concat]. rewrite len_app. lia. }
        specialize (G (dirs mp)). pose proof (len_nonneg _ (file mp)). change (len (dirs_text [])) with 0. lia. }
    destruct (plain_root_ok md U C _ Hroot) as [t [d [E1 E2]]].
    unfold url_text at 2 3. apply (join_xu md U _ t d); assumption.
  Qed.

  Lemma not_url : forall p o q, plain_path p -> plain_origin o -> path_text p <> url_text o q None None.
  Proof.
    intros p o q Hp Ho E. assert (X : In (ch ":") (path_text p)).
    { rewrite E. unfold url_text, origin_text. apply in_app_iff. left. apply in_app_iff. right. left. reflexivity. }
    apply (path_no_colon p None None Hp I I). apply in_app_iff. left. exact X.
  Qed.

  Lemma clean_under : forall a b, plain_path a -> plain_path b -> clean_path (resolve_from [] (below a b)).
  Proof. intros a b Ha Hb. apply clean_resolve; try constructor; apply below_plain; assumption. Qed.

  (** A consumer all of whose sources are URLs [h p] *)
  Lemma listed_urls : forall j url c0 lk qs c (h : path -> str) ps,
    opened_map md L U j url c0 lk -> asked md L U c0 qs = Ok c ->
    smj_sources j = Some (map path_text ps) -> len ps < 2^31 ->
    (forall p, In p ps -> compute_source_url md U (smj_source_root j) (path_text p) url = Ok (h p)
                          /\ compute_source_url md U None (h p) lk = Ok (h p)) ->
    bc_get_sources L c = map h ps /\ bc_get_sources L c = bc_get_sources L c0
    /\ len (bc_get_sources L c0) < 2^31
    /\ (forall u, In u (bc_get_sources L c) -> exists k,
          answer (bc_find_source_index md L U c u) = Ok (Some (Z.of_nat k))
          /\ nth_error (bc_get_sources L c) k = Some u
          /\ (forall i, nth_error (bc_get_sources L c) i = Some u -> (k <= i)%nat)).
  Proof.
    intros j url c0 lk qs c h ps Ho H Esrc Hl Hps.
    destruct (opened_map_urls j url c0 lk Ho) as [Hop [Eurl [Ej [sources [Es Em]]]]].
    rewrite Esrc in Es. injection Es as <-.
    assert (Esources : bc_get_sources L c0 = map h ps).
    { clear - Em Hps. revert Em. generalize (bc_get_sources L c0).
      induction ps as [|p ps IH]; intros l Em; cbn in Em.
      - injection Em as <-. reflexivity.
      - rewrite (proj1 (Hps p (or_introl eq_refl))) in Em. cbn [bind] in Em.
        destruct (mapM _ (map path_text ps)) as [ys|e] eqn:E; [|discriminate]. cbn in Em. injection Em as <-.
        cbn. f_equal. apply IH; [|reflexivity]. intros q Hq. apply Hps. right. exact Hq. }
    assert (Hlen : len (bc_get_sources L c0) < 2^31).
    { rewrite Esources. unfold len in *. rewrite map_length. exact Hl. }
    destruct (source_lookup_stable md L U c0 qs c [] Hop H Hlen) as [Ec _].
    split; [rewrite Ec; exact Esources|]. split; [exact Ec|]. split; [exact Hlen|].
    intros u Hu. rewrite Ec in Hu. apply (listed_fixed c0 qs c u Hop H Hlen Hu). rewrite Eurl.
    rewrite Esources in Hu. apply in_map_iff in Hu. destruct Hu as [p [<- Hp]]. apply Hps. exact Hp.
  Qed.

  (** Relative sources, an http(s) map URL, no root or a relative one *)
  Lemma listed_map_url : forall j c0 lk qs c r ps o m q f,
    let url := Some (url_text o m q f) in
    let of_path p := under_map o m (normal p) in
    opened_map md L U j url c0 lk -> asked md L U c0 qs = Ok c ->
    smj_sources j = Some (map path_text ps) -> smj_source_root j = option_map path_text r -> len ps < 2^31 ->
    plain_origin o -> clean_path m -> plain_opt q -> plain_opt f -> len (url_text o m q f) <= 2147483645 ->
    match r with Some r => plain_path r /\ 2 <= len (path_text r) <= 1073741820 | None => True end ->
    Forall (fun p => plain_path p /\ 2 <= len (path_text p) <= 1073741820 /\ 2 <= len (path_text (normal p))
                     /\ 2 <= len (path_text (normal (in_root r p))) /\ len (of_path (in_root r p)) <= 2147483645) ps ->
    bc_get_sources L c = map (fun p => of_path (in_root r p)) ps
    /\ (forall u, In u (bc_get_sources L c) -> exists k,
          answer (bc_find_source_index md L U c u) = Ok (Some (Z.of_nat k))
          /\ nth_error (bc_get_sources L c) k = Some u
          /\ (forall i, nth_error (bc_get_sources L c) i = Some u -> (k <= i)%nat))
    /\ (lk = url -> forall p, In p ps -> exists k,
          answer (bc_find_source_index md L U c (path_text p)) = Ok (Some (Z.of_nat k))
          /\ (nth_error (bc_get_sources L c) k = Some (of_path p)
              \/ nth_error (bc_get_sources L c) k = Some (of_path (in_root r p))))
    /\ (lk = None -> forall p, In p ps -> answer (bc_find_source_index md L U c (path_text p)) = Ok None).
  Proof.
    intros j c0 lk qs c r ps o m q f url of_path Ho H Esrc Eroot Hl Po Cm Pq Pf Lm Hr Hps. rewrite Forall_forall in Hps.
    pose proof Po as Po'.
    assert (Pd : plain_path (map_dir m)).
    { split; cbn [dirs file map_dir]; [constructor|apply plain_concat; apply (clean_plain _ Cm)]. }
    assert (Hone : forall p, In p ps ->
      compute_source_url md U (option_map path_text r) (path_text p) None = Ok (path_text (normal (in_root r p)))
      /\ plain_path (normal (in_root r p))).
    { intros p Hp. destruct (Hps p Hp) as [P1 [P2 [P3 [P4 _]]]]. destruct r as [r|]; cbn [option_map in_root].
      - destruct Hr as [R1 R2]. split; [apply (root_rel md U C r p false); try assumption; try lia|].
        apply plain_normal, below_plain; assumption.
      - split; [apply (source_plain md U C); [assumption|lia] | apply plain_normal; assumption]. }
    assert (Hurl : forall p, In p ps -> compute_source_url md U (option_map path_text r) (path_text p) url = Ok (of_path (in_root r p))).
    { intros p Hp. destruct (Hone p Hp) as [E1 E2]. destruct (Hps p Hp) as [P1 [P2 [P3 [P4 _]]]].
      apply (map_url_url md U C _ _ (normal (in_root r p))); assumption. }
    assert (Hlk : lk = url \/ lk = None).
    { destruct Ho as [[s [_ [_ ->]]]|[s [order [_ [_ ->]]]]]; auto. }
    assert (Hfix : forall p, In p ps -> compute_source_url md U None (of_path (in_root r p)) lk = Ok (of_path (in_root r p))).
    { intros p Hp. destruct (Hone p Hp) as [E1 E2]. destruct (Hps p Hp) as [_ [_ [_ [_ P5]]]].
      pose proof (clean_under _ _ Pd E2) as Cp. unfold of_path, under_map in *. destruct Hlk as [-> | ->].
      - apply url_under_map; assumption.
      - rewrite (source_url md U C); try assumption; try exact I; [|apply clean_plain; exact Cp].
        rewrite resolve_clean by exact Cp. reflexivity. }
    destruct (listed_urls j url c0 lk qs c (fun p => of_path (in_root r p)) ps Ho H Esrc Hl) as [A1 [A2 [A3 A4]]].
    { intros p Hp. rewrite Eroot. split; [apply Hurl | apply Hfix]; exact Hp. }
    split; [exact A1|]. split; [exact A4|].
    destruct (opened_map_urls j url c0 lk Ho) as [Hop [Eurl [Ej _]]].
    split.
    - intros -> p Hp. destruct (source_lookup_stable md L U c0 qs c (path_text p) Hop H A3) as [_ [Ef _]].
      rewrite Ef. unfold source_lookup, index_of_source. rewrite Eurl, Ej, Eroot, <- A2.
      destruct (Hps p Hp) as [P1 [P2 [P3 [P4 P5]]]].
      assert (E0 : compute_source_url md U None (path_text p) url = Ok (of_path p)).
      { apply (map_url_url md U C _ _ (normal p)); try assumption; [|apply plain_normal; assumption].
        apply (source_plain md U C); [assumption|lia]. }
      rewrite E0. cbn [bind].
      destruct (first_index (of_path p) (bc_get_sources L c)) as [k|] eqn:Ek.
      + exists k. split; [reflexivity|]. left. apply (first_index_some _ _ _ Ek).
      + rewrite (Hurl p Hp). cbn [bind].
        destruct (first_index_In (of_path (in_root r p)) (bc_get_sources L c)) as [k Ek'].
        { rewrite A1. apply in_map_iff. exists p. auto. }
        rewrite Ek'. exists k. split; [reflexivity|]. right. apply (first_index_some _ _ _ Ek').
    - intros -> p Hp. destruct (source_lookup_stable md L U c0 qs c (path_text p) Hop H A3) as [_ [Ef _]].
      rewrite Ef. unfold source_lookup, index_of_source. rewrite Eurl, Ej, Eroot, <- A2.
      destruct (Hps p Hp) as [P1 [P2 [P3 [P4 P5]]]].
      rewrite (source_plain md U C p) by (try assumption; lia). cbn [bind].
      assert (Hno : forall x, plain_path x -> first_index (path_text x) (bc_get_sources L c) = None).
      { intros x Hx. apply first_index_none. rewrite A1. intros X. apply in_map_iff in X. destruct X as [y [X _]].
        symmetry in X. revert X. apply not_url; assumption. }
      rewrite Hno by (apply plain_normal; assumption). destruct (Hone p Hp) as [E1 E2]. rewrite E1. cbn [bind].
      rewrite Hno by exact E2. reflexivity.
  Qed.

  (** Relative sources under an http(s) root, no map URL *)
  Lemma listed_root_url : forall j c0 qs c ps o r q f,
    let of_path p := url_text o (resolve_from [] (below r p)) None None in
    opened_map md L U j None c0 None -> asked md L U c0 qs = Ok c ->
    smj_sources j = Some (map path_text ps) -> smj_source_root j = Some (url_text o r q f) -> len ps < 2^31 ->
    plain_origin o -> plain_path r -> plain_opt q -> plain_opt f -> len (url_text o r q f) <= 2147483645 ->
    Forall (fun p => plain_path p /\ 2 <= len (path_text p) <= 2147483645 /\ 2 <= len (path_text (normal p))
                     /\ len (of_path p) <= 2147483645) ps ->
    bc_get_sources L c = map of_path ps
    /\ (forall u, In u (bc_get_sources L c) -> exists k,
          answer (bc_find_source_index md L U c u) = Ok (Some (Z.of_nat k))
          /\ nth_error (bc_get_sources L c) k = Some u
          /\ (forall i, nth_error (bc_get_sources L c) i = Some u -> (k <= i)%nat))
    /\ (forall p, In p ps ->
          answer (bc_find_source_index md L U c (path_text p)) = answer (bc_find_source_index md L U c (of_path p))).
  Proof.
    intros j c0 qs c ps o r q f of_path Ho H Esrc Eroot Hl Po Pr Pq Pf Lr Hps. rewrite Forall_forall in Hps.
    assert (Hurl : forall p, In p ps -> compute_source_url md U (Some (url_text o r q f)) (path_text p) None = Ok (of_path p)).
    { intros p Hp. destruct (Hps p Hp) as [P1 [P2 [P3 P4]]]. apply (root_url md U C o r q f p false); assumption. }
    assert (Hfix : forall p, In p ps -> compute_source_url md U None (of_path p) None = Ok (of_path p)).
    { intros p Hp. destruct (Hps p Hp) as [P1 [P2 [P3 P4]]]. pose proof (clean_under _ _ Pr P1) as Cp. unfold of_path in *.
      rewrite (source_url md U C); try assumption; try exact I; [|apply clean_plain; exact Cp].
      rewrite resolve_clean by exact Cp. reflexivity. }
    destruct (listed_urls j None c0 None qs c of_path ps Ho H Esrc Hl) as [A1 [A2 [A3 A4]]].
    { intros p Hp. rewrite Eroot. split; [apply Hurl | apply Hfix]; exact Hp. }
    split; [exact A1|]. split; [exact A4|].
    destruct (opened_map_urls j None c0 None Ho) as [Hop [Eurl [Ej _]]].
    intros p Hp. destruct (source_lookup_stable md L U c0 qs c (path_text p) Hop H A3) as [_ [Ef _]].
    destruct (source_lookup_stable md L U c0 qs c (of_path p) Hop H A3) as [_ [Ef2 _]].
    rewrite Ef, Ef2. unfold source_lookup, index_of_source. rewrite Eurl, Ej, Eroot, <- A2.
    destruct (Hps p Hp) as [P1 [P2 [P3 P4]]].
    rewrite (source_plain md U C p) by (try assumption; lia). cbn [bind].
    assert (Hno : first_index (path_text (normal p)) (bc_get_sources L c) = None).
    { apply first_index_none. rewrite A1. intros X. apply in_map_iff in X. destruct X as [y [X _]].
      symmetry in X. revert X. apply not_url; [apply plain_normal|]; assumption. }
    rewrite Hno, (Hurl p Hp), (Hfix p Hp). cbn [bind].
    destruct (first_index_In (of_path p) (bc_get_sources L c)) as [k Ek].
    { rewrite A1. apply in_map. exact Hp. }
    rewrite Ek. reflexivity.
  Qed.
End Listed.
