(** * Sources with spaces and characters beyond ASCII in a consumer *)
From Verif Require Import Base F_Base M_ArraySet M_Mapping M_Util M_SourceMap M_Generator M_Json M_MapLib M_Consumer M_Indexed
  S_List S_Url S_Escape S_MapLib S_Consumer S_EndToEnd F_ArraySet F_UrlPath F_UrlOps F_Url F_UrlSource F_UrlProps F_Escape F_EscapeUrl
  F_Consumer F_ConsumerProps F_Listed.

Section Written.
  Context (md : mode) (L : MapLib) (U : UrlLib) (C : UrlContract U).

  Lemma lookup_escape : forall c0 qs c s, opened md L U c0 -> asked md L U c0 qs = Ok c -> len (bc_get_sources L c0) < 2^31 ->
    escapable s -> escapable (taken (smj_source_root (bc_source_map c0)) s) ->
    match smj_source_root (bc_source_map c0) with Some r => escapable r | None => True end ->
    match bc_source_map_url c0 with Some u => escapable u | None => True end ->
    answer (bc_find_source_index md L U c s) = answer (bc_find_source_index md L U c (escape s)).
  Proof.
    intros c0 qs c s Ho H Hl Hs Ht Hr Hu.
    destruct (source_lookup_stable md L U c0 qs c s Ho H Hl) as [_ [E1 _]].
    destruct (source_lookup_stable md L U c0 qs c (escape s) Ho H Hl) as [_ [E2 _]]. rewrite E1, E2.
    unfold source_lookup, index_of_source.
    rewrite (source_escape_name md U C None s) by (try assumption; exact I).
    rewrite (source_escape_name md U C (smj_source_root (bc_source_map c0)) s) by assumption. reflexivity.
  Qed.

  Lemma in_root_escape : forall r p, normal (in_root (option_map escaped_path r) (escaped_path p)) = escaped_path (normal (in_root r p)).
  Proof. intros [r|] p; cbn [option_map in_root]; [rewrite escape_below|]; apply escape_normal. Qed.

  Lemma listed_written : forall j c0 qs c r ps,
    (bc_from_source_map_json md L U j None = Ok c0 \/ exists s, bc_new md L U s None = Ok c0 /\ smj_from_str s = Some j) ->
    asked md L U c0 qs = Ok c ->
    smj_sources j = Some (map path_text ps) -> smj_source_root j = option_map path_text r ->
    len ps < 2^31 ->
    match r with
    | Some r => written_path r /\ 2 <= len (path_text r) /\ len (escape (path_text r)) <= 1073741820
    | None => True
    end ->
    Forall (fun p => written_path p /\ 2 <= len (path_text p) /\ len (escape (path_text p)) <= 1073741820
                     /\ 2 <= len (escape (path_text (normal p))) /\ 2 <= len (escape (path_text (normal (in_root r p))))) ps ->
    bc_get_sources L c = map (fun p => escape (path_text (normal (in_root r p)))) ps
    /\ (forall u, In u (bc_get_sources L c) -> exists k,
          answer (bc_find_source_index md L U c u) = Ok (Some (Z.of_nat k))
          /\ nth_error (bc_get_sources L c) k = Some u
          /\ (forall i, nth_error (bc_get_sources L c) i = Some u -> (k <= i)%nat))
    /\ (forall p, In p ps -> exists k,
          answer (bc_find_source_index md L U c (path_text p)) = Ok (Some (Z.of_nat k))
          /\ (nth_error (bc_get_sources L c) k = Some (escape (path_text (normal p)))
              \/ nth_error (bc_get_sources L c) k = Some (escape (path_text (normal (in_root r p)))))).
  Proof.
    intros j c0 qs c r ps Ho H Esrc Eroot Hl Hr Hps.
    destruct (opened_urls md L U j c0 Ho) as [Hop [Eurl [Ej [sources [Es Em]]]]].
    rewrite Esrc in Es. injection Es as <-. rewrite Eroot in Em.
    rewrite Forall_forall in Hps.
    assert (Hone : forall p, In p ps ->
      compute_source_url md U (option_map path_text r) (path_text p) None = Ok (escape (path_text (normal (in_root r p))))).
    { intros p Hp. destruct (Hps p Hp) as [P1 [P2 [P3 [P4 P5]]]]. destruct r as [r|]; cbn [option_map in_root].
      - destruct Hr as [R1 [R2 R3]]. apply (root_written md U C r p); try assumption; lia.
      - apply (source_written md U C); try assumption; lia. }
    assert (Esources : bc_get_sources L c0 = map (fun p => escape (path_text (normal (in_root r p)))) ps).
    { clear - Em Hone. revert Em. cbn [option_map]. generalize (bc_get_sources L c0).
      induction ps as [|p ps IH]; intros l Em; cbn in Em.
      - injection Em as <-. reflexivity.
      - rewrite (Hone p (or_introl eq_refl)) in Em. cbn [bind] in Em.
        destruct (mapM _ (map path_text ps)) as [ys|e] eqn:E; [|discriminate]. cbn in Em. injection Em as <-.
        cbn. f_equal. apply IH; [|reflexivity]. intros q Hq. apply Hone. right. exact Hq. }
    assert (Hlen : len (bc_get_sources L c0) < 2^31).
    { rewrite Esources. unfold len in *. rewrite map_length. exact Hl. }
    destruct (source_lookup_stable md L U c0 qs c [] Hop H Hlen) as [Ec _].
    assert (Hnorm : forall p, In p ps -> plain_path (escaped_path (in_root r p)) /\ len (escape (path_text (normal (in_root r p)))) <= 2147483645).
    { intros p Hp. destruct (Hps p Hp) as [P1 [P2 [P3 [P4 P5]]]]. rewrite escape_path in P3.
      rewrite escape_path, <- escape_normal.
      destruct r as [r|]; cbn [in_root].
      - destruct Hr as [R1 [R2 R3]]. rewrite escape_path in R3. rewrite <- escape_below.
        split; [apply below_plain; apply written_path_plain; assumption|].
        pose proof (len_normal (below (escaped_path r) (escaped_path p))) as X. pose proof (len_below (escaped_path r) (escaped_path p)) as Y. lia.
      - split; [apply written_path_plain; assumption|]. pose proof (len_normal (escaped_path p)). lia. }
    split; [rewrite Ec; exact Esources|]. split.
    - intros u Hu. rewrite Ec in Hu. apply (listed_fixed md L U c0 qs c u Hop H Hlen Hu). rewrite Eurl.
      rewrite Esources in Hu. apply in_map_iff in Hu. destruct Hu as [p [<- Hp]].
      destruct (Hnorm p Hp) as [N1 N2]. destruct (Hps p Hp) as [_ [_ [_ [_ P5]]]].
      rewrite escape_path, <- escape_normal in P5, N2 |- *.
      rewrite (source_plain md U C (normal (escaped_path (in_root r p)))); [rewrite normal_idem; reflexivity | apply plain_normal; assumption | lia].
    - intros p Hp. destruct (source_lookup_stable md L U c0 qs c (path_text p) Hop H Hlen) as [_ [Ef _]].
      rewrite Ef. unfold source_lookup, index_of_source. rewrite Eurl, Ej, Eroot.
      destruct (Hps p Hp) as [P1 [P2 [P3 [P4 P5]]]].
      rewrite (source_written md U C p) by (try assumption; lia). cbn [bind].
      destruct (first_index (escape (path_text (normal p))) (bc_get_sources L c0)) as [k|] eqn:Ek.
      + exists k. split; [reflexivity|]. left. rewrite Ec. apply (first_index_some _ _ _ Ek).
      + rewrite (Hone p Hp). cbn [bind].
        destruct (first_index_In (escape (path_text (normal (in_root r p)))) (bc_get_sources L c0)) as [k Ek'].
        { rewrite Esources. apply in_map_iff. exists p. auto. }
        rewrite Ek'. exists k. split; [reflexivity|]. right. rewrite Ec. apply (first_index_some _ _ _ Ek').
  Qed.
End Written.
