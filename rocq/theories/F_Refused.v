(** * C83: references that the url crate refuses *)
From Verif Require Import Base F_Base M_ArraySet M_Mapping M_Util M_SourceMap M_Json M_MapLib M_Generator M_Consumer
  M_Indexed S_Json S_Consumer S_UrlKind S_Refused F_Json F_Dispatch F_Consumer F_UrlKind F_UrlSource.

Lemma panic_not_ok : forall A (m : res A), (forall a, m <> Ok a) -> is_panic m.
Proof. intros A [a|p] H; [exfalso; apply (H a); reflexivity|exists p; reflexivity]. Qed.

Section Refused.
  Context (md : mode) (U : UrlLib).

  Lemma refused_handler : forall cb s, refused U s -> is_panic (safe_handler md U cb s).
  Proof.
    intros cb s H. apply panic_not_ok. intros a E. unfold safe_handler in E. bind_inv E. bind_inv E. bind_inv E.
    rewrite H in E. discriminate.
  Qed.

  Lemma refused_with_base : forall s b, refused U s -> is_panic (with_base U s (Some b)).
  Proof.
    intros s b H. apply panic_not_ok. intros a E. unfold with_base in E. bind_inv E. rewrite H in E. discriminate.
  Qed.

  Lemma refused_root : forall r s, refused U r -> is_panic (url_join md U r s).
  Proof.
    intros r s H. apply panic_not_ok. intros a E. unfold url_join in E. bind_inv E. bind_inv E. bind_inv E.
    destruct (refused_handler (ensure_directory_cb U) r H) as [p E']. unfold ENSURE_DIRECTORY in *. congruence.
  Qed.

  Lemma refused_path : forall r s, refused U s -> ~ has_scheme s -> is_panic (url_join md U r s).
  Proof.
    intros r s H N. apply panic_not_ok. intros a E. unfold url_join in E.
    apply bind_ok in E. destruct E as [pt [Ept E]]. apply bind_ok in E. destruct E as [rt [_ E]].
    apply bind_ok in E. destruct E as [d [_ E]].
    assert (B : forall b x, with_base U s (Some b) <> Ok x).
    { intros b x Eb. destruct (refused_with_base s b H) as [p Ep]. congruence. }
    assert (Z : forall x, NORMALIZE md U s <> Ok x).
    { intros x Eb. destruct (refused_handler (fun u => u) s H) as [p Ep]. unfold NORMALIZE in *. congruence. }
    destruct (url_type_eqb pt Absolute) eqn:E1.
    { destruct pt; try discriminate. apply url_kind in Ept. exact (N Ept). }
    destruct (url_type_eqb rt Absolute); [exact (B _ _ E)|].
    destruct (url_type_eqb pt SchemeRelative); [exact (Z _ E)|].
    destruct (url_type_eqb rt SchemeRelative).
    { apply bind_ok in E. destruct E as [b [_ E]]. apply bind_ok in E. destruct E as [x [E _]]. exact (B _ _ E). }
    destruct (url_type_eqb pt PathAbsolute); [exact (Z _ E)|].
    destruct (url_type_eqb rt PathAbsolute).
    { apply bind_ok in E. destruct E as [b [_ E]]. apply bind_ok in E. destruct E as [x [E _]]. exact (B _ _ E). }
    apply bind_ok in E. destruct E as [b [_ E]]. apply bind_ok in E. destruct E as [b' [_ E]].
    apply bind_ok in E. destruct E as [x [E _]]. exact (B _ _ E).
  Qed.

  Lemma url_path_unchecked : forall r s a, has_scheme s -> url_join md U r s = Ok a -> a = s.
  Proof.
    intros r s a H E. unfold url_join in E. bind_inv E. bind_inv E. bind_inv E.
    assert (K : get_url_type s = Ok Absolute) by (apply url_kind; exact H).
    match goal with H1 : get_url_type s = Ok ?x |- _ => rewrite K in H1; injection H1 as <- end.
    cbn [url_type_eqb with_base] in E. congruence.
  Qed.

  Lemma refused_relative : forall r s, refused U s -> is_panic (relative md U r s).
  Proof.
    intros r s H. apply panic_not_ok. intros a E. unfold relative in E. apply bind_ok in E. destruct E as [o [Eo E]].
    destruct o as [x|].
    - unfold replace_if_possible in Eo. bind_inv Eo. bind_inv Eo. destruct (negb _); [discriminate|].
      bind_inv Eo. bind_inv Eo. bind_inv Eo. bind_inv Eo. rewrite H in Eo. discriminate.
    - destruct (refused_handler (fun u => u) s H) as [p Ep]. unfold NORMALIZE in *. congruence.
  Qed.

  Lemma refused_source : forall sr s mu, refused U s -> sr = None \/ ~ one_slash s ->
    is_panic (compute_source_url md U sr s mu).
  Proof.
    intros sr s mu H Hs. apply panic_not_ok. intros a E. unfold compute_source_url in E.
    apply bind_ok in E. destruct E as [s' [Es E]].
    assert (s' = s) as ->.
    { destruct sr as [r|]; [|congruence]. apply bind_ok in Es. destruct Es as [t [Et Es]].
      destruct (url_type_eqb t PathAbsolute) eqn:E1; [|congruence]. exfalso.
      destruct t; try discriminate. apply url_kind in Et. destruct Hs as [Hs|Hs]; [discriminate|]. exact (Hs Et). }
    apply bind_ok in E. destruct E as [n [En _]].
    destruct (refused_handler (fun u => u) s H) as [p Ep]. unfold NORMALIZE in *. congruence.
  Qed.

  (** the '/' goes first *)
  Lemma refused_slash : forall r s mu, refused U s -> one_slash (lit "/" ++ s) ->
    is_panic (compute_source_url md U (Some r) (lit "/" ++ s) mu).
  Proof.
    intros r s mu H Hs. apply panic_not_ok. intros a E. unfold compute_source_url in E.
    apply bind_ok in E. destruct E as [s' [Es E]]. apply bind_ok in Es. destruct Es as [t [Et Es]].
    assert (K : get_url_type (lit "/" ++ s) = Ok PathAbsolute) by (apply url_kind; exact Hs).
    rewrite K in Et. injection Et as <-. cbn [url_type_eqb] in Es. injection Es as <-.
    change (remove_first_slash (lit "/" ++ s)) with s in E. apply bind_ok in E. destruct E as [n [En _]].
    destruct (refused_handler (fun u => u) s H) as [p Ep]. unfold NORMALIZE in *. congruence.
  Qed.

  Lemma refused_source_root : forall r s mu, refused U r -> is_panic (compute_source_url md U (Some r) s mu).
  Proof.
    intros r s mu H. apply panic_not_ok. intros a E. unfold compute_source_url in E.
    apply bind_ok in E. destruct E as [s' [_ E]]. apply bind_ok in E. destruct E as [n [_ E]].
    apply bind_ok in E. destruct E as [j [Ej _]]. destruct (refused_root r n H) as [p Ep]. congruence.
  Qed.

  Lemma refused_map_url : forall sr s m, refused U m -> is_panic (compute_source_url md U sr s (Some m)).
  Proof.
    intros sr s m H. apply panic_not_ok. intros a E. rewrite source_map in E.
    apply bind_ok in E. destruct E as [s' [_ E]]. apply bind_ok in E. destruct E as [d [Ed _]].
    destruct (refused_handler (trim_filename_cb U) m H) as [p Ep]. unfold TRIM_FILENAME in *. congruence.
  Qed.

  Definition refused_part (m : SourceMapJson) (srcs : list str) (url : option str) : Prop :=
    (exists x, In x srcs /\ refused U x /\ (smj_source_root m = None \/ ~ one_slash x))
    \/ (srcs <> [] /\ ((exists r, smj_source_root m = Some r /\ refused U r)
                       \/ (exists u, url = Some u /\ refused U u))).

  Lemma refused_not_computed : forall m srcs url, refused_part m srcs url ->
    ~ Forall (fun x => exists u, compute_source_url md U (smj_source_root m) x url = Ok u) srcs.
  Proof.
    intros m srcs url [[x [Hx [R S]]]|[N S]] F; rewrite Forall_forall in F.
    - destruct (F x Hx) as [u H]. destruct (refused_source _ x url R S) as [p E]. congruence.
    - destruct srcs as [|x srcs]; [congruence|]. destruct (F x (or_introl eq_refl)) as [u H].
      destruct S as [[r [E R]]|[v [E R]]]; rewrite E in H.
      + destruct (refused_source_root r x url R) as [p Ep]. congruence.
      + destruct (refused_map_url (smj_source_root m) x v R) as [p Ep]. congruence.
  Qed.

  Lemma refused_not_opened : forall L order s url m srcs, map_text s m ->
    smj_sections m = None -> smj_sources m = Some srcs -> refused_part m srcs url ->
    is_panic (create_consumer md L U order s url).
  Proof.
    intros L order s url m srcs T S E H.
    destruct (create_dispatch md L U order s url) as [D1 D2]. destruct (D2 m T) as [D3 [_ D5]].
    destruct (create_consumer md L U order s url) as [[c|]|p] eqn:C.
    - exfalso. destruct (D3 c eq_refl) as [[_ [b [-> _]]]|[N _]]; [|congruence].
      apply (refused_not_computed m srcs url H). apply (D5 srcs S E). exists b. reflexivity.
    - exfalso. apply (proj1 D1 eq_refl). exists m. exact T.
    - exists p. reflexivity.
  Qed.

  Lemma refused_not_new : forall L s url m srcs, map_text s m ->
    smj_sources m = Some srcs -> refused_part m srcs url -> is_panic (bc_new md L U s url).
  Proof.
    intros L s url m srcs T E H. apply smj_from_str_iff in T. unfold bc_new. rewrite T.
    cbn [unwrap_ok bind]. unfold compute_absolute_sources. rewrite E. cbn.
    destruct (mapM _ srcs) as [r|p] eqn:M; [|exists p; reflexivity].
    exfalso. apply (refused_not_computed m srcs url H). apply mapM_ok_iff. exists r. exact M.
  Qed.

  Lemma refused_query : forall L c0 qs c src, opened md L U c0 -> asked md L U c0 qs = Ok c -> refused U src ->
    is_panic (bc_find_source_index md L U c src)
    /\ (forall line column b, is_panic (bc_generated_position_for md L U c src line column b))
    /\ (forall line column, is_panic (bc_all_generated_position_for md L U c src line column))
    /\ (forall p, smj_sources_content (bc_source_map c) <> None -> is_panic (bc_source_content_for md L U c src p)).
  Proof.
    intros L c0 qs c src Ho Ha H.
    assert (F : is_panic (bc_find_source_index md L U c src)).
    { pose proof (opened_fresh md L U c0 Ho) as Hf.
      pose proof (asked_follows md L U c0 qs c0 c Hf (follows_refl md L U c0 Hf) Ha) as Hc.
      unfold bc_find_source_index. destruct (hm_get src (bc_source_lookup_cache c)) as [i|] eqn:Ec.
      - exfalso. destruct (fo_cache _ _ _ _ _ Hc _ _ Ec) as [c' E]. unfold bc_find_source_index in E.
        rewrite (fr_cache _ _ Hf) in E. cbn [hm_get] in E.
        destruct (refused_source None src (bc_source_map_url c0) H (or_introl eq_refl)) as [p Ep]. rewrite Ep in E. discriminate.
      - destruct (refused_source None src (bc_source_map_url c) H (or_introl eq_refl)) as [p Ep]. rewrite Ep.
        exists p. reflexivity. }
    split; [exact F|]. destruct F as [p F]. split; [|split].
    - intros line column b. unfold bc_generated_position_for. rewrite F. exists p. reflexivity.
    - intros line column. unfold bc_all_generated_position_for. rewrite F. exists p. reflexivity.
    - intros q Hn. unfold bc_source_content_for. destruct (smj_sources_content _); [|contradiction Hn; reflexivity].
      rewrite F. exists p. reflexivity.
  Qed.

  Lemma refused_content : forall g r file content, g_source_root g = Some r -> refused U file ->
    is_panic (gen_set_source_content md U g file content).
  Proof.
    intros g r file content E H. unfold gen_set_source_content. rewrite E.
    destruct (refused_relative r file H) as [p ->]. exists p. reflexivity.
  Qed.
End Refused.
