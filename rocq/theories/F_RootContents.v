(** * Contents of a generator with a source root: lemmas *)
From Verif Require Import Base F_Base M_ArraySet F_ArraySet M_Mapping M_Util M_SourceMap M_Generator
  S_List S_Mapping S_Generator S_Contents S_Url S_Refs S_RootContents
  F_Mapping F_MappingList F_Generator F_GeneratorProps F_Contents
  F_UrlRef F_UrlText F_UrlKind F_UrlPath F_UrlOps F_UrlSource F_Url F_UrlProps F_Refs.

Lemma strip_way : forall a b t r, strip_common b a = (t, r) -> way a b (repeat dotdot (List.length r) ++ t).
Proof.
  induction a as [|x a IH]; intros b t r H.
  - assert (E : (t, r) = (b, [])) by (destruct b; cbn in H; congruence). injection E as -> ->.
    exists [], [], b. repeat split. intros ? ? ? X. discriminate X.
  - destruct b as [|y b].
    + cbn in H. injection H as <- <-. exists [], (x :: a), []. repeat split. intros ? ? ? _ X. discriminate X.
    + cbn in H. destruct (str_eqb y x) eqn:E.
      * apply str_eqb_eq in E. subst y. destruct (IH _ _ _ H) as [c [u [d [-> [-> [E D]]]]]].
        exists (x :: c), u, d. repeat split; assumption.
      * apply str_eqb_neq in E. injection H as <- <-. exists [], (x :: a), (y :: b). repeat split.
        intros z u d X1 X2. injection X1 as -> _. injection X2 as -> _. apply E. reflexivity.
Qed.

Lemma way_one : forall a b s s', way a b s -> way a b s' -> s = s'.
Proof.
  intros a b s s' [c [u [d [E1 [E2 [-> D]]]]]] [c' [u' [d' [E1' [E2' [-> D']]]]]].
  assert (X : u = u' /\ d = d').
  { revert c' a b E1 E2 E1' E2'. induction c as [|x c IH]; intros [|y c'] a b E1 E2 E1' E2'.
    - cbn in *. split; congruence.
    - cbn in *. exfalso. subst a b. apply (D y (c' ++ u') (c' ++ d')); [exact E1'|exact E2'].
    - cbn in *. exfalso. subst a b. symmetry in E1', E2'. eapply (D' x); [exact E1'|exact E2'].
    - cbn in *. subst a b. injection E1' as -> E1'. injection E2' as E2'.
      apply (IH c' (c ++ u) (c ++ d)); auto. }
  destruct X as [-> ->]. reflexivity.
Qed.

Lemma origin_dec : forall o o' : origin, {o = o'} + {o <> o'}.
Proof. repeat decide equality. Qed.

Lemma join_steps : forall l, join_str (lit "/") l = path_text (mkPath (removelast l) (last l [])).
Proof.
  intros l. destruct (snoc_cases _ l) as [->|[ds [f ->]]]; [reflexivity|].
  rewrite join_dirs, removelast_last, last_last. reflexivity.
Qed.

Section RootContents.
  Context (md : mode) (U : UrlLib) (C : UrlContract U).

  Lemma kinds_apart : forall root s, plain_ref root -> plain_ref s -> kind root <> kind s ->
    len (ref_text s) <= 2147483645 ->
    relative md U (ref_text root) (ref_text s) = Ok (given_text (in_order s)).
  Proof.
    intros root s Pr Ps N L. rewrite (relative_kinds md U _ _ (kind root) (kind s)).
    - apply (normalize_ref md U C); assumption.
    - apply ref_type; assumption.
    - apply ref_type; assumption.
    - exact N.
  Qed.

  Lemma relative_verdict : forall root s, plain_ref root -> plain_ref s ->
    len (ref_text root) + len (ref_text s) <= 2147483645 ->
    (at_odds root s -> relative md U (ref_text root) (ref_text s) = Panic PUnwrapErr)
    /\ (~ at_odds root s -> exists k, relative md U (ref_text root) (ref_text s) = Ok k
          /\ forall k', kept_as root s k' <-> k' = k).
  Proof.
    intros root s Pr Ps L.
    pose proof (len_nonneg _ (ref_text root)) as N1. pose proof (len_nonneg _ (ref_text s)) as N2.
    assert (K : kind root <> kind s -> relative md U (ref_text root) (ref_text s) = Ok (given_text (in_order s))).
    { intros X. apply kinds_apart; try assumption. lia. }
    destruct root as [r a b|r a b|n r a b|o r a b], s as [t q f|t q f|h t q f|o' t q f]; cbn [at_odds kind] in *.
    all: try (split; [intros []|]; intros N; rewrite K by discriminate; eexists; split; [reflexivity|];
              intros k'; unfold kept_as; split; [intros [_ Y]; exact Y|intros Y; split; [exact N|exact Y]]).
    - destruct Pr as [[H1 [H2 [H3 H4]]] Lr]. destruct Ps as [[G1 [G2 [G3 G4]]] Ls]. cbn [ref_text] in *.
      split; [|intros X; exfalso; apply X; exact I]. intros _. apply (relative_rel md U C); assumption.
    - destruct Pr as [[H1 [H2 H3]] Lr]. destruct Ps as [[G1 [G2 G3]] Ls]. cbn [ref_text] in *.
      split; [|intros X; exfalso; apply X; exact I]. intros _.
      apply (relative_abs md U C); try assumption; unfold abs_text in Lr, Ls; rewrite <- app_assoc, len_app in Lr, Ls;
        change (len (lit "/")) with 1 in Lr, Ls; lia.
    - destruct Pr as [[H1 [H2 [H3 H4]]] Lr]. destruct Ps as [[G1 [G2 [G3 G4]]] Ls]. cbn [ref_text] in *.
      split.
      + intros <-. apply (relative_net md U C); assumption.
      + intros N. exists (net_text h (resolve_from [] t) q f). split; [apply (relative_hosts md U C); assumption|].
        intros k'. unfold kept_as. split; [intros [_ Y]; exact Y|intros Y; split; [exact N|exact Y]].
    - destruct Pr as [[H1 [H2 [H3 H4]]] Lr]. destruct Ps as [[G1 [G2 [G3 G4]]] Ls]. cbn [ref_text] in *.
      split; [intros []|]. intros N.
      assert (D : o = o' \/ o <> o').
      { destruct (origin_dec o o'); auto. }
      destruct D as [<-|D].
      + eexists. split; [apply (relative_url md U C); assumption|]. intros k'. unfold kept_as, rel_parts.
        destruct (strip_common _ _) as [p s] eqn:E. apply strip_way in E. split.
        * intros [_ [Y _]]. destruct (Y eq_refl) as [st [W ->]]. rewrite <- join_steps, (way_one _ _ _ _ W E). reflexivity.
        * intros ->. split; [exact N|]. split; [|intros X; exfalso; apply X; reflexivity].
          intros _. eexists. split; [exact E|rewrite <- join_steps; reflexivity].
      + exists (url_text o' (resolve_from [] t) q f). split; [apply (relative_origins md U C); assumption|].
        intros k'. unfold kept_as. split; [intros [_ [_ Y]]; exact (Y D)|].
        intros ->. split; [exact N|]. split; [intros X; exfalso; exact (D X)|reflexivity].
  Qed.

  (** ** Histories *)
  Context (file : option str) (skip : bool) (root : ref) (Pr : plain_ref root) (key : str -> str).
  Context (names : forall s x k, written_as root s x -> kept_as root x k -> key s = k).
  Notation START := (gen_new file (Some (ref_text root)) skip).

  Notation named_ops := (named_history root).
  Notation harmless := (harmless root key).

  Lemma named_panic : forall s x p, written_as root s x -> relative md U (ref_text root) s = Panic p ->
    p = PUnwrapErr /\ at_odds root x.
  Proof.
    intros s x p [-> [Px L]] E. destruct (relative_verdict root x Pr Px L) as [V1 V2].
    assert (D : at_odds root x \/ ~ at_odds root x).
    { destruct root, x; cbn [at_odds]; auto. destruct (list_eq_dec N.eq_dec h h0); auto. }
    destruct D as [D|D].
    - rewrite (V1 D) in E. injection E as <-. auto.
    - destruct (V2 D) as [k [Ek _]]. rewrite Ek in E. discriminate E.
  Qed.

  Lemma named_ok : forall s x k, written_as root s x -> relative md U (ref_text root) s = Ok k -> ~ at_odds root x.
  Proof.
    intros s x k [-> [Px L]] E D. destruct (relative_verdict root x Pr Px L) as [V1 _].
    rewrite (V1 D) in E. discriminate E.
  Qed.

  (** [key], as far as it goes *)
  Definition total_key (s : str) : str :=
    match relative md U (ref_text root) s with Ok k => k | Panic _ => key s end.

  Lemma total_key_named : forall s x, written_as root s x -> total_key s = key s.
  Proof.
    intros s x W. unfold total_key. destruct (relative md U (ref_text root) s) as [k|] eqn:E; [|reflexivity].
    pose proof (named_ok _ _ _ W E) as N. destruct W as [-> [Px L]].
    destruct (relative_verdict root x Pr Px L) as [_ V2]. destruct (V2 N) as [k' [Ek H]].
    rewrite Ek in E. injection E as ->. symmetry. apply (names _ x); [split; [reflexivity|split; assumption]|].
    apply H. reflexivity.
  Qed.

  Lemma total_key_renamed : forall ops, (forall s c, In (GContent s c) ops -> exists x, written_as root s x) ->
    renamed total_key ops = renamed key ops.
  Proof.
    induction ops as [|[m|s c|] ops IH]; intros H; cbn [renamed].
    - reflexivity.
    - f_equal. apply IH. intros s c X. apply (H s c). right. exact X.
    - destruct (H s c (or_introl eq_refl)) as [x W]. rewrite (total_key_named s x W). f_equal.
      apply IH. intros s' c' X. apply (H s' c'). right. exact X.
    - f_equal. apply IH. intros s c X. apply (H s c). right. exact X.
  Qed.

  Lemma total_key_ok : forall s k, relative md U (ref_text root) s = Ok k -> total_key s = k.
  Proof. intros s k E. unfold total_key. rewrite E. reflexivity. Qed.

  Lemma named_prefix : forall a b, named_ops (a ++ b) -> named_ops a.
  Proof.
    intros a b [H1 H2]. split.
    - intros s c X. apply (H1 s c). apply in_or_app. left. exact X.
    - intros m s X. apply H2. rewrite added_mappings_app. apply in_or_app. left. exact X.
  Qed.

  Lemma harmless_prefix : forall a b, harmless (a ++ b) -> harmless a.
  Proof.
    intros a b [H1 H2]. split.
    - intros s c x X. apply (H1 s c). apply in_or_app. left. exact X.
    - intros before after ->. apply (H2 before (after ++ b)). rewrite <- app_assoc. reflexivity.
  Qed.

  Lemma harmless_runs : forall ops, encodable_run ops -> named_ops ops -> harmless ops ->
    exists g, gen_run md U START ops = Ok g.
  Proof.
    induction ops as [|op ops IH] using rev_ind; intros He Hn Hh.
    - eexists. reflexivity.
    - destruct (IH (encodable_prefix _ _ He) (named_prefix _ _ Hn) (harmless_prefix _ _ Hh)) as [g Eg].
      destruct (run_panic md U file (ref_text root) skip _ He) as [[g2 [Eg2 _]]|[p [Ep Rp]]]; [exists g2; exact Eg2|].
      exfalso. rewrite gen_run_snoc, Eg in Ep. cbn [bind] in Ep.
      destruct (run_panic md U file (ref_text root) skip _ (encodable_prefix _ _ He)) as [[g3 [Eg3 Hml]]|[p' [Ep' _]]];
        rewrite Eg in *; [|discriminate]. injection Eg3 as <-.
      pose proof (base_inv_run _ _ _ _ _ _ _ Eg) as HB.
      destruct op as [m|s c|]; cbn [gen_step] in Ep.
      + unfold gen_add_mapping in Ep. destruct He as [He _]. rewrite added_mappings_app in He.
        apply Forall_app in He. destruct He as [_ He]. cbn in He. inv He.
        destruct (ml_add_ok 0 i32_max window_nat md _ _ m Hml) as [l' [El _]]; [apply wf_window; apply H1|].
        rewrite El in Ep. discriminate Ep.
      + unfold gen_set_source_content in Ep. rewrite (bi_root _ _ _ _ _ HB) in Ep.
        assert (Hi : In (GContent s c) (ops ++ [GContent s c])) by (apply in_or_app; right; left; reflexivity).
        destruct (proj1 Hn s c Hi) as [x W].
        destruct (relative md U (ref_text root) s) as [k|p'] eqn:E; cbn [bind] in Ep; [discriminate|].
        apply (proj1 Hh s c x Hi W). apply (proj2 (named_panic s x p' W E)).
      + destruct (proj2 Hh ops [] eq_refl) as [Hk|Hk].
        * destruct (keyed_contents _ _ _ _ _ _ total_key_ok _ _ Eg) as [K _].
          assert (Z : g_source_contents g = []).
          { apply hm_get_all_none. intros k. rewrite K, total_key_renamed; [apply Hk|].
            apply (proj1 (named_prefix _ _ Hn)). }
          assert (G : no_contents g = g) by (destruct g; cbn in Z |- *; subst; reflexivity).
          destruct (as_json_ok md U file (Some (ref_text root)) skip (without_content ops) (no_contents g)) as [j [g' [a [ml' [Ej _]]]]].
          -- destruct HB as [B1 B2 B3 B4 B5 _ _]. split; cbn; auto; rewrite ?added_without_content; auto. discriminate.
          -- unfold encodable_run. rewrite added_without_content. apply (encodable_prefix _ _ He).
          -- rewrite added_without_content. exact Hml.
          -- right. apply no_content_without.
          -- rewrite G in Ej. rewrite Ej in Ep. discriminate Ep.
        * destruct (json_panic md U file (ref_text root) skip ops g HB (encodable_prefix _ _ He) Hml)
            as [[j [g' [Ej _]]]|[p' [Ej [s [Es Hs]]]]]; [rewrite Ej in Ep; discriminate Ep|].
          destruct Hs as [[c Hs]|[m [Hm Hs]]].
          -- destruct (proj1 (named_prefix _ _ Hn) s c Hs) as [x W].
             apply (proj1 (harmless_prefix _ _ Hh) s c x Hs W). apply (proj2 (named_panic s x p' W Es)).
          -- destruct (proj2 (named_prefix _ _ Hn) m s Hm Hs) as [x W].
             apply (Hk m s x Hm Hs W). apply (proj2 (named_panic s x p' W Es)).
  Qed.

  Lemma runs_harmless : forall ops g, named_ops ops -> gen_run md U START ops = Ok g -> harmless ops.
  Proof.
    intros ops g Hn Eg. split.
    - intros s c x Hi W. destruct (keyed_contents _ _ _ _ _ _ total_key_ok _ _ Eg) as [_ K].
      apply (named_ok s x _ W (K s c Hi)).
    - intros before after ->. rewrite gen_run_app in Eg.
      destruct (gen_run md U START before) as [gb|] eqn:H; cbn [bind gen_run gen_step] in Eg; [|discriminate].
      destruct (gen_as_json md U gb) as [[j g']|] eqn:H1; cbn [bind] in Eg; [|discriminate]. clear Eg.
      destruct (keyed_contents _ _ _ _ _ _ total_key_ok _ _ H) as [K _].
      rewrite total_key_renamed in K by apply (proj1 (named_prefix _ _ Hn)).
      destruct (g_source_contents gb) as [|[k0 v0] kv] eqn:Eg.
      + left. intros k. rewrite <- K. reflexivity.
      + right. intros m s x0 Hm Hs W.
        destruct (contents_by_key _ _ _ _ _ _ _ _ _ total_key H H1 total_key_ok) as [srcs [E1 [_ [_ E2]]]].
        destruct E2 as [E2 _].
        { exists k0. rewrite total_key_renamed by apply (proj1 (named_prefix _ _ Hn)). rewrite <- K. cbn [hm_get].
          rewrite str_eqb_refl. discriminate. }
        apply (named_ok s x0 (total_key s) W). apply E2.
        destruct (generate_arrays _ _ _ _ _ _ _ _ _ H H1) as [_ [Es _]]. rewrite Es in E1. injection E1 as <-.
        apply distinct_In, present_In, in_map_iff. exists m. auto.
  Qed.

  (** C96 *)
  Lemma keeps_exactly : forall ops, encodable_run ops -> named_ops ops ->
    (harmless (ops ++ [GJson]) ->
     exists j, observe_json md U START ops = Ok j
       /\ ((forall k, last_content k (renamed key ops) None = None) -> smj_sources_content j = None)
       /\ ((exists k, last_content k (renamed key ops) None <> None) ->
           smj_sources_content j
           = Some (present (map (fun s => last_content (key s) (renamed key ops) None)
                              (distinct (present (map m_source (added_mappings ops))))))))
    /\ (~ harmless (ops ++ [GJson]) -> observe_json md U START ops = Panic PUnwrapErr).
  Proof.
    intros ops He Hn.
    assert (Hn' : named_ops (ops ++ [GJson])).
    { destruct Hn as [N1 N2]. split.
      - intros s c X. apply in_app_or in X. destruct X as [X|[X|[]]]; [apply (N1 s c X)|discriminate X].
      - intros m s. rewrite added_mappings_app. cbn [added_mappings]. rewrite app_nil_r. apply N2. }
    assert (He' : encodable_run (ops ++ [GJson])).
    { unfold encodable_run. rewrite added_mappings_app. cbn [added_mappings]. rewrite app_nil_r. exact He. }
    split.
    - intros Hh. destruct (harmless_runs _ He' Hn' Hh) as [g2 E]. rewrite gen_run_snoc in E.
      destruct (gen_run md U START ops) as [g|] eqn:H; cbn [bind gen_step] in E; [|discriminate].
      destruct (gen_as_json md U g) as [[j g']|] eqn:H0; cbn [bind] in E; [|discriminate]. clear E. exists j. split.
      { unfold observe_json. rewrite H. cbn [bind]. rewrite H0. reflexivity. }
      destruct (contents_by_key _ _ _ _ _ _ _ _ _ total_key H H0 total_key_ok) as [srcs [E1 [_ [E2 E3]]]].
      rewrite total_key_renamed in E2, E3 by apply (proj1 Hn).
      split; [exact E2|]. intros X. destruct (E3 X) as [_ ->]. f_equal. f_equal.
      destruct (generate_arrays _ _ _ _ _ _ _ _ _ H H0) as [_ [Es _]]. rewrite Es in E1. injection E1 as <-.
      apply map_ext_in. intros s Hs. apply (proj1 (distinct_In _ _)) in Hs. apply present_In in Hs.
      apply in_map_iff in Hs. destruct Hs as [m [Em Hm]].
      destruct (proj2 Hn m s Hm Em) as [x W]. rewrite (total_key_named s x W). reflexivity.
    - intros Hh. destruct (observe_json md U START ops) as [j|p] eqn:E.
      + exfalso. apply Hh. unfold observe_json in E.
        destruct (gen_run md U START ops) as [g|] eqn:H; cbn [bind] in E; [|discriminate].
        destruct (gen_as_json md U g) as [[j' g']|] eqn:H0; cbn [bind] in E; [|discriminate].
        apply (runs_harmless _ g' Hn'). rewrite gen_run_snoc, H. cbn [bind gen_step]. rewrite H0. reflexivity.
      + f_equal. destruct He as [He1 He2].
        destruct (only_relative_panics md U file (ref_text root) skip ops p He1 He2) as [s [Es Hs]].
        * unfold observe_json in E. destruct (gen_run md U START ops) as [g|]; cbn [bind] in *; [|congruence].
          destruct (gen_as_json md U g); cbn [bind] in *; congruence.
        * assert (W : exists x, written_as root s x).
          { destruct Hs as [[c Hs]|[m [Hm Hs]]]; [apply (proj1 Hn s c Hs)|apply (proj2 Hn m s Hm Hs)]. }
          destruct W as [x W]. apply (proj1 (named_panic s x p W Es)).
  Qed.
End RootContents.

Lemma key_exists : forall root, plain_ref root ->
  exists key : str -> str, forall s x k, written_as root s x -> kept_as root x k -> key s = k.
Proof.
  intros root Pr.
  exists (fun s => match relative Debug RefUrl (ref_text root) s with Ok k => k | Panic _ => [] end).
  intros s x k [-> [Px L]] [N K].
  destruct (relative_verdict Debug RefUrl RefUrl_ok root x Pr Px L) as [_ V]. destruct (V N) as [k' [-> H]].
  symmetry. apply H. split; assumption.
Qed.
