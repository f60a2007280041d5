(** * The URL properties in the form of P_Url.v *)
From Verif Require Import Base F_Base M_Util M_Generator S_Url F_Dec F_UrlText F_UrlPath F_UrlOps F_Url F_UrlSource.

(** ** C31: short inputs *)
Lemma normalize_short : forall md U s, len s < 2 -> NORMALIZE md U s = Panic PUnwrapNone.
Proof. intros md U s H. unfold NORMALIZE, safe_handler. rewrite type_short by exact H. reflexivity. Qed.

Lemma short_source : forall md U root s m, len s < 2 ->
  compute_source_url md U root s m = Panic PUnwrapNone.
Proof.
  intros md U root s m H. unfold compute_source_url. destruct root.
  - rewrite type_short by exact H. reflexivity.
  - cbn [bind]. rewrite normalize_short by exact H. reflexivity.
Qed.

Lemma short_join_path : forall md U root p, len p < 2 -> url_join md U root p = Panic PUnwrapNone.
Proof. intros. unfold url_join. rewrite type_short by assumption. reflexivity. Qed.

Lemma short_join_root : forall md U root p, len root < 2 -> url_join md U root p = Panic PUnwrapNone.
Proof.
  intros md U root p H. unfold url_join. rewrite (type_short root) by exact H.
  destruct (get_url_type p) as [t|e] eqn:E; [reflexivity|].
  unfold get_url_type in E. destruct p as [|a [|b p]]; [injection E as <-; reflexivity..|].
  destruct (N.eqb a c_slash); discriminate E.
Qed.

Lemma short_join : forall md U root p, len root < 2 \/ len p < 2 -> url_join md U root p = Panic PUnwrapNone.
Proof. intros md U root p [H|H]; [apply short_join_root|apply short_join_path]; exact H. Qed.

Lemma short_root : forall md U root s m t, len root < 2 -> compute_source_url md U (Some root) s m <> Ok t.
Proof.
  intros md U root s m t H E. unfold compute_source_url in E.
  apply bind_ok in E. destruct E as [s' [E1 E]]. apply bind_ok in E. destruct E as [n [E2 E]].
  rewrite short_join_root in E by exact H. discriminate.
Qed.

Lemma short_map : forall md U root s m t, len m < 2 -> compute_source_url md U root s (Some m) <> Ok t.
Proof.
  intros md U root s m t H E. rewrite source_map in E.
  apply bind_ok in E. destruct E as [s' [E1 E]]. unfold TRIM_FILENAME, safe_handler in E.
  rewrite type_short in E by exact H. discriminate.
Qed.

Lemma short_relative : forall md U root target, len root < 2 \/ len target < 2 ->
  relative md U root target = Panic PUnwrapNone.
Proof.
  intros md U root target H. unfold relative, replace_if_possible.
  destruct (Z_lt_dec (len root) 2) as [L|L].
  - rewrite type_short by exact L. reflexivity.
  - assert (exists t, get_url_type root = Ok t) as [t E].
    { destruct root as [|a [|b r]]; try (cbn in L; lia). unfold get_url_type.
      destruct (N.eqb a c_slash); eauto. }
    rewrite E. rewrite (type_short target) by (destruct H; [contradiction|assumption]). reflexivity.
Qed.

(** ** C32 *)
Lemma segment_ok : forall md input, len input <= 2147483645 ->
  exists t n, decimal t n /\ build_unique_segment md (lit "p") input = Ok (lit "p" ++ t)
    /\ ~ substring (lit "p" ++ t) input
    /\ (forall t' m, decimal t' m -> m < n -> substring (lit "p" ++ t') input).
Proof.
  intros md input B. destruct (unique_segment input md B) as [j [E1 [E2 E3]]].
  exists (dec_str (N.of_nat j)), (Z.of_N (N.of_nat j)). split; [apply dec_str_decimal|].
  split; [exact E1|]. split.
  - intros S. apply contains_iff in S. unfold ident in E2. congruence.
  - intros t' m D L.
    assert (exists i, m = Z.of_nat i /\ t' = dec_str (N.of_nat i)) as [i [-> ->]].
    { pose proof (decimal_iff t' m) as [F _]. specialize (F D).
      assert (0 <= m) by (clear -D; induction D; lia).
      exists (Z.to_nat m). split; [lia|].
      pose proof (dec_str_decimal (N.of_nat (Z.to_nat m))) as D2.
      replace (Z.of_N (N.of_nat (Z.to_nat m))) with m in D2 by lia.
      clear -D D2.
      apply (decimal_text _ _ m); assumption. }
    apply contains_iff. apply E3. lia.
Qed.

Lemma base_text_ok : forall md input, len input <= 2147483645 ->
  exists seg k, build_unique_segment md (lit "p") input = Ok seg /\ max_dotdots input k
    /\ build_safe_base md input = Ok (lit "http://host/" ++ dirs_text (repeat seg k)).
Proof.
  intros md input B. destruct (unique_segment input md B) as [j [E1 _]].
  exists (ident j), (count_dotdot input). split; [exact E1|]. split; [apply count_max|].
  unfold build_safe_base. rewrite E1. cbn [bind]. unfold dirs_text. rewrite map_repeat'. reflexivity.
Qed.

(** ** C33 *)
Lemma normal_form_ok : forall p,
  in_normal_form (normal p) /\ same_place p (normal p)
  /\ forall p', in_normal_form p' -> same_place p p' -> p' = normal p.
Proof.
  intros p. split; [apply normal_in_nf|]. split; [apply normal_same|].
  intros p' N S. apply normal_unique; [exact N|apply normal_in_nf|].
  intros at_. rewrite <- (S at_). apply normal_same.
Qed.

(** ** C56: relative, then join *)
Lemma strip_spec : forall b a t r, strip_common b a = (t, r) -> exists c, b = c ++ t /\ a = c ++ r.
Proof.
  induction b as [|x b IH]; intros a t r E.
  - cbn in E. inv E. exists []. split; reflexivity.
  - destruct a as [|y a]; [cbn in E; inv E; exists []; split; reflexivity|].
    cbn in E. destruct (str_eqb x y) eqn:Exy.
    + apply str_eqb_eq in Exy. subst y. apply IH in E. destruct E as [c [-> ->]]. exists (x :: c). split; reflexivity.
    + inv E. exists []. split; reflexivity.
Qed.

Lemma fold_move_up : forall r c, fold_left move (repeat dotdot (List.length r)) (c ++ r) = c.
Proof.
  induction r as [|x r IH] using rev_ind; intros c; [apply app_nil_r|].
  rewrite app_length, Nat.add_comm. cbn [List.length Nat.add repeat fold_left].
  rewrite app_assoc, move_dotdot_snoc. apply IH.
Qed.

Section Props.
  Context (md : mode) (U : UrlLib) (C : UrlContract U).

  Lemma relative_join : forall o r q f t,
    plain_origin o -> clean_path r -> plain_opt q -> plain_opt f -> clean_path t ->
    len (url_text o r q f) + len (url_text o t None None) <= 2147483645 ->
    ~ (exists ext, as_dirs r = (dirs t ++ [file t]) ++ ext) ->
    exists p, plain_path p
      /\ relative md U (url_text o r q f) (url_text o t None None) = Ok (path_text p)
      /\ (2 <= len (path_text p) ->
          url_join md U (url_text o r q f) (path_text p) = Ok (url_text o t None None)).
  Proof.
    intros o r q f t Ho Hr Hq Hf Ht L Hx.
    rewrite (relative_url md U C) by (try assumption; try exact I; apply clean_plain; assumption).
    rewrite !resolve_clean by assumption. cbn [glue]. rewrite !app_nil_r. unfold rel_parts.
    destruct (strip_common (dirs t ++ [file t]) (as_dirs r)) as [tp rp] eqn:E.
    apply strip_spec in E. destruct E as [c [E1 E2]].
    destruct (snoc_cases _ tp) as [->|[t' [x ->]]].
    { exfalso. apply Hx. exists rp. rewrite E1, app_nil_r. exact E2. }
    rewrite app_assoc in E1. apply app_inj_tail in E1. destruct E1 as [Ed Ef]. subst x.
    exists (mkPath (repeat dotdot (List.length rp) ++ t') (file t)).
    destruct Ht as [[T1 T2] [T3 T4]]. rewrite Ed in T1, T3.
    apply Forall_app in T1. apply Forall_app in T3.
    assert (Hp : plain_path (mkPath (repeat dotdot (List.length rp) ++ t') (file t))).
    { split; cbn [dirs file]; [|exact T2]. apply Forall_app. split; [|apply T1].
      apply Forall_forall. intros y Hy. apply repeat_spec in Hy. subst y. apply plain_dotdot. }
    split; [exact Hp|]. split.
    - rewrite app_assoc, join_dirs. reflexivity.
    - intros Lp.
      rewrite (join_ur md U C) by (try assumption; try (apply clean_plain; assumption);
        pose proof (len_nonneg _ (url_text o t None None)); lia).
      f_equal. f_equal. rewrite below_resolve.
      assert (Dr : fold_left move (as_dirs r) [] = as_dirs r).
      { rewrite fold_move_proper; [reflexivity|]. apply (clean_dir r Hr). }
      rewrite Dr, E2, resolve_eq. unfold file_dirs, file_of. cbn [dirs file].
      destruct (is_dot_proper _ T4) as [-> ->]. cbn [orb]. rewrite app_nil_r, fold_left_app, fold_move_up.
      rewrite fold_move_proper by apply T3. rewrite <- Ed. destruct t; reflexivity.
  Qed.

  (** the names of the target begin the names of the root *)
  Lemma strip_prefix : forall b ext, strip_common b (b ++ ext) = ([], ext).
  Proof.
    induction b as [|x b IH]; intros ext; [destruct ext; reflexivity|]. cbn.
    replace (str_eqb x x) with true by (symmetry; apply str_eqb_eq; reflexivity). apply IH.
  Qed.

  Lemma relative_prefix : forall o r q f t ext,
    plain_origin o -> clean_path r -> plain_opt q -> plain_opt f -> clean_path t ->
    len (url_text o r q f) + len (url_text o t None None) <= 2147483645 ->
    as_dirs r = (dirs t ++ [file t]) ++ ext ->
    let climb := join_str (lit "/") (repeat dotdot (List.length ext)) in
    relative md U (url_text o r q f) (url_text o t None None) = Ok climb
    /\ url_join md U (url_text o r q f) climb
       = (if ext then Panic PUnwrapNone else Ok (url_text o (mkPath (dirs t ++ [file t]) []) None None))
    /\ url_text o (mkPath (dirs t ++ [file t]) []) None None <> url_text o t None None.
  Proof.
    intros o r q f t ext Ho Hr Hq Hf Ht L E climb. split; [|split].
    - rewrite (relative_url md U C) by (try assumption; try exact I; apply clean_plain; assumption).
      rewrite !resolve_clean by assumption. cbn [glue]. rewrite !app_nil_r. unfold rel_parts.
      rewrite E, strip_prefix, app_nil_r. reflexivity.
    - destruct ext as [|x ext].
      + apply short_join. right. subst climb. cbn. lia.
      + assert (Ec : climb = path_text (mkPath (repeat dotdot (List.length ext)) dotdot)).
        { subst climb. cbn [List.length].
          replace (repeat dotdot (S (List.length ext))) with (repeat dotdot (List.length ext) ++ [dotdot])
            by (symmetry; apply repeat_cons). rewrite join_dirs. reflexivity. }
        rewrite Ec.
        assert (Hp : plain_path (mkPath (repeat dotdot (List.length ext)) dotdot)).
        { split; cbn [dirs file]; [|apply plain_dotdot].
          apply Forall_forall. intros y Hy. apply repeat_spec in Hy. subst y. apply plain_dotdot. }
        assert (L2 : 2 <= len (path_text (mkPath (repeat dotdot (List.length ext)) dotdot))).
        { unfold path_text. cbn [dirs file]. rewrite len_app. pose proof (len_nonneg _ (dirs_text (repeat dotdot (List.length ext)))).
          change (len dotdot) with 2. lia. }
        rewrite (join_ur md U C) by (try assumption; try (apply clean_plain; assumption);
          pose proof (len_nonneg _ (url_text o t None None)); lia).
        f_equal. f_equal. rewrite below_resolve.
        assert (Dr : fold_left move (as_dirs r) [] = as_dirs r).
        { rewrite fold_move_proper; [reflexivity|]. apply (clean_dir r Hr). }
        rewrite Dr, E, resolve_eq. unfold file_dirs, file_of. cbn [dirs file].
        change (is_dot dotdot) with false. change (is_dotdot dotdot) with true. cbn [orb].
        rewrite <- repeat_cons. change (dotdot :: repeat dotdot (List.length ext)) with (repeat dotdot (List.length (x :: ext))).
        rewrite fold_move_up. reflexivity.
    - unfold url_text. intros X. cbn [tail_text] in X.
      assert (Y : len (path_text (mkPath (dirs t ++ [file t]) [])) = len (path_text t)).
      { apply (f_equal (@len _)) in X. unfold abs_text in X. rewrite !len_app in X. cbn [len List.length] in X. lia. }
      unfold path_text in Y. cbn [dirs file] in Y. rewrite dirs_text_app in Y. rewrite !len_app in Y.
      cbn in Y. rewrite ?len_app in Y. cbn in Y. unfold len in Y. cbn in Y. lia.
  Qed.

  (** ** C37 *)
  Lemma relative_kinds' : forall root target t t', get_url_type root = Ok t -> get_url_type target = Ok t' -> t <> t' ->
    relative md U root target = compute_source_url md U None target None.
  Proof. intros. rewrite source_none. eapply relative_kinds; eassumption. Qed.

  Lemma content_rel : forall g r s c, g_source_root g = Some (path_text r) -> plain_path r -> plain_path s ->
    2 <= len (path_text r) -> 2 <= len (path_text s) -> len (path_text r) + len (path_text s) <= 2147483645 ->
    gen_set_source_content md U g (path_text s) c = Panic PUnwrapErr.
  Proof.
    intros g r s c E Hr Hs L1 L2 L. unfold gen_set_source_content. rewrite E.
    pose proof (relative_rel md U C r None None s None None Hr) as R. cbn [tail_text app] in R. rewrite !app_nil_r in R.
    rewrite R; try assumption; try exact I; try (apply len_nonempty; lia). reflexivity.
  Qed.

  Lemma content_abs : forall g r s c, g_source_root g = Some (abs_text r) -> plain_path r -> plain_path s ->
    1 <= len (path_text r) -> 1 <= len (path_text s) -> len (abs_text r) + len (abs_text s) <= 2147483645 ->
    gen_set_source_content md U g (abs_text s) c = Panic PUnwrapErr.
  Proof.
    intros g r s c E Hr Hs L1 L2 L. unfold gen_set_source_content. rewrite E.
    pose proof (relative_abs md U C r None None s None None Hr) as R. cbn [tail_text app] in R. rewrite !app_nil_r in R.
    rewrite R; try assumption; try exact I. reflexivity.
  Qed.

  (** ** C33, C35 *)
  Lemma source_rel : forall p q f, plain_path p -> path_text p <> [] -> plain_opt q -> plain_opt f ->
    2 <= len (path_text p ++ tail_text q f) <= 2147483645 ->
    compute_source_url md U None (path_text p ++ tail_text q f) None
    = Ok (path_text (normal p) ++ match q with Some t => t | None => [] end ++ match f with Some t => t | None => [] end).
  Proof. intros. rewrite source_none. apply (NORMALIZE_rel md U C); assumption. Qed.

  Lemma no_marker : forall p q f, plain_path p -> path_text p <> [] -> plain_opt q -> plain_opt f ->
    2 <= len (path_text p ++ tail_text q f) <= 2147483645 ->
    exists t, compute_source_url md U None (path_text p ++ tail_text q f) None = Ok t
      /\ ~ In (ch "?") t /\ ~ In (ch "#") t.
  Proof.
    intros p q f Hp Hn Hq Hf L. eexists. split; [apply source_rel; assumption|].
    change (path_text (normal p) ++ _) with (path_text (normal p) ++ glue q ++ glue f).
    rewrite glued_text. pose proof (glued_plain (normal p) q f (plain_normal p Hp) Hq Hf) as G.
    split; intros Hi; apply (path_text_chars _ _ G) in Hi; destruct Hi as [Hi|Hi]; discriminate Hi.
  Qed.

  Lemma source_plain : forall p, plain_path p -> 2 <= len (path_text p) <= 2147483645 ->
    compute_source_url md U None (path_text p) None = Ok (path_text (normal p)).
  Proof.
    intros p Hp L. pose proof (source_rel p None None Hp) as H. cbn [tail_text app] in H.
    rewrite !app_nil_r in H. apply H; try exact I; [apply len_nonempty; lia|exact L].
  Qed.

  Lemma source_again : forall p, plain_path p -> 2 <= len (path_text p) <= 2147483645 ->
    2 <= len (path_text (normal p)) <= 2147483645 ->
    compute_source_url md U None (path_text (normal p)) None = Ok (path_text (normal p)).
  Proof.
    intros p Hp L L2. pose proof (plain_normal p Hp) as Pn. rewrite source_plain by assumption.
    rewrite normal_idem. reflexivity.
  Qed.

  Lemma source_abs : forall p q f, plain_path p -> plain_opt q -> plain_opt f ->
    1 <= len (path_text p ++ tail_text q f) -> len (abs_text p ++ tail_text q f) <= 2147483645 ->
    compute_source_url md U None (abs_text p ++ tail_text q f) None
    = Ok (abs_text (resolve_from [] p) ++ tail_text q f).
  Proof. intros. rewrite source_none. apply (NORMALIZE_abs md U C); assumption. Qed.

  Lemma source_url : forall o p q f, plain_origin o -> plain_path p -> plain_opt q -> plain_opt f ->
    len (url_text o p q f) <= 2147483645 ->
    compute_source_url md U None (url_text o p q f) None = Ok (url_text o (resolve_from [] p) q f).
  Proof. intros. rewrite source_none. apply (NORMALIZE_url md U C); assumption. Qed.

  Lemma source_net : forall h p q f, plain_host h -> plain_path p -> plain_opt q -> plain_opt f ->
    len (net_text h p q f) <= 2147483645 ->
    compute_source_url md U None (net_text h p q f) None = Ok (net_text h (resolve_from [] p) q f).
  Proof. intros. rewrite source_none. apply (NORMALIZE_net md U C); assumption. Qed.

  (** ** C34 *)
  Lemma source_root_plain : forall root p (slash : bool), plain_path p ->
    2 <= len (path_text p) <= 2147483645 ->
    compute_source_url md U (Some root) ((if slash then lit "/" else []) ++ path_text p) None
    = url_join md U root (path_text (normal p)).
  Proof.
    intros root p slash Hp L.
    pose proof (source_root_rel md U C root p None None slash Hp) as H. cbn [tail_text app] in H.
    rewrite !app_nil_r in H. rewrite H; try exact I; [|apply len_nonempty; lia|exact L].
    unfold glued. cbn [glue app]. rewrite !app_nil_r. destruct (normal p); reflexivity.
  Qed.

  Lemma root_rel : forall r p slash, plain_path r -> plain_path p ->
    2 <= len (path_text r) -> 2 <= len (path_text p) -> 2 <= len (path_text (normal p)) ->
    len (path_text r) + len (path_text p) <= 2147483643 ->
    compute_source_url md U (Some (path_text r)) ((if slash : bool then lit "/" else []) ++ path_text p) None
    = Ok (path_text (normal (below r p))).
  Proof.
    intros r p slash Hr Hp L1 L2 L3 L. rewrite source_root_plain by (try assumption; lia).
    pose proof (len_normal p).
    pose proof (plain_normal p Hp) as Pn. rewrite (join_rr md U C r (normal p) Hr Pn) by lia.
    rewrite normal_below. reflexivity.
  Qed.

  Lemma root_rel_tail : forall r p q f slash, plain_path r -> plain_path p -> plain_opt q -> plain_opt f ->
    path_text p <> [] -> 2 <= len (path_text r) ->
    let whole := path_text p ++ tail_text q f in
    let glued := mkPath (dirs (normal p)) (file (normal p) ++ match q with Some t => t | None => [] end
                                                           ++ match f with Some t => t | None => [] end) in
    2 <= len whole -> 2 <= len (path_text glued) ->
    len (path_text r) + len whole <= 2147483643 ->
    compute_source_url md U (Some (path_text r)) ((if slash : bool then lit "/" else []) ++ whole) None
    = Ok (path_text (normal (below r glued))).
  Proof.
    intros r p q f slash Hr Hp Hq Hf Hn L1 whole glu L2 L3 L. unfold whole.
    pose proof (len_nonneg _ (path_text r)). pose proof (len_nonneg _ whole).
    rewrite (source_root_rel md U C) by (try assumption; fold whole; lia).
    change (glued (normal p) q f) with glu.
    assert (Pg : plain_path glu) by (apply (glued_plain (normal p) q f); [apply plain_normal; exact Hp|assumption..]).
    assert (Lg : len (path_text glu) <= len whole + 1).
    { unfold whole, glu. rewrite len_path_text. cbn [dirs file]. rewrite !len_app.
      pose proof (len_normal p) as Ln. rewrite (len_path_text (normal p)) in Ln.
      unfold tail_text. rewrite len_app.
      destruct q as [tq|], f as [tf|]; rewrite ?len_app, ?len_nil; change (len (lit "?")) with 1; change (len (lit "#")) with 1; lia. }
    rewrite (join_rr md U C r glu Hr Pg) by lia. reflexivity.
  Qed.

  Lemma root_abs : forall r q f p slash, plain_path r -> plain_opt q -> plain_opt f -> plain_path p ->
    1 <= len (path_text r ++ tail_text q f) -> 2 <= len (path_text p) <= 2147483645 ->
    2 <= len (path_text (normal p)) -> len (abs_text r ++ tail_text q f) <= 2147483645 ->
    compute_source_url md U (Some (abs_text r ++ tail_text q f))
      ((if slash : bool then lit "/" else []) ++ path_text p) None
    = Ok (abs_text (resolve_from [] (below r p))).
  Proof.
    intros r q f p slash Hr Hq Hf Hp L1 L2 L3 L. rewrite source_root_plain by (try assumption; lia).
    pose proof (plain_normal p Hp) as Pn. rewrite (join_ar md U C) by assumption.
    rewrite resolve_below_normal. reflexivity.
  Qed.

  Lemma root_url : forall o r q f p slash, plain_origin o -> plain_path r -> plain_opt q -> plain_opt f ->
    plain_path p -> 2 <= len (path_text p) <= 2147483645 -> 2 <= len (path_text (normal p)) ->
    len (url_text o r q f) <= 2147483645 ->
    compute_source_url md U (Some (url_text o r q f))
      ((if slash : bool then lit "/" else []) ++ path_text p) None
    = Ok (url_text o (resolve_from [] (below r p)) None None).
  Proof.
    intros o r q f p slash Ho Hr Hq Hf Hp L2 L3 L. rewrite source_root_plain by (try assumption; lia).
    pose proof (plain_normal p Hp) as Pn. rewrite (join_ur md U C) by assumption.
    rewrite resolve_below_normal. reflexivity.
  Qed.

  Lemma root_net : forall h r q f p slash, plain_host h -> plain_path r -> plain_opt q -> plain_opt f ->
    plain_path p -> 2 <= len (path_text p) <= 2147483645 -> 2 <= len (path_text (normal p)) ->
    len (net_text h r q f) <= 2147483645 ->
    compute_source_url md U (Some (net_text h r q f))
      ((if slash : bool then lit "/" else []) ++ path_text p) None
    = Ok (net_text h (resolve_from [] (below r p)) None None).
  Proof.
    intros h r q f p slash Hh Hr Hq Hf Hp L2 L3 L. rewrite source_root_plain by (try assumption; lia).
    pose proof (plain_normal p Hp) as Pn. rewrite (join_nr md U C) by assumption.
    rewrite resolve_below_normal. reflexivity.
  Qed.

  Lemma plain_root_ok : forall root, plain_root root ->
    exists t d, get_url_type root = Ok t /\ ENSURE_DIRECTORY md U root = Ok d.
  Proof.
    intros root [r Hr L|r q f Hr Hq Hf L1 L2|o r q f Ho Hr Hq Hf L].
    - eexists _, _. split; [apply type_rel_path'; [exact Hr|lia]|]. apply (ENSURE_rel md U C); assumption.
    - eexists _, _. split; [apply type_abs_path; assumption|]. apply (ENSURE_abs md U C); assumption.
    - eexists _, _. split; [apply type_url; assumption|]. apply (ENSURE_url md U C); assumption.
  Qed.

  Lemma root_absolute_source : forall root o p q f, plain_root root ->
    plain_origin o -> plain_path p -> plain_opt q -> plain_opt f ->
    len (url_text o p q f) <= 2147483645 ->
    compute_source_url md U (Some root) (url_text o p q f) None = Ok (url_text o (resolve_from [] p) q f).
  Proof.
    intros root o p q f Hroot Ho Hp Hq Hf L. destruct (plain_root_ok _ Hroot) as [t [d [E1 E2]]].
    rewrite (source_root_type md U root _ Absolute);
      [|unfold url_text; apply type_url; exact Ho|discriminate].
    rewrite (NORMALIZE_url md U C) by assumption. cbn [bind]. apply (join_xu md U root t d); assumption.
  Qed.

  Lemma root_collapsed : forall root p (slash : bool), plain_path p -> 2 <= len (path_text p) <= 2147483645 ->
    len (path_text (normal p)) < 2 ->
    compute_source_url md U (Some root) ((if slash then lit "/" else []) ++ path_text p) None = Panic PUnwrapNone.
  Proof.
    intros root p slash Hp L L2. rewrite source_root_plain by assumption. apply short_join_path. exact L2.
  Qed.

  Lemma root_short_abs : forall root p, plain_path p -> len (path_text p) = 1 ->
    compute_source_url md U (Some root) (abs_text p) None = Panic PUnwrapNone.
  Proof.
    intros root p Hp L. unfold abs_text. rewrite source_root_abs.
    - rewrite normalize_short by lia. reflexivity.
    - apply type_abs_path'; [exact Hp|lia].
  Qed.

  (** ** C36 *)
  Lemma map_url_rel : forall sr src s n ds f q fr,
    compute_source_url md U sr src None = Ok (path_text s) -> plain_path s -> 2 <= len (path_text s) ->
    Forall plain_seg ds -> Forall proper ds -> plain f -> proper f -> plain_opt q -> plain_opt fr ->
    n = O \/ len ds <= 1 ->
    let url := path_text (mkPath (repeat dotdot n ++ ds) f) ++ tail_text q fr in
    let dir := mkPath (repeat dotdot n) (concat ds ++ match q with Some t => t | None => [] end
                                                   ++ match fr with Some t => t | None => [] end) in
    path_text (mkPath (repeat dotdot n ++ ds) f) <> [] -> max_dotdots url n -> 2 <= len url <= 2147483645 ->
    len (path_text s) + len (path_text dir) <= 2147483644 ->
    compute_source_url md U sr src (Some url)
    = if Z_lt_dec (len (path_text dir)) 2 then Panic PUnwrapNone else Ok (path_text (normal (below dir s))).
  Proof.
    intros sr src s n ds f q fr E Hs Ls P1 P2 P3 P4 Hq Hf Hn url dir Ht Hm L L2.
    rewrite source_map, E. cbn [bind]. unfold url.
    pose proof (TRIM_rel md U C n ds f q fr P1 P2 P3 P4 Hq Hf Hn Ht Hm L) as T. unfold map_path at 1 in T.
    rewrite T. cbn [bind].
    replace (path_text (map_path n [] (concat ds ++ glue q ++ glue fr))) with (path_text dir).
    2:{ unfold map_path, dir. rewrite app_nil_r. reflexivity. }
    destruct (Z_lt_dec _ 2) as [D|D]; [apply short_join_root; exact D|].
    assert (Hd : plain_path dir).
    { split; cbn [dir dirs file].
      - apply Forall_forall. intros y Hy. apply repeat_spec in Hy. subst y. apply plain_dotdot.
      - apply plain_app; [apply plain_concat; exact P1|]. apply plain_app; [destruct q|destruct fr]; try constructor; assumption. }
    apply (join_rr md U C); try assumption; lia.
  Qed.

  Lemma as_dirs_glued : forall ds, len ds = 1 -> Forall plain_seg ds -> as_dirs (mkPath [] (concat ds)) = ds.
  Proof.
    intros [|d [|e ds]] L H; [discriminate L| |rewrite !len_cons in L; pose proof (len_nonneg _ ds); lia].
    inv H. destruct H2 as [N _]. cbn. rewrite app_nil_r. unfold as_dirs. cbn [dirs file app].
    destruct d; [exfalso; apply N; reflexivity|reflexivity].
  Qed.

  Lemma concat_nonempty : forall ds, 1 <= len ds -> Forall plain_seg ds -> concat ds <> [].
  Proof.
    intros [|d ds] L H; [cbn in L; lia|]. inv H. destruct H2 as [N _]. cbn. destruct d; [|discriminate].
    exfalso. apply N. reflexivity.
  Qed.

  Lemma as_dirs_glued' : forall ds, 1 <= len ds -> Forall plain_seg ds ->
    as_dirs (mkPath [] (concat ds)) = [concat ds].
  Proof.
    intros ds L H. pose proof (concat_nonempty ds L H) as N. unfold as_dirs. cbn [dirs file app].
    destruct (concat ds); [exfalso; apply N; reflexivity|reflexivity].
  Qed.

  Lemma len_concat : forall ds : list str, Forall plain_seg ds -> len ds <= len (concat ds).
  Proof.
    induction 1 as [|d ds [N _] _ IH]; [cbn; lia|]. cbn [concat]. rewrite len_cons, len_app.
    destruct d; [exfalso; apply N; reflexivity|]. rewrite len_cons. pose proof (len_nonneg _ d). lia.
  Qed.

  (** the relative map URLs that work *)
  Lemma map_url_verdict : forall sr src s ds f,
    compute_source_url md U sr src None = Ok (path_text s) -> plain_path s -> 2 <= len (path_text s) ->
    clean_path (mkPath ds f) ->
    let url := path_text (mkPath ds f) in
    max_dotdots url 0 -> 2 <= len url <= 2147483645 -> len (path_text s) + len url <= 2147483644 ->
    let right := path_text (normal (below (mkPath ds []) s)) in
    (ds = [] -> compute_source_url md U sr src (Some url) = Panic PUnwrapNone)
    /\ (forall d, ds = [d] -> len d = 1 -> compute_source_url md U sr src (Some url) = Panic PUnwrapNone)
    /\ (forall d, ds = [d] -> 2 <= len d -> compute_source_url md U sr src (Some url) = Ok right)
    /\ (2 <= len ds -> exists t, compute_source_url md U sr src (Some url) = Ok t /\ t <> right).
  Proof.
    intros sr src s ds f E Hs Ls [[P1 P2] [P3 P4]] url Hm L L2 right. cbn [dirs file] in *.
    assert (Hc : len (concat ds) <= len url).
    { unfold url, path_text. cbn [dirs file]. rewrite len_app. pose proof (len_nonneg _ f).
      assert (G : forall l, len (concat l) <= len (dirs_text l)).
      { induction l as [|x l IH]; [cbn; lia|]. rewrite len_dirs_cons. cbn [concat]. rewrite len_app. lia. }
      specialize (G ds). lia. }
    pose proof (map_url_rel sr src s 0 ds f None None E Hs Ls P1 P3 P2 P4 I I (or_introl eq_refl)) as M.
    cbn zeta in M. cbn [repeat app tail_text] in M. rewrite !app_nil_r in M. fold url in M.
    assert (Dt : path_text (mkPath [] (concat ds)) = concat ds) by reflexivity.
    rewrite Dt in M. specialize (M ltac:(apply len_nonempty; lia) Hm L ltac:(lia)). 
    assert (M' : compute_source_url md U sr src (Some url) = if Z_lt_dec (len (concat ds)) 2
      then Panic PUnwrapNone else Ok (path_text (normal (below (mkPath [] (concat ds)) s)))) by exact M.
    rewrite M'. clear M M'.
    split; [|split; [|split]].
    - intros ->. cbn [concat]. destruct (Z_lt_dec _ 2) as [|n]; [reflexivity|exfalso; apply n; reflexivity].
    - intros d -> Hd. cbn [concat]. rewrite app_nil_r. destruct (Z_lt_dec _ 2); [reflexivity|lia].
    - intros d Ed Hd. assert (L1 : len ds = 1) by (rewrite Ed; reflexivity).
      destruct (Z_lt_dec _ 2) as [Hl|_].
      + rewrite Ed in Hl. cbn [concat] in Hl. rewrite app_nil_r in Hl. lia.
      + unfold right. do 3 f_equal. apply below_ext. rewrite as_dirs_glued by assumption.
        unfold as_dirs. cbn [dirs file]. rewrite app_nil_r. reflexivity.
    - intros Hd. pose proof (len_concat ds P1) as Hl. destruct (Z_lt_dec _ 2) as [|_]; [lia|].
      eexists. split; [reflexivity|]. unfold right. intros Eq.
      assert (Pg : plain_path (mkPath [] (concat ds))).
      { split; cbn [dirs file]; [constructor|apply plain_concat; exact P1]. }
      apply depth_text in Eq.
      + rewrite !depth_below in Eq. rewrite as_dirs_glued' in Eq by (try assumption; lia).
        unfold as_dirs in Eq at 1. cbn [dirs file] in Eq. rewrite app_nil_r in Eq.
        rewrite (net_proper ds) in Eq by assumption.
        rewrite net_proper in Eq by (constructor; [apply proper_concat; assumption|constructor]).
        rewrite len_cons, len_nil in Eq. lia.
      + apply below_plain; assumption.
      + apply below_plain; [|assumption]. split; cbn [dirs file]; [assumption|constructor].
  Qed.

  Lemma map_url_abs : forall sr src s p q f,
    compute_source_url md U sr src None = Ok (path_text s) -> plain_path s -> 2 <= len (path_text s) ->
    clean_path p -> plain_opt q -> plain_opt f ->
    1 <= len (path_text p ++ tail_text q f) -> len (abs_text p ++ tail_text q f) <= 2147483645 ->
    compute_source_url md U sr src (Some (abs_text p ++ tail_text q f))
    = if Z_lt_dec (len (concat (dirs p) ++ tail_text q f)) 1 then Panic PUnwrapNone
      else Ok (abs_text (resolve_from [] (below (mkPath [] (concat (dirs p))) s))).
  Proof.
    intros sr src s p q f E Hs Ls Hp Hq Hf L1 L2.
    rewrite source_map, E. cbn [bind]. pose proof (clean_plain _ Hp) as Pp.
    rewrite (TRIM_abs md U C) by assumption. cbn [bind]. rewrite resolve_clean by exact Hp. unfold trim_path.
    assert (Dt : path_text (mkPath [] (concat (dirs p))) = concat (dirs p)) by reflexivity.
    assert (Hd : plain_path (mkPath [] (concat (dirs p)))).
    { split; cbn [dirs file]; [constructor|apply plain_concat; apply Pp]. }
    destruct (Z_lt_dec _ 1) as [D|D].
    - apply short_join_root. unfold abs_text. rewrite Dt, <- app_assoc, len_app. change (len (lit "/")) with 1. lia.
    - apply (join_ar md U C); try assumption.
      + rewrite Dt. lia.
      + assert (len (abs_text (mkPath [] (concat (dirs p)))) <= len (abs_text p)).
        { unfold abs_text. rewrite Dt, !len_app. unfold path_text. rewrite len_app.
          assert (G : forall l, len (concat l) <= len (dirs_text l)).
          { induction l as [|x l IH]; [cbn; lia|]. rewrite len_dirs_cons. cbn [concat]. rewrite len_app. lia. }
          specialize (G (dirs p)). pose proof (len_nonneg _ (file p)). lia. }
        rewrite len_app in *. lia.
  Qed.

  Lemma map_url_url : forall sr src s o p q f,
    compute_source_url md U sr src None = Ok (path_text s) -> plain_path s -> 2 <= len (path_text s) ->
    plain_origin o -> clean_path p -> plain_opt q -> plain_opt f -> len (url_text o p q f) <= 2147483645 ->
    compute_source_url md U sr src (Some (url_text o p q f))
    = Ok (url_text o (resolve_from [] (below (mkPath [] (concat (dirs p))) s)) None None).
  Proof.
    intros sr src s o p q f E Hs Ls Ho Hp Hq Hf L2.
    rewrite source_map, E. cbn [bind]. pose proof (clean_plain _ Hp) as Pp.
    destruct (TRIM_any_url md U C o p q f Ho Pp Hq Hf L2) as [t [-> J]]. cbn [bind]. rewrite J, resolve_clean by exact Hp. unfold trim_path.
    assert (Dt : path_text (mkPath [] (concat (dirs p))) = concat (dirs p)) by reflexivity.
    assert (Hd : plain_path (mkPath [] (concat (dirs p)))).
    { split; cbn [dirs file]; [constructor|apply plain_concat; apply Pp]. }
    apply (join_ur md U C); try assumption.
    assert (len (url_text o (mkPath [] (concat (dirs p))) q f) <= len (url_text o p q f)); [|lia].
    unfold url_text, abs_text. rewrite Dt, !len_app. unfold path_text. rewrite len_app.
    assert (G : forall l, len (concat l) <= len (dirs_text l)).
    { induction l as [|x l IH]; [cbn; lia|]. rewrite len_dirs_cons. cbn [concat]. rewrite len_app. lia. }
    specialize (G (dirs p)). pose proof (len_nonneg _ (file p)). lia.
  Qed.

  (** gluing changes the place unless the source climbs out *)
  Lemma glued_differs : forall ds s, Forall plain_seg ds -> Forall proper ds -> 2 <= len ds -> clean_path s ->
    resolve_from [] (below (mkPath [] (concat ds)) s) <> resolve_from [] (below (mkPath ds []) s).
  Proof.
    intros ds s P1 P3 L Hs E. rewrite !below_resolve, !resolve_eq in E. injection E as E.
    destruct Hs as [_ [S1 S2]].
    assert (F : file_dirs s = []).
    { unfold file_dirs. destruct (is_dot_proper _ S2) as [-> ->]. reflexivity. }
    rewrite F, app_nil_r in E.
    rewrite as_dirs_glued' in E by (try assumption; lia).
    rewrite (fold_move_proper [concat ds]) in E by (constructor; [apply proper_concat; assumption|constructor]).
    unfold as_dirs in E. cbn [dirs file] in E. rewrite app_nil_r in E.
    rewrite (fold_move_proper ds) in E by assumption.
    rewrite !fold_move_proper in E by assumption.
    apply (f_equal (fun l => len l)) in E. rewrite !len_app, len_cons, !len_nil in E. lia.
  Qed.

  Lemma abs_text_inj : forall a b, plain_path a -> plain_path b -> abs_text a = abs_text b -> a = b.
  Proof.
    intros a b [A1 A2] [B1 B2] E. unfold abs_text in E. cbn [lit app] in E. injection E as E. unfold path_text in E.
    apply dirs_text_inj in E; try (apply plain_segs_no_slash; assumption); try (apply plain_no_slash; assumption).
    destruct a, b. cbn in E. destruct E as [-> ->]. reflexivity.
  Qed.

  Lemma map_url_abs_verdict : forall sr src s p q f,
    compute_source_url md U sr src None = Ok (path_text s) -> plain_path s -> 2 <= len (path_text s) ->
    clean_path p -> plain_opt q -> plain_opt f ->
    len (abs_text p ++ tail_text q f) <= 2147483645 ->
    let right := abs_text (resolve_from [] (below (mkPath (dirs p) []) s)) in
    (len (dirs p) = 1 -> compute_source_url md U sr src (Some (abs_text p ++ tail_text q f)) = Ok right)
    /\ (2 <= len (dirs p) -> clean_path s ->
        exists t, compute_source_url md U sr src (Some (abs_text p ++ tail_text q f)) = Ok t /\ t <> right).
  Proof.
    intros sr src s p q f E Hs Ls Hp Hq Hf L2 right.
    pose proof Hp as [[P1 P2] [P3 P4]].
    pose proof (len_concat (dirs p) P1) as Lc.
    assert (L1 : 1 <= len (dirs p) -> 1 <= len (path_text p ++ tail_text q f)).
    { intros Hl. rewrite len_app, len_path_text. pose proof (len_nonneg _ (tail_text q f)). pose proof (len_nonneg _ (file p)).
      destruct (dirs p) as [|x l]; [cbn in Hl; lia|]. rewrite len_dirs_cons.
      pose proof (len_nonneg _ x). pose proof (len_nonneg _ (dirs_text l)). lia. }
    split; intros Hl.
    - rewrite (map_url_abs sr src s p q f) by (try assumption; apply L1; lia).
      destruct (Z_lt_dec _ 1) as [D|_].
      + rewrite len_app in D. pose proof (len_nonneg _ (tail_text q f)). lia.
      + unfold right. do 3 f_equal. apply below_ext. rewrite as_dirs_glued by assumption.
        unfold as_dirs. cbn [dirs file]. rewrite app_nil_r. reflexivity.
    - intros Cs. rewrite (map_url_abs sr src s p q f) by (try assumption; apply L1; lia).
      destruct (Z_lt_dec _ 1) as [D|_].
      { rewrite len_app in D. pose proof (len_nonneg _ (tail_text q f)). lia. }
      eexists. split; [reflexivity|]. unfold right. intros Eq.
      apply abs_text_inj in Eq.
      + revert Eq. apply glued_differs; assumption.
      + apply clean_plain, clean_resolve; try constructor; apply below_plain; try assumption.
        split; cbn [dirs file]; [constructor|apply plain_concat; exact P1].
        split; cbn [dirs file]; [constructor|apply plain_concat; exact P1].
      + apply clean_plain, clean_resolve; try constructor; apply below_plain; try assumption;
        (split; cbn [dirs file]; [assumption|constructor]).
  Qed.

  Lemma map_url_url_verdict : forall sr src s o p q f,
    compute_source_url md U sr src None = Ok (path_text s) -> plain_path s -> 2 <= len (path_text s) ->
    plain_origin o -> clean_path p -> plain_opt q -> plain_opt f -> len (url_text o p q f) <= 2147483645 ->
    let right := url_text o (resolve_from [] (below (mkPath (dirs p) []) s)) None None in
    (len (dirs p) <= 1 -> compute_source_url md U sr src (Some (url_text o p q f)) = Ok right)
    /\ (2 <= len (dirs p) -> clean_path s ->
        exists t, compute_source_url md U sr src (Some (url_text o p q f)) = Ok t /\ t <> right).
  Proof.
    intros sr src s o p q f E Hs Ls Ho Hp Hq Hf L2 right.
    pose proof Hp as [[P1 P2] [P3 P4]].
    rewrite (map_url_url sr src s o p q f) by assumption.
    split; intros Hl.
    - unfold right. do 2 f_equal. f_equal. apply below_ext.
      destruct (Z.eq_dec (len (dirs p)) 1) as [H1|H1].
      + rewrite as_dirs_glued by assumption. unfold as_dirs. cbn [dirs file]. rewrite app_nil_r. reflexivity.
      + destruct (dirs p) as [|x l]; [reflexivity|]. rewrite len_cons in *. pose proof (len_nonneg _ l). lia.
    - intros Cs. eexists. split; [reflexivity|]. unfold right, url_text. intros Eq.
      apply app_inv_head in Eq. cbn [tail_text app] in Eq. rewrite !app_nil_r in Eq.
      apply abs_text_inj in Eq.
      + revert Eq. apply glued_differs; assumption.
      + apply clean_plain, clean_resolve; try constructor; apply below_plain; try assumption;
        (split; cbn [dirs file]; [constructor|apply plain_concat; exact P1]).
      + apply clean_plain, clean_resolve; try constructor; apply below_plain; try assumption;
        (split; cbn [dirs file]; [assumption|constructor]).
  Qed.
End Props.
