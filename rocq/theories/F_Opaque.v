(** * C84, C85: names with a scheme but without "//" *)
From Verif Require Import Base F_Base M_Util S_Url S_UrlKind F_UrlText F_UrlPath F_UrlOps F_Url F_UrlKind F_UrlSource F_UrlProps F_UrlRef.

(** ** Texts *)

Lemma any_lower : forall s, any_scheme s -> any_scheme (map to_lower s).
Proof. intros s H. unfold any_scheme in *. rewrite (other_lower _ H). exact H. Qed.

Lemma any_letters : forall s, any_scheme s -> s <> [] /\ Forall scheme_letter s.
Proof.
  intros s H. split; [intros ->; destruct (other_scheme_chars _ H) as [N _]; apply N; reflexivity|].
  eapply Forall_impl; [|apply any_scheme_chars; exact H]. intros c [Hc _]. apply scheme_letter_char. exact Hc.
Qed.

Lemma letter_no_slash : ~ scheme_letter c_slash.
Proof. intros H. apply scheme_letter_char in H. discriminate. Qed.

Lemma letter_no_colon : ~ scheme_letter (ch ":").
Proof. intros H. apply scheme_letter_char in H. discriminate. Qed.

Lemma type_opaque : forall s t q f, any_scheme s -> opaque_text t ->
  get_url_type (opaque_url s t q f) = Ok PathRelative.
Proof.
  intros s t q f Hs [Tn [Th _]]. destruct (any_letters s Hs) as [Sn Sl]. apply url_kind.
  unfold opaque_url. destruct s as [|a s]; [contradiction|]. destruct t as [|x t]; [contradiction|]. cbn [hd] in Th.
  split; [|split].
  - rewrite len_app, len_cons. cbn [lit app]. rewrite len_cons. pose proof (len_nonneg _ s).
    pose proof (len_nonneg _ (x :: t ++ tail_text q f)). cbn in *. lia.
  - intros [a' [rest [E [_ Fl]]]].
    assert (G : forall s s' r r' : str, Forall scheme_letter s -> Forall scheme_letter s' ->
              s ++ ch ":" :: r = s' ++ ch ":" :: r' -> r = r').
    { clear. induction s as [|c s IH]; intros [|c' s'] r r' F F' E; cbn [app] in E.
      - congruence.
      - exfalso. inv F'. apply letter_no_colon. assert (c' = ch ":") as <- by congruence. assumption.
      - exfalso. inv F. apply letter_no_colon. assert (c = ch ":") as <- by congruence. assumption.
      - inv F. inv F'. apply (IH s'); try assumption. congruence. }
    apply (G _ _ _ (lit "/" ++ rest)) in E; [|assumption..]. apply Th. change (x = 47%N). cbn in E. congruence.
  - intros rest E. inv Sl. apply letter_no_slash. assert (a = c_slash) as <- by (change (a = 47%N); cbn in E; congruence).
    assumption.
Qed.

Lemma type_rooted : forall s p q f, any_scheme s -> get_url_type (opaque_url s (abs_text p) q f) = Ok Absolute.
Proof.
  intros s p q f Hs. destruct (any_letters s Hs) as [Sn Sl]. apply url_kind.
  exists s, (path_text p ++ tail_text q f). repeat split; assumption.
Qed.

Lemma split_nonempty : forall c s, split_char c s <> [].
Proof.
  intros c s. destruct s as [|x s]; [discriminate|]. cbn [split_char]. destruct (N.eqb x c); [discriminate|].
  destruct (split_char c s); discriminate.
Qed.

Lemma join_cons : forall sep w ws, ws <> [] -> join_str sep (w :: ws) = w ++ sep ++ join_str sep ws.
Proof. intros sep w [|v ws] H; [contradiction|reflexivity]. Qed.

Lemma join_split : forall s, join_str (lit "/") (split_char c_slash s) = s.
Proof.
  induction s as [|x s IH]; [reflexivity|]. cbn [split_char]. pose proof (split_nonempty c_slash s) as N.
  destruct (N.eqb_spec x c_slash) as [->|_].
  - rewrite join_cons by exact N. rewrite IH. reflexivity.
  - destruct (split_char c_slash s) as [|w ws]; [contradiction|].
    destruct ws as [|v ws]; [cbn in IH |- *; congruence|]. rewrite join_cons in * by discriminate. cbn [app]. congruence.
Qed.

Lemma join_dotdots : forall n ps, ps <> [] ->
  join_str (lit "/") (repeat dotdot n ++ ps) = dirs_text (repeat dotdot n) ++ join_str (lit "/") ps.
Proof.
  induction n as [|n IH]; intros ps H; [reflexivity|]. cbn [repeat app]. rewrite dirs_text_cons, <- !app_assoc, <- IH by exact H.
  apply join_cons. destruct n; [exact H|discriminate].
Qed.

Section Opaque.
  Context (md : mode) (U : UrlLib) (C : UrlContract U).

  Lemma relative_opaque : forall input base seg k u tu s t q f,
    base_of md U input base seg k u -> opaque_text t -> shows_opaque U tu s t q f ->
    relative_path_of U u tu = dirs_text (repeat dotdot (S k)) ++ t ++ glue q ++ glue f.
  Proof.
    intros input base seg k u tu s t q f B [Tn [Th _]] [_ [S2 [S3 S4]]]. unfold relative_path_of.
    destruct (b_shows _ _ _ _ _ _ _ B) as [_ [-> _]]. rewrite S2, S3, S4.
    rewrite (no_slash_abs (mkPath (repeat seg k) [])) by (apply clean_plain; apply (b_clean _ _ _ _ _ _ _ B)).
    cbn [dirs file]. rewrite pop_empty_snoc.
    assert (E : strip_common (split_char c_slash t) ([] :: repeat seg k) = (split_char c_slash t, [] :: repeat seg k)).
    { destruct t as [|x t]; [contradiction|]. cbn [hd] in Th. cbn [split_char].
      destruct (N.eqb_spec x c_slash); [contradiction|]. destruct (split_char c_slash t); reflexivity. }
    rewrite E. change ([] :: repeat seg k) with ([] :: repeat seg k). cbn [map]. rewrite map_repeat'.
    change (lit ".." :: repeat (lit "..") k) with (repeat dotdot (S k)).
    rewrite join_dotdots by apply split_nonempty. rewrite join_split.
    destruct q as [q|], f as [f|]; cbn [glue]; rewrite <- ?app_assoc, ?app_nil_r; reflexivity.
  Qed.

  Lemma NORMALIZE_opaque : forall s t q f k, any_scheme s -> opaque_text t -> plain_opt q -> plain_opt f ->
    len (opaque_url s t q f) <= 2147483645 -> max_dotdots (opaque_url s t q f) k ->
    NORMALIZE md U (opaque_url s t q f) = Ok (dirs_text (repeat dotdot (S k)) ++ t ++ glue q ++ glue f).
  Proof.
    intros s t q f k Hs Ht Hq Hf L Hk. unfold NORMALIZE, safe_handler. rewrite type_opaque by assumption. cbn [bind].
    destruct (base_ok md U C (opaque_url s t q f) L) as [base [seg [n [u B]]]].
    assert (n = k) as ->.
    { rewrite (b_count _ _ _ _ _ _ _ B). eapply max_dotdots_fun; [apply count_max|exact Hk]. }
    rewrite (b_ok _ _ _ _ _ _ _ B). cbn [bind]. rewrite (b_parse _ _ _ _ _ _ _ B). cbn [bind unwrap_ok].
    destruct (uc_join_opaque U C u host_origin _ None None s t q f host_plain (b_clean _ _ _ _ _ _ _ B)
                (b_shows _ _ _ _ _ _ _ B) Hs Ht Hq Hf) as [u' [E S]].
    rewrite E. cbn [bind unwrap_ok]. destruct S as [S1 _]. rewrite S1.
    destruct (uc_parse_opaque U C (map to_lower s) t q f (any_lower s Hs) (or_introl Ht) Hq Hf) as [tu [E' S']].
    rewrite (other_lower _ Hs) in S'. unfold compute_relative_url.
    rewrite (b_parse _ _ _ _ _ _ _ B), E'. cbn [bind unwrap_ok]. f_equal. eapply relative_opaque; eassumption.
  Qed.

  Lemma opaque_source : forall s t q f k, any_scheme s -> opaque_text t -> plain_opt q -> plain_opt f ->
    len (opaque_url s t q f) <= 2147483645 -> max_dotdots (opaque_url s t q f) k ->
    compute_source_url md U None (opaque_url s t q f) None
    = Ok (dirs_text (repeat dotdot (S k)) ++ t ++ glue q ++ glue f).
  Proof.
    intros s t q f k Hs Ht Hq Hf L Hk. unfold compute_source_url. cbn [bind].
    rewrite (NORMALIZE_opaque s t q f k) by assumption. reflexivity.
  Qed.

  Lemma opaque_any : forall sr s t q f k mu, any_scheme s -> opaque_text t -> plain_opt q -> plain_opt f ->
    len (opaque_url s t q f) <= 2147483645 -> max_dotdots (opaque_url s t q f) k ->
    compute_source_url md U sr (opaque_url s t q f) mu
    = (let url := dirs_text (repeat dotdot (S k)) ++ t ++ glue q ++ glue f in
       let* url := match sr with Some r => url_join md U r url | None => Ok url end in
       match mu with Some m => let* d := TRIM_FILENAME md U m in url_join md U d url | None => Ok url end).
  Proof.
    intros sr s t q f k mu Hs Ht Hq Hf L Hk. unfold compute_source_url. rewrite type_opaque by assumption.
    destruct sr; cbn [bind url_type_eqb]; rewrite (NORMALIZE_opaque s t q f k) by assumption; reflexivity.
  Qed.

  Lemma scheme_lost : forall sr s s' t q f k mu, any_scheme s -> any_scheme s' -> opaque_text t -> plain_opt q -> plain_opt f ->
    len (opaque_url s t q f) <= 2147483645 -> len (opaque_url s' t q f) <= 2147483645 ->
    max_dotdots (opaque_url s t q f) k -> max_dotdots (opaque_url s' t q f) k ->
    compute_source_url md U sr (opaque_url s t q f) mu = compute_source_url md U sr (opaque_url s' t q f) mu.
  Proof. intros. rewrite !(opaque_any _ _ _ _ _ k) by assumption. reflexivity. Qed.

  (** ** below a root *)
  Lemma plain_opaque : forall p, plain_path p -> path_text p <> [] -> opaque_text (path_text p).
  Proof.
    intros p Hp Hn. split; [exact Hn|]. split.
    - destruct (path_text p) as [|c s] eqn:E; [contradiction|]. cbn [hd].
      apply (path_first p None None c s Hp). rewrite E. cbn. rewrite app_nil_r. reflexivity.
    - apply Forall_forall. intros c Hc. destruct (path_text_chars p c Hp Hc) as [H| ->]; [|reflexivity].
      destruct (opaque_char c) eqn:E; [reflexivity|]. exfalso.
      unfold text_char, opaque_char, plain_char, name_char, char in *.
      repeat match type of H with
             | (_ || _ = true) => apply orb_true_iff in H; destruct H as [H|H]
             | (_ && _ = true) => apply andb_true_iff in H; destruct H
             | (N.eqb _ _ = true) => apply N.eqb_eq in H; subst c; discriminate E
             | (existsb _ _ = true) => apply existsb_exists in H; destruct H as [? [? H]]
             end.
      all: try (rewrite !N.leb_le in *;
        rewrite !andb_false_iff, !N.leb_gt, !negb_false_iff, N.eqb_eq, existsb_exists in E;
        destruct E as [[[E|E]|[x [E E']]]|E]; try (unfold char in *; lia);
        apply N.eqb_eq in E'; subst x; cbn in E; repeat (destruct E as [<-|E]; [unfold char in *; lia|]); destruct E).
      apply N.eqb_eq in H. subst x. cbn in H0. repeat (destruct H0 as [<-|H0]; [discriminate E|]). destruct H0.
  Qed.

  Definition lost (k : nat) (p : path) : path := mkPath (repeat dotdot (S k) ++ dirs p) (file p).

  Lemma lost_text : forall k p, dirs_text (repeat dotdot (S k)) ++ path_text p = path_text (lost k p).
  Proof. intros. unfold path_text, lost. cbn [dirs file]. rewrite dirs_text_app, <- app_assoc. reflexivity. Qed.

  Lemma lost_plain : forall k p, plain_path p -> plain_path (lost k p).
  Proof.
    intros k p [H1 H2]. split; [|exact H2]. cbn [lost dirs]. apply Forall_app. split; [|exact H1].
    apply Forall_forall. intros x Hx. apply repeat_spec in Hx. subst x. apply plain_dotdot.
  Qed.

  Lemma lost_len : forall k p, len (path_text (lost k p)) = 3 * Z.of_nat (S k) + len (path_text p).
  Proof. intros. rewrite <- lost_text, len_app, len_dotdots. reflexivity. Qed.

  Lemma opaque_in_root : forall root s p k, any_scheme s -> plain_path p -> path_text p <> [] ->
    len (opaque_url s (path_text p) None None) <= 2147483645 ->
    max_dotdots (opaque_url s (path_text p) None None) k ->
    compute_source_url md U (Some root) (opaque_url s (path_text p) None None) None
    = url_join md U root (path_text (lost k p)).
  Proof.
    intros root s p k Hs Hp Hn L Hk. rewrite (opaque_any (Some root) s (path_text p) None None k None); try assumption; try exact I.
    - cbn [glue]. rewrite !app_nil_r, lost_text. cbv zeta. destruct (url_join md U root _); reflexivity.
    - apply plain_opaque; assumption.
  Qed.

  Lemma opaque_below_rel : forall s p k r, any_scheme s -> plain_path p -> path_text p <> [] ->
    max_dotdots (opaque_url s (path_text p) None None) k -> plain_path r -> 2 <= len (path_text r) ->
    len (opaque_url s (path_text p) None None) + len (path_text r) + 3 * Z.of_nat k <= 2147483640 ->
    compute_source_url md U (Some (path_text r)) (opaque_url s (path_text p) None None) None
    = Ok (path_text (normal (below r (lost k p)))).
  Proof.
    intros s p k r Hs Hp Hn Hk Hr Lr L. pose proof (len_nonneg _ (path_text p)). 
    assert (len (opaque_url s (path_text p) None None) = len s + 1 + len (path_text p)) as E.
    { unfold opaque_url. cbn [tail_text]. rewrite !app_nil_r, !len_app. change (len (lit ":")) with 1. lia. }
    pose proof (len_nonneg _ s). pose proof (lost_len k p).
    rewrite (opaque_in_root _ s p k) by (try assumption; lia).
    apply (join_rr md U C); try assumption; try lia. apply lost_plain. exact Hp.
  Qed.

  Lemma opaque_below_abs : forall s p k r q f, any_scheme s -> plain_path p -> path_text p <> [] ->
    max_dotdots (opaque_url s (path_text p) None None) k -> len (opaque_url s (path_text p) None None) <= 2147483645 ->
    plain_path r -> plain_opt q -> plain_opt f ->
    1 <= len (path_text r ++ tail_text q f) -> len (abs_text r ++ tail_text q f) <= 2147483645 ->
    compute_source_url md U (Some (abs_text r ++ tail_text q f)) (opaque_url s (path_text p) None None) None
    = Ok (abs_text (resolve_from [] (below r (lost k p)))).
  Proof.
    intros. pose proof (lost_len k p). pose proof (len_nonneg _ (path_text p)). rewrite (opaque_in_root _ s p k) by assumption.
    apply (join_ar md U C); try assumption; try lia. apply lost_plain. assumption.
  Qed.

  Lemma opaque_below_url : forall s p k o r q f, any_scheme s -> plain_path p -> path_text p <> [] ->
    max_dotdots (opaque_url s (path_text p) None None) k -> len (opaque_url s (path_text p) None None) <= 2147483645 ->
    plain_origin o -> plain_path r -> plain_opt q -> plain_opt f -> len (url_text o r q f) <= 2147483645 ->
    compute_source_url md U (Some (url_text o r q f)) (opaque_url s (path_text p) None None) None
    = Ok (url_text o (resolve_from [] (below r (lost k p))) None None).
  Proof.
    intros. pose proof (lost_len k p). pose proof (len_nonneg _ (path_text p)). rewrite (opaque_in_root _ s p k) by assumption.
    apply (join_ur md U C); try assumption; try lia. apply lost_plain. assumption.
  Qed.

  (** ** relative *)
  Lemma other_type_none : forall root target t, get_url_type root = Ok t -> get_url_type target = Ok PathRelative ->
    t <> PathRelative -> replace_if_possible md U root target = Ok None.
  Proof.
    intros root target t E1 E2 N. unfold replace_if_possible. rewrite E1, E2. cbn [bind].
    destruct t; try contradiction; reflexivity.
  Qed.

  (** nothing joins to the target *)
  Lemma opaque_none : forall root s t q f, 2 <= len root ->
    (forall base seg k u, base_of md U (root ++ opaque_url s t q f) base seg k u -> ul_join U u root <> None) ->
    any_scheme s -> opaque_text t -> plain_opt q -> plain_opt f ->
    len (root ++ opaque_url s t q f) <= 2147483645 ->
    replace_if_possible md U root (opaque_url s t q f) = Ok None.
  Proof.
    intros root s t q f L2 J Hs Ht Hq Hf L.
    destruct (proj1 (url_kind_total root) L2) as [ty K]. apply url_kind in K.
    destruct (url_type_eqb ty PathRelative) eqn:ET.
    2:{ eapply other_type_none; [exact K|apply type_opaque; assumption|]. intros ->. discriminate. }
    unfold replace_if_possible. rewrite K, type_opaque by assumption. cbn [bind]. rewrite ET. cbn [negb].
    destruct (base_ok md U C _ L) as [base [seg [k [u B]]]].
    rewrite (b_ok _ _ _ _ _ _ _ B). cbn [bind]. rewrite (b_parse _ _ _ _ _ _ _ B). cbn [bind unwrap_ok].
    specialize (J _ _ _ _ B). destruct (ul_join U u root) as [ru|]; [|contradiction J; reflexivity]. cbn [bind unwrap_ok].
    destruct (uc_join_opaque U C u host_origin _ None None s t q f host_plain (b_clean _ _ _ _ _ _ _ B)
                (b_shows _ _ _ _ _ _ _ B) Hs Ht Hq Hf) as [u' [E S]].
    rewrite E. cbn [bind unwrap_ok].
    rewrite (uc_join_empty_opaque U C u' (map to_lower s) t q f Hs Ht S). reflexivity.
  Qed.

  Lemma opaque_relative : forall root s t q f k,
    (exists p, root = path_text p /\ plain_path p /\ 2 <= len (path_text p))
    \/ (exists s' t' q' f', root = opaque_url s' t' q' f' /\ any_scheme s' /\ opaque_text t' /\ plain_opt q' /\ plain_opt f')
    \/ (2 <= len root /\ (has_scheme root \/ exists rest, root = lit "/" ++ rest)) ->
    any_scheme s -> opaque_text t -> plain_opt q -> plain_opt f ->
    len (root ++ opaque_url s t q f) <= 2147483645 -> max_dotdots (opaque_url s t q f) k ->
    relative md U root (opaque_url s t q f) = Ok (dirs_text (repeat dotdot (S k)) ++ t ++ glue q ++ glue f).
  Proof.
    intros root s t q f k Hroot Hs Ht Hq Hf L Hk. unfold relative.
    assert (E : replace_if_possible md U root (opaque_url s t q f) = Ok None).
    { destruct Hroot as [[p [-> [Hp Lp]]]|[[s' [t' [q' [f' [-> [Hs' [Ht' [Hq' Hf']]]]]]]]|[L2 Hroot]]].
      - apply opaque_none; try assumption. intros base seg n u B.
        assert (Hn : path_text p <> []) by (apply len_nonempty; lia).
        destruct (uc_join_rel U C u host_origin _ None None p None None host_plain (b_clean _ _ _ _ _ _ _ B)
                    (b_shows _ _ _ _ _ _ _ B) Hp Hn I I) as [u' [E _]].
        cbn [tail_text app] in E. rewrite app_nil_r in E. congruence.
      - assert (2 <= len (opaque_url s' t' q' f')).
        { pose proof (type_opaque s' t' q' f' Hs' Ht') as K. apply url_kind in K. apply K. }
        apply opaque_none; try assumption. intros base seg n u B.
        destruct (uc_join_opaque U C u host_origin _ None None s' t' q' f' host_plain (b_clean _ _ _ _ _ _ _ B)
                    (b_shows _ _ _ _ _ _ _ B) Hs' Ht' Hq' Hf') as [u' [E _]]. congruence.
      - destruct (proj1 (url_kind_total root) L2) as [ty K].
        eapply other_type_none; [apply url_kind; exact K|apply type_opaque; assumption|].
        intros ->. destruct K as [_ [K1 K2]]. destruct Hroot as [H|[rest H]]; [contradiction|apply (K2 rest H)]. }
    rewrite E. cbn [bind]. apply NORMALIZE_opaque; try assumption.
    rewrite len_app in L. pose proof (len_nonneg _ root). lia.
  Qed.

  (** ** C85 *)
  Lemma NORMALIZE_rooted : forall s p q f, any_scheme s -> plain_path p -> plain_opt q -> plain_opt f ->
    len (opaque_url s (abs_text p) q f) <= 2147483645 ->
    NORMALIZE md U (opaque_url s (abs_text p) q f) = Ok (opaque_url (map to_lower s) (abs_text (resolve_from [] p)) q f).
  Proof.
    intros s p q f Hs Hp Hq Hf L. unfold NORMALIZE, safe_handler. rewrite type_rooted by assumption. cbn [bind].
    destruct (base_ok md U C _ L) as [base [seg [n [u B]]]].
    rewrite (b_ok _ _ _ _ _ _ _ B). cbn [bind]. rewrite (b_parse _ _ _ _ _ _ _ B). cbn [bind unwrap_ok].
    destruct (uc_join_rooted U C u host_origin _ None None s p q f host_plain (b_clean _ _ _ _ _ _ _ B)
                (b_shows _ _ _ _ _ _ _ B) Hs Hp Hq Hf) as [u' [E S]].
    rewrite E. cbn [bind unwrap_ok]. rewrite S. reflexivity.
  Qed.

  Lemma join_rooted : forall root s p q f, plain_root root -> any_scheme s ->
    url_join md U root (opaque_url s (abs_text p) q f) = Ok (opaque_url s (abs_text p) q f).
  Proof.
    intros root s p q f Hroot Hs. destruct (plain_root_ok md U C _ Hroot) as [t [d [E1 E2]]].
    unfold url_join. rewrite type_rooted by assumption. rewrite E1. cbn [bind]. rewrite E2. reflexivity.
  Qed.

  Lemma rooted_source : forall sr s p q f, (forall r, sr = Some r -> plain_root r) ->
    any_scheme s -> plain_path p -> plain_opt q -> plain_opt f ->
    len (opaque_url s (abs_text p) q f) <= 2147483645 ->
    compute_source_url md U sr (opaque_url s (abs_text p) q f) None
    = Ok (opaque_url (map to_lower s) (abs_text (resolve_from [] p)) q f).
  Proof.
    intros sr s p q f Hr Hs Hp Hq Hf L. unfold compute_source_url. rewrite type_rooted by assumption.
    destruct sr as [r|]; cbn [bind url_type_eqb]; rewrite NORMALIZE_rooted by assumption; cbn [bind]; [|reflexivity].
    rewrite join_rooted; [reflexivity|apply Hr; reflexivity|apply any_lower; exact Hs].
  Qed.
End Opaque.
