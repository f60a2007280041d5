(** * File URLs: lemmas for C93 *)
From Verif Require Import Base F_Base M_Util S_Url S_Refs S_Files F_UrlText F_UrlPath F_UrlOps F_Url F_UrlSource F_UrlProps F_Refs.

Lemma file_root_ok : plain_origin file_root.
Proof. left. right. split; [reflexivity|]. repeat (split; [reflexivity|]). left. reflexivity. Qed.

Lemma place_origin : forall o d, file_place o d -> plain_origin o.
Proof. intros o d [o' H|d' _]; [left; right; exact H|apply file_root_ok]. Qed.

Lemma trailing_slash : forall s t, t <> [] -> replace_trailing_slash (s ++ t) = s ++ replace_trailing_slash t.
Proof.
  intros s t H. destruct (snoc_cases _ t) as [->|[t' [c ->]]]; [contradiction|].
  rewrite app_assoc. destruct (N.eq_dec c c_slash) as [->|N].
  - change [c_slash] with (lit "/"). rewrite !trailing_yes, app_assoc. reflexivity.
  - rewrite !trailing_no by exact N. rewrite !app_assoc. reflexivity.
Qed.

Lemma drive_text : forall d p, path_text (on_drive d p) = d ++ lit "/" ++ path_text p.
Proof. intros d p. unfold path_text, on_drive, dirs_text. cbn [dirs file map concat]. rewrite <- !app_assoc. reflexivity. Qed.

Lemma drive_abs : forall d p, abs_text (on_drive d p) = (lit "/" ++ d) ++ abs_text p.
Proof. intros d p. unfold abs_text. rewrite drive_text, <- app_assoc. reflexivity. Qed.

Section Files.
  Context (md : mode) (U : UrlLib) (C : UrlContract U).

  (** both handlers on a drive *)
  Lemma handler_drive : forall cb h d p q f,
    (forall u p, clean_path p -> shows U u file_root (on_drive d p) q f -> shows U (cb u) file_root (on_drive d (h p)) q f) ->
    drive d -> plain_path p -> plain_opt q -> plain_opt f ->
    len (url_text file_root (on_drive d p) q f) <= 2147483645 ->
    safe_handler md U cb (url_text file_root (on_drive d p) q f)
    = Ok (url_text file_root (on_drive d (h (resolve_from [] p))) q f).
  Proof.
    intros cb h d p q f Hcb Hd Hp Hq Hf L. unfold safe_handler. unfold url_text at 1.
    rewrite type_url by apply file_root_ok. cbn [bind].
    destruct (base_ok md U C (url_text file_root (on_drive d p) q f) L) as [base [seg [k [u B]]]].
    rewrite (b_ok _ _ _ _ _ _ _ B). cbn [bind]. rewrite (b_parse _ _ _ _ _ _ _ B). cbn [bind unwrap_ok].
    destruct (uc_join_drive U C u host_origin _ None None d p q f host_plain (b_clean _ _ _ _ _ _ _ B)
                (b_shows _ _ _ _ _ _ _ B) Hd Hp Hq Hf) as [u' [E S]].
    rewrite E. cbn [bind unwrap_ok].
    pose proof (Hcb u' _ (clean_resolve [] p (Forall_nil _) (Forall_nil _) Hp) S) as S'.
    rewrite (shows_string _ _ _ _ _ _ S'). reflexivity.
  Qed.

  Lemma NORMALIZE_place : forall o d p q f, file_place o d -> plain_path p -> plain_opt q -> plain_opt f ->
    len (url_text o (placed d p) q f) <= 2147483645 ->
    NORMALIZE md U (url_text o (placed d p) q f) = Ok (url_text o (placed d (resolve_from [] p)) q f).
  Proof.
    intros o d p q f H Hp Hq Hf L. destruct H as [o H|d H]; cbn [placed] in *.
    - apply (NORMALIZE_url md U C); try assumption. left. right. exact H.
    - apply (handler_drive _ (fun p => p)); try assumption. auto.
  Qed.

  Lemma ENSURE_place : forall o d p q f, file_place o d -> plain_path p -> plain_opt q -> plain_opt f ->
    len (url_text o (placed d p) q f) <= 2147483645 ->
    ENSURE_DIRECTORY md U (url_text o (placed d p) q f) = Ok (url_text o (placed d (dir_path (resolve_from [] p))) q f).
  Proof.
    intros o d p q f H Hp Hq Hf L. destruct H as [o H|d H]; cbn [placed] in *.
    - apply (ENSURE_url md U C); try assumption. left. right. exact H.
    - apply (handler_drive _ dir_path); try assumption. intros u r Hr S.
      unfold ensure_directory_cb. pose proof S as [_ [S2 _]]. rewrite S2.
      rewrite drive_abs, trailing_slash by discriminate. rewrite replace_slash by (apply clean_plain; exact Hr).
      rewrite <- drive_abs. apply (uc_set_path_drive U C u d r q f); try assumption. apply clean_dir. exact Hr.
  Qed.

  Lemma any_root_ok : forall root, any_root root ->
    exists t d, get_url_type root = Ok t /\ ENSURE_DIRECTORY md U root = Ok d.
  Proof.
    intros root [[r [Hr [-> L]]]|[o [d [p [q [f [Hf [Hp [Hq [Hr [-> L]]]]]]]]]]].
    { destruct (ref_ensure md U C r Hr ltac:(lia)) as [d Ed]. exists (kind r), d. split; [apply ref_type; exact Hr|exact Ed]. }
    eexists _, _. split; [apply type_url, (place_origin _ _ Hf)|]. apply ENSURE_place; assumption.
  Qed.

  Lemma file_join : forall root o d p q f, any_root root -> file_place o d ->
    url_join md U root (url_text o (placed d p) q f) = Ok (url_text o (placed d p) q f).
  Proof.
    intros root o d p q f Hroot Hf. destruct (any_root_ok _ Hroot) as [t [e [E1 E2]]].
    unfold url_join. unfold url_text at 1. rewrite type_url by apply (place_origin _ _ Hf). rewrite E1. cbn [bind]. rewrite E2. reflexivity.
  Qed.

  Lemma file_source : forall root o d p q f, (forall r, root = Some r -> any_root r) -> file_place o d ->
    plain_path p -> plain_opt q -> plain_opt f -> len (url_text o (placed d p) q f) <= 2147483645 ->
    compute_source_url md U root (url_text o (placed d p) q f) None
    = Ok (url_text o (placed d (resolve_from [] p)) q f).
  Proof.
    intros root o d p q f Hr H Hp Hq Hf L. unfold compute_source_url.
    assert (T : get_url_type (url_text o (placed d p) q f) = Ok Absolute) by apply (type_url _ _ (place_origin _ _ H)).
    rewrite T. destruct root as [r|]; cbn [bind url_type_eqb]; rewrite NORMALIZE_place by assumption; cbn [bind]; [|reflexivity].
    rewrite file_join; [reflexivity|apply Hr; reflexivity|exact H].
  Qed.

  Lemma file_map : forall root o d p q f m, (forall r, root = Some r -> any_root r) -> file_place o d ->
    plain_path p -> plain_opt q -> plain_opt f -> len (url_text o (placed d p) q f) <= 2147483645 ->
    plain_ref m -> ~ is_relative m -> len (ref_text m) <= 2147483644 ->
    compute_source_url md U root (url_text o (placed d p) q f) (Some (ref_text m))
    = if Z_lt_dec (len (ref_text (map_ref (in_order m)))) 2 then Panic PUnwrapNone
      else Ok (url_text o (placed d (resolve_from [] p)) q f).
  Proof.
    intros root o d p q f m Hr H Hp Hq Hf L Pm Nm Lm. rewrite source_map, (file_source root o d p q f Hr H Hp Hq Hf L). cbn [bind].
    destruct (trim_ref md U C m Pm Nm ltac:(lia)) as [t [-> J]]. cbn [bind]. rewrite J.
    destruct (Z_lt_dec _ 2) as [Y|Y]; [apply short_join_root; exact Y|].
    apply file_join; [|exact H]. left. exists (map_ref (in_order m)).
    split; [exact (map_ref_plain m Pm Nm ltac:(lia))|]. split; [reflexivity|]. pose proof (len_map_ref m Nm). lia.
  Qed.

  Lemma join_place : forall o d r q f p, file_place o d -> plain_path r -> plain_opt q -> plain_opt f -> plain_path p ->
    2 <= len (path_text p) -> len (url_text o (placed d r) q f) <= 2147483645 ->
    url_join md U (url_text o (placed d r) q f) (path_text p)
    = Ok (url_text o (placed d (resolve_from [] (below r p))) None None).
  Proof.
    intros o d r q f p H Hr Hq Hf Hp Lp L.
    pose proof (clean_dir _ (clean_resolve [] r (Forall_nil _) (Forall_nil _) Hr)) as Cd.
    unfold url_join. rewrite (type_rel_path' p) by assumption. unfold url_text at 1. rewrite type_url by apply (place_origin _ _ H).
    cbn [bind]. rewrite ENSURE_place by assumption. cbn [bind url_type_eqb].
    rewrite below_resolve, <- as_dirs_resolve. destruct H as [o H|d H]; cbn [placed].
    - rewrite (with_base_rel' U C) by (try assumption; try (left; right; exact H); apply len_nonempty; lia). reflexivity.
    - destruct (uc_parse_drive U C d _ q f H (clean_plain _ Cd) Hq Hf) as [u [E S]]. rewrite resolve_clean in S by exact Cd.
      unfold with_base. rewrite E. cbn [unwrap_ok bind].
      assert (Np : path_text p <> []) by (apply len_nonempty; lia).
      destruct (uc_join_drive_rel U C u d _ q f p None None H Cd S Hp Np I I) as [u' [E' S']].
      cbn [tail_text app] in E'. rewrite app_nil_r in E'. rewrite E'. cbn [unwrap_ok bind].
      rewrite (shows_string _ _ _ _ _ _ S'). reflexivity.
  Qed.

  Lemma file_root_source : forall o d r q f p slash, file_place o d -> plain_path r -> plain_opt q -> plain_opt f -> plain_path p ->
    2 <= len (path_text p) <= 2147483645 -> 2 <= len (path_text (normal p)) ->
    len (url_text o (placed d r) q f) <= 2147483645 ->
    compute_source_url md U (Some (url_text o (placed d r) q f)) ((if slash : bool then lit "/" else []) ++ path_text p) None
    = Ok (url_text o (placed d (resolve_from [] (below r p))) None None).
  Proof.
    intros o d r q f p slash H Hr Hq Hf Hp L2 L3 L. rewrite (source_root_plain md U C) by (try assumption; lia).
    rewrite join_place by (try assumption; apply plain_normal; exact Hp).
    rewrite resolve_below_normal. reflexivity.
  Qed.

  Lemma file_localhost : forall o r q f p q' f', file_origin o -> plain_ref (RUrl o r q f) ->
    plain_ref (RNet (lit "localhost") p q' f') ->
    len (url_text o r q f) + len (net_text (lit "localhost") p q' f') <= 2147483644 ->
    url_join md U (url_text o r q f) (net_text (lit "localhost") p q' f')
    = Ok (url_text file_root (resolve_from [] p) q' f').
  Proof.
    intros o r q f p q' f' Ho Hr Hp L.
    pose proof (join_refs md U C (RUrl o r q f) (RNet (lit "localhost") p q' f') Hr Hp (or_introl I) L) as J.
    cbn [ref_text] in J. rewrite J. cbn [resolved given_text ref_text]. unfold net_origin.
    destruct Ho as [-> _]. reflexivity.
  Qed.

  Lemma file_map_verdict : forall sr src s o p q f,
    compute_source_url md U sr src None = Ok (path_text s) -> plain_path s -> 2 <= len (path_text s) ->
    file_origin o -> clean_path p -> plain_opt q -> plain_opt f -> len (url_text o p q f) <= 2147483645 ->
    let right := url_text o (resolve_from [] (below (mkPath (dirs p) []) s)) None None in
    (len (dirs p) <= 1 -> compute_source_url md U sr src (Some (url_text o p q f)) = Ok right)
    /\ (2 <= len (dirs p) -> clean_path s ->
        exists t, compute_source_url md U sr src (Some (url_text o p q f)) = Ok t /\ t <> right).
  Proof.
    intros sr src s o p q f E Ps Ls Ho Hp Hq Hf L.
    exact (map_url_url_verdict md U C sr src s o p q f E Ps Ls (or_introl (or_intror Ho)) Hp Hq Hf L).
  Qed.
End Files.
