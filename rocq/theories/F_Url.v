(** * join, compute_source_url and relative on plain paths and URLs *)
From Verif Require Import Base F_Base M_Util S_Url F_Dec F_UrlText F_UrlPath F_UrlOps.

(** ** lengths *)
Definition weight (r : rel) : Z := 3 * Z.of_nat (ups r) + len (dirs_text (downs r)).

Lemma len_dirs_cons : forall d ds, len (dirs_text (d :: ds)) = len d + 1 + len (dirs_text ds).
Proof. intros. rewrite dirs_text_cons, !len_app. cbn [lit]. change (len [N_of_ascii "/"]) with 1. lia. Qed.

Lemma len_dirs_app : forall a b, len (dirs_text (a ++ b)) = len (dirs_text a) + len (dirs_text b).
Proof. intros. rewrite dirs_text_app, len_app. reflexivity. Qed.

Lemma weight_move : forall r s, weight (rel_move r s) <= weight r + len s + 1.
Proof.
  intros [u d] s.
  destruct (seg_cases s) as [->|[->|[H1 [H2 [E1 E2]]]]].
  - unfold rel_move. change (is_dot dot) with true. cbn iota. change (len dot) with 1. lia.
  - change (len dotdot) with 2. destruct (snoc_cases _ d) as [->|[l [x ->]]].
    + unfold weight, rel_move. change (is_dot dotdot) with false. change (is_dotdot dotdot) with true.
      cbn [ups downs]. lia.
    + rewrite rel_dotdot_snoc. unfold weight. cbn [ups downs]. rewrite len_dirs_app, len_dirs_cons.
      change (len (dirs_text [])) with 0. pose proof (len_nonneg _ x). lia.
  - unfold rel_move. rewrite E1, E2. unfold weight. cbn [ups downs]. rewrite len_dirs_app, len_dirs_cons.
    change (len (dirs_text [])) with 0. lia.
Qed.

Lemma weight_fold : forall ds r, weight (fold_left rel_move ds r) <= weight r + len (dirs_text ds).
Proof.
  induction ds as [|d ds IH]; intros r; [change (len (dirs_text [])) with 0; cbn [fold_left]; lia|].
  cbn [fold_left]. rewrite len_dirs_cons. specialize (IH (rel_move r d)). pose proof (weight_move r d). lia.
Qed.

Lemma len_dotdots : forall n, len (dirs_text (repeat dotdot n)) = 3 * Z.of_nat n.
Proof.
  induction n; [reflexivity|]. cbn [repeat]. rewrite len_dirs_cons, IHn. change (len dotdot) with 2. lia.
Qed.

Lemma len_rel_path : forall r f, len (path_text (rel_path r f)) = weight r + len f.
Proof.
  intros. unfold path_text, rel_path, weight. cbn [dirs file]. rewrite len_app, len_dirs_app, len_dotdots. lia.
Qed.

Lemma len_path_text : forall p, len (path_text p) = len (dirs_text (dirs p)) + len (file p).
Proof. intros. unfold path_text. apply len_app. Qed.

Lemma len_file_dirs : forall p, len (dirs_text (file_dirs p)) + len (file_of p) <= len (file p) + 1.
Proof.
  intros p. unfold file_dirs, file_of. destruct (is_dot _ || _).
  - rewrite len_dirs_cons. change (len (dirs_text [])) with 0. change (len (@nil char)) with 0. lia.
  - change (len (dirs_text [])) with 0. lia.
Qed.

Lemma len_normal : forall p, len (path_text (normal p)) <= len (path_text p) + 1.
Proof.
  intros p. rewrite normal_eq, len_rel_path, len_path_text, rel_of_fold.
  pose proof (weight_fold (dirs p ++ file_dirs p) (mkRel 0 [])) as H. rewrite len_dirs_app in H.
  change (weight (mkRel 0 [])) with 0 in H. pose proof (len_file_dirs p). lia.
Qed.

Lemma len_dir : forall p, len (path_text (rel_path (dir_rel_of p) [])) <= len (path_text p) + 1.
Proof.
  intros p. rewrite len_rel_path, len_path_text. unfold dir_rel_of.
  pose proof (weight_fold (as_dirs p) (mkRel 0 [])) as H. unfold as_dirs in H at 2. rewrite len_dirs_app in H.
  change (weight (mkRel 0 [])) with 0 in H. change (len (@nil char)) with 0.
  destruct (file p) as [|c s].
  - change (len (dirs_text [])) with 0 in H. change (len (@nil char)) with 0. lia.
  - rewrite len_dirs_cons in H. change (len (dirs_text [])) with 0 in H. lia.
Qed.

(** ** a text glued to the file name *)
Definition glued (p : path) (q f : option str) : path := mkPath (dirs p) (file p ++ glue q ++ glue f).

Lemma glued_text : forall p q f, path_text p ++ glue q ++ glue f = path_text (glued p q f).
Proof. intros. unfold path_text, glued. cbn [dirs file]. rewrite !app_assoc. reflexivity. Qed.

Lemma glued_plain : forall p q f, plain_path p -> plain_opt q -> plain_opt f -> plain_path (glued p q f).
Proof.
  intros p q f [H1 H2] Hq Hf. split; [exact H1|]. cbn [glued file].
  repeat apply plain_app; [exact H2|destruct q|destruct f]; try constructor; assumption.
Qed.

Lemma dir_below : forall a b, rel_of (below a b) = fold_left rel_move (dirs b ++ file_dirs b) (dir_rel_of a).
Proof.
  intros a b. rewrite rel_of_fold. unfold below, dir_rel_of. cbn [dirs]. unfold file_dirs. cbn [file].
  rewrite <- !app_assoc, fold_left_app. reflexivity.
Qed.

Lemma file_below : forall a b, file_of (below a b) = file_of b.
Proof. reflexivity. Qed.

Lemma below_plain : forall a b, plain_path a -> plain_path b -> plain_path (below a b).
Proof.
  intros a b [A1 A2] [B1 B2]. split; [|exact B2]. cbn [below dirs]. apply Forall_app. split; [|exact B1].
  unfold as_dirs. apply Forall_app. split; [exact A1|]. destruct (file a) as [|c s]; constructor; [|constructor].
  split; [discriminate|exact A2].
Qed.

Lemma abs_resolve : forall seg k r p,
  (ups (fold_left rel_move (dirs p ++ file_dirs p) r) <= k)%nat ->
  resolve_from (absr seg k r) p = mkPath (absr seg k (fold_left rel_move (dirs p ++ file_dirs p) r)) (file_of p).
Proof. intros seg k r p H. rewrite resolve_eq, abs_fold by exact H. reflexivity. Qed.

Section Join.
  Context (md : mode) (U : UrlLib) (C : UrlContract U).

  Lemma with_base_rel : forall o b bq bf p q f,
    plain_origin o -> clean_path b -> plain_opt bq -> plain_opt bf ->
    plain_path p -> path_text p <> [] -> plain_opt q -> plain_opt f ->
    with_base U (path_text p ++ tail_text q f) (Some (url_text o b bq bf))
    = Ok (url_text o (resolve_from (dirs b) p) q f).
  Proof.
    intros o b bq bf p q f Ho Hb Hbq Hbf Hp Hn Hq Hf.
    destruct (parse_clean U C o b bq bf Ho Hb Hbq Hbf) as [u [E S]].
    unfold with_base. rewrite E. cbn [unwrap_ok bind].
    destruct (uc_join_rel U C u o b bq bf p q f Ho Hb S Hp Hn Hq Hf) as [u' [E' S']].
    rewrite E'. cbn [unwrap_ok bind]. rewrite (shows_string U _ _ _ _ _ S'). reflexivity.
  Qed.

  Lemma with_base_rel' : forall o b bq bf p,
    plain_origin o -> clean_path b -> plain_opt bq -> plain_opt bf ->
    plain_path p -> path_text p <> [] ->
    with_base U (path_text p) (Some (url_text o b bq bf)) = Ok (url_text o (resolve_from (dirs b) p) None None).
  Proof.
    intros o b bq bf p Ho Hb Hbq Hbf Hp Hn.
    pose proof (with_base_rel o b bq bf p None None Ho Hb Hbq Hbf Hp Hn I I) as H.
    cbn [tail_text app] in H. rewrite app_nil_r in H. exact H.
  Qed.

  (** a directory path may also be empty *)
  Lemma with_base_dir : forall o b p,
    plain_origin o -> clean_path b -> file b = [] -> plain_path p -> file p = [] ->
    with_base U (path_text p) (Some (url_text o b None None)) = Ok (url_text o (resolve_from (dirs b) p) None None).
  Proof.
    intros o b p Ho Hb Fb Hp Fp. destruct (path_text p) as [|c s] eqn:E.
    - assert (dirs p = []) as D.
      { destruct (dirs p) as [|d l] eqn:Ed; [reflexivity|]. exfalso. unfold path_text in E. rewrite Ed, dirs_text_cons in E.
        destruct d; discriminate. }
      destruct (parse_clean U C o b None None Ho Hb I I) as [u [E1 S]].
      unfold with_base. rewrite E1. cbn [unwrap_ok bind].
      destruct (uc_join_empty U C u o b None None Ho Hb S) as [u' [E' S']].
      rewrite E'. cbn [unwrap_ok bind]. rewrite (shows_string U _ _ _ _ _ S'). f_equal.
      unfold resolve_from. rewrite D, Fp. cbn [fold_left]. change (is_dot [] || is_dotdot []) with false. cbn iota.
      destruct b as [bd bf]. cbn [file dirs] in *. subst bf. reflexivity.
    - rewrite <- E. apply with_base_rel'; try assumption; try exact I. rewrite E. discriminate.
  Qed.

  Lemma clean_nil : clean_path (mkPath [] []).
  Proof. split; [split|split]; try constructor; cbn; discriminate. Qed.

  Lemma with_base_host : forall p q f, plain_path p -> plain_opt q -> plain_opt f ->
    with_base U (abs_text p ++ tail_text q f) (Some PROTOCOL_AND_HOST)
    = Ok (url_text host_origin (resolve_from [] p) q f).
  Proof.
    intros p q f Hp Hq Hf. destruct (uc_parse_root U C host_origin host_web) as [u [E S]].
    change (origin_text host_origin) with PROTOCOL_AND_HOST in E.
    unfold with_base. rewrite E. cbn [unwrap_ok bind].
    destruct (uc_join_abs U C u host_origin _ None None p q f host_plain clean_nil S Hp Hq Hf) as [u' [E' S']].
    rewrite E'. cbn [unwrap_ok bind]. rewrite (shows_string U _ _ _ _ _ S'). reflexivity.
  Qed.

  Lemma with_base_net : forall n p q f, plain_host n -> plain_path p -> plain_opt q -> plain_opt f ->
    with_base U (net_text n p q f) (Some PROTOCOL_AND_HOST)
    = Ok (url_text (mkOrigin (lit "http") n) (resolve_from [] p) q f).
  Proof.
    intros n p q f Hn Hp Hq Hf. destruct (uc_parse_root U C host_origin host_web) as [u [E S]].
    change (origin_text host_origin) with PROTOCOL_AND_HOST in E.
    unfold with_base. rewrite E. cbn [unwrap_ok bind].
    destruct (join_host_net U C u _ None None n p q f clean_nil S Hn Hp Hq Hf) as [u' [E' S']].
    rewrite E'. cbn [unwrap_ok bind]. rewrite (shows_string U _ _ _ _ _ S'). reflexivity.
  Qed.

  Lemma with_base_abs : forall o b bq bf p q f,
    plain_origin o -> clean_path b -> plain_opt bq -> plain_opt bf ->
    plain_path p -> plain_opt q -> plain_opt f ->
    with_base U (abs_text p ++ tail_text q f) (Some (url_text o b bq bf))
    = Ok (url_text o (resolve_from [] p) q f).
  Proof.
    intros o b bq bf p q f Ho Hb Hbq Hbf Hp Hq Hf.
    destruct (parse_clean U C o b bq bf Ho Hb Hbq Hbf) as [u [E S]].
    unfold with_base. rewrite E. cbn [unwrap_ok bind].
    destruct (uc_join_abs U C u o b bq bf p q f Ho Hb S Hp Hq Hf) as [u' [E' S']].
    rewrite E'. cbn [unwrap_ok bind]. rewrite (shows_string U _ _ _ _ _ S'). reflexivity.
  Qed.

  Lemma type_rel_path' : forall p, plain_path p -> 2 <= len (path_text p) ->
    get_url_type (path_text p) = Ok PathRelative.
  Proof.
    intros p Hp L. pose proof (type_rel_path p None None Hp I I) as H. cbn [tail_text app] in H.
    rewrite app_nil_r in H. apply H. exact L.
  Qed.

  Lemma type_abs_path' : forall p, plain_path p -> 1 <= len (path_text p) ->
    get_url_type (abs_text p) = Ok PathAbsolute.
  Proof.
    intros p Hp L. pose proof (type_abs_path p None None Hp I I) as H. cbn [tail_text app] in H.
    rewrite !app_nil_r in H. apply H. exact L.
  Qed.

  Lemma len_nonempty : forall s : str, 1 <= len s -> s <> [].
  Proof. intros s L ->. cbn in L. lia. Qed.

  (** ** join *)
  Lemma join_rr : forall r p, plain_path r -> plain_path p ->
    2 <= len (path_text r) -> 2 <= len (path_text p) ->
    len (path_text r) + len (path_text p) <= 2147483644 ->
    url_join md U (path_text r) (path_text p) = Ok (path_text (normal (below r p))).
  Proof.
    intros r p Hr Hp Lr Lp L. unfold url_join.
    rewrite (type_rel_path' p), (type_rel_path' r) by assumption. cbn [bind].
    pose proof (len_nonneg _ (path_text r)). pose proof (len_nonneg _ (path_text p)).
    rewrite (ENSURE_rel md U C) by (try assumption; lia). cbn [bind url_type_eqb].
    destruct (dir_rel_facts r Hr) as [F1 [F2 [F3 F4]]].
    set (D := rel_path (dir_rel_of r) []).
    assert (HD : plain_path D).
    { split; [|constructor]. cbn [D rel_path dirs]. apply Forall_app. split; [|exact F1].
      apply Forall_forall. intros x Hx. apply repeat_spec in Hx. subst x. apply plain_dotdot. }
    pose proof (len_dir r) as LD. fold D in LD.
    destruct (base_ok md U C (path_text p ++ path_text D)) as [base [seg [k [u B]]]].
    { rewrite len_app. lia. }
    rewrite (b_ok _ _ _ _ _ _ _ B). cbn [bind].
    pose proof (b_text _ _ _ _ _ _ _ B) as Eb. pose proof (b_clean _ _ _ _ _ _ _ B) as Cb.
    pose proof (b_proper _ _ _ _ _ _ _ B) as Ps. pose proof (b_plain _ _ _ _ _ _ _ B) as Pl.
    rewrite Eb at 1. rewrite with_base_dir by (try assumption; try reflexivity; apply host_plain).
    cbn [bind dirs].
    (* how far up the paths go *)
    assert (K1 : (dotdots (dirs D ++ file_dirs D) + dotdots (dirs p ++ file_dirs p) <= k)%nat).
    { rewrite (b_count _ _ _ _ _ _ _ B).
      pose proof (count_app' (path_text p) (path_text D)). pose proof (path_dotdots p).
      pose proof (path_dotdots D). lia. }
    assert (R : rel_of D = dir_rel_of r).
    { rewrite rel_of_fold. change (file_dirs D) with (@nil str). cbn [D rel_path dirs]. rewrite app_nil_r, fold_left_app.
      rewrite fold_rel_dotdots, fold_rel_proper by exact F2. cbn [ups downs app].
      destruct (dir_rel_of r). reflexivity. }
    assert (K2 : (ups (dir_rel_of r) <= dotdots (dirs D ++ file_dirs D))%nat).
    { rewrite <- R, rel_of_fold. pose proof (ups_fold (dirs D ++ file_dirs D) (mkRel 0 [])). cbn [ups] in *. lia. }
    pose proof (ups_fold (dirs p ++ file_dirs p) (dir_rel_of r)) as K3.
    rewrite resolve_base by (rewrite R; lia). rewrite R. change (file_of D) with (@nil char).
    pose proof (absr_clean md U _ _ _ _ _ (dir_rel_of r) [] B F1 F2 plain_nil proper_nil) as Cd.
    rewrite with_base_rel' by (try assumption; try exact I; try apply host_plain; apply len_nonempty; lia).
    cbn [bind dirs]. rewrite abs_resolve by lia. rewrite <- dir_below, <- file_below with (a := r).
    rewrite normal_eq.
    pose proof (below_plain r p Hr Hp) as Pb. destruct (plain_rel_path _ Pb) as [Q1 Q2].
    assert (NS : ~ substring seg (path_text p) /\ ~ substring seg (path_text D)).
    { pose proof (b_fresh _ _ _ _ _ _ _ B) as N. split; intros S; apply N;
        [apply substring_app_l|apply substring_app_r]; exact S. }
    destruct NS as [N1 N2].
    assert (FR : Forall (fun d => d <> seg) (downs (rel_of (below r p)))).
    { rewrite dir_below. apply (fold_rel_good (fun d => d <> seg)).
      - apply (@Forall_impl _ (fun d => substring d (path_text D)) (fun d => d <> seg)).
        + intros d S ->. apply N2. exact S.
        + apply Forall_forall. intros d Hd. unfold path_text. apply substring_app_l. apply dirs_substring.
          cbn [D rel_path dirs]. apply in_or_app. right. exact Hd.
      - apply Forall_app. split.
        + apply Forall_forall. intros d Hd _ ->. apply N1. unfold path_text. apply substring_app_l.
          apply dirs_substring. exact Hd.
        + unfold file_dirs. destruct (seg_cases (file p)) as [->|[->|[G1 [G2 [E1 E2]]]]].
          * constructor; [|constructor]. intros [G _]. exfalso. apply G. reflexivity.
          * constructor; [|constructor]. intros [_ G]. exfalso. apply G. reflexivity.
          * rewrite E1, E2. constructor. }
    rewrite (relative_ok md U C _ base seg k u (rel_of (below r p)) (file_of (below r p)) None None B).
    - cbn [glue]. rewrite !app_nil_r. reflexivity.
    - rewrite dir_below. lia.
    - exact FR.
    - left. rewrite file_below. apply file_of_fresh; [apply Pl|exact N1].
    - exact Q1.
    - apply rel_of_proper.
    - exact Q2.
    - apply file_of_proper.
    - exact I.
    - exact I.
  Qed.

  Lemma join_ar : forall r q f p, plain_path r -> plain_opt q -> plain_opt f -> plain_path p ->
    1 <= len (path_text r ++ tail_text q f) -> 2 <= len (path_text p) ->
    len (abs_text r ++ tail_text q f) <= 2147483645 ->
    url_join md U (abs_text r ++ tail_text q f) (path_text p) = Ok (abs_text (resolve_from [] (below r p))).
  Proof.
    intros r q f p Hr Hq Hf Hp Lr Lp L. unfold url_join.
    rewrite (type_rel_path' p), (type_abs_path r) by assumption. cbn [bind].
    rewrite (ENSURE_abs md U C) by assumption.
    cbn [bind url_type_eqb].
    pose proof (clean_dir _ (clean_resolve [] r (Forall_nil _) (Forall_nil _) Hr)) as Cd.
    rewrite with_base_host by (try assumption; apply clean_plain; exact Cd). cbn [bind].
    rewrite resolve_clean by exact Cd.
    rewrite with_base_rel' by (try assumption; try apply host_plain; apply len_nonempty; lia).
    cbn [bind]. f_equal. cbn [dir_path dirs]. rewrite as_dirs_resolve. rewrite <- below_resolve.
    unfold url_text. cbn [tail_text app]. rewrite app_nil_r. reflexivity.
  Qed.

  Lemma join_nr : forall n r q f p, plain_host n -> plain_path r -> plain_opt q -> plain_opt f -> plain_path p ->
    2 <= len (path_text p) -> len (net_text n r q f) <= 2147483645 ->
    url_join md U (net_text n r q f) (path_text p) = Ok (net_text n (resolve_from [] (below r p)) None None).
  Proof.
    intros n r q f p Hn Hr Hq Hf Hp Lp L. unfold url_join.
    rewrite (type_rel_path' p), type_net by assumption. cbn [bind].
    rewrite (ENSURE_net md U C) by assumption.
    cbn [bind url_type_eqb].
    pose proof (clean_dir _ (clean_resolve [] r (Forall_nil _) (Forall_nil _) Hr)) as Cd.
    rewrite with_base_net by (try assumption; apply clean_plain; exact Cd). cbn [bind].
    rewrite resolve_clean by exact Cd.
    rewrite with_base_rel' by (try assumption; try (apply http_plain; exact Hn); apply len_nonempty; lia).
    cbn [bind]. f_equal. cbn [dir_path dirs]. rewrite as_dirs_resolve. rewrite <- below_resolve.
    apply skip_protocol.
  Qed.

  Lemma join_ur : forall o r q f p, plain_origin o -> plain_path r -> plain_opt q -> plain_opt f -> plain_path p ->
    2 <= len (path_text p) -> len (url_text o r q f) <= 2147483645 ->
    url_join md U (url_text o r q f) (path_text p) = Ok (url_text o (resolve_from [] (below r p)) None None).
  Proof.
    intros o r q f p Ho Hr Hq Hf Hp Lp L. unfold url_join.
    rewrite (type_rel_path' p) by assumption. unfold url_text at 1. rewrite type_url by assumption. cbn [bind].
    rewrite (ENSURE_url md U C) by assumption. cbn [bind url_type_eqb].
    pose proof (clean_dir _ (clean_resolve [] r (Forall_nil _) (Forall_nil _) Hr)) as Cd.
    rewrite with_base_rel' by (try assumption; apply len_nonempty; lia).
    f_equal. cbn [dir_path dirs]. rewrite as_dirs_resolve. rewrite <- below_resolve. reflexivity.
  Qed.

  Lemma join_ua : forall o r q f p q' f', plain_origin o -> plain_path r -> plain_opt q -> plain_opt f ->
    plain_path p -> plain_opt q' -> plain_opt f' ->
    1 <= len (path_text p ++ tail_text q' f') -> len (url_text o r q f) <= 2147483645 ->
    url_join md U (url_text o r q f) (abs_text p ++ tail_text q' f')
    = Ok (url_text o (resolve_from [] p) q' f').
  Proof.
    intros o r q f p q' f' Ho Hr Hq Hf Hp Hq' Hf' Lp L. unfold url_join.
    rewrite type_abs_path by assumption. unfold url_text at 1. rewrite type_url by assumption. cbn [bind].
    rewrite (ENSURE_url md U C) by assumption. cbn [bind url_type_eqb].
    pose proof (clean_dir _ (clean_resolve [] r (Forall_nil _) (Forall_nil _) Hr)) as Cd.
    apply with_base_abs; assumption.
  Qed.

  (** a root of any other kind makes no difference for an absolute path *)
  Lemma join_ra : forall root rt d p q' f',
    get_url_type root = Ok rt -> rt = PathRelative \/ rt = PathAbsolute ->
    ENSURE_DIRECTORY md U root = Ok d ->
    plain_path p -> plain_opt q' -> plain_opt f' ->
    1 <= len (path_text p ++ tail_text q' f') -> len (abs_text p ++ tail_text q' f') <= 2147483645 ->
    url_join md U root (abs_text p ++ tail_text q' f')
    = Ok (abs_text (resolve_from [] p) ++ tail_text q' f').
  Proof.
    intros root rt d p q' f' Et Hrt Ed Hp Hq' Hf' Lp L. unfold url_join.
    rewrite type_abs_path by assumption. rewrite Et. cbn [bind]. rewrite Ed. cbn [bind].
    destruct Hrt as [-> | ->]; cbn [url_type_eqb]; apply (NORMALIZE_abs md U C); assumption.
  Qed.

  Lemma join_xu : forall root rt d o rest,
    get_url_type root = Ok rt -> ENSURE_DIRECTORY md U root = Ok d -> plain_origin o ->
    url_join md U root (origin_text o ++ rest) = Ok (origin_text o ++ rest).
  Proof.
    intros root rt d o rest Et Ed Ho. unfold url_join. rewrite type_url by assumption. rewrite Et. cbn [bind].
    rewrite Ed. reflexivity.
  Qed.
End Join.
