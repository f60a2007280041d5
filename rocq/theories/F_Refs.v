(** * join, relative and compute_source_url on references of every kind (C34, C36, C37, C76) *)
From Verif Require Import Base F_Base M_Util M_Generator S_Url S_Refs F_Dec F_UrlText F_UrlPath F_UrlOps F_Url F_UrlSource.
From Verif Require Import F_UrlProps.

Lemma len_tail : forall q f, len (glue q ++ glue f) <= len (tail_text q f).
Proof.
  intros q f. unfold tail_text. rewrite !len_app.
  destruct q as [q|], f as [f|]; cbn [glue]; rewrite ?len_app; change (len (lit "?")) with 1;
    change (len (lit "#")) with 1; change (len (@nil char)) with 0; lia.
Qed.

Lemma glue_plain : forall q f, plain_opt q -> plain_opt f -> plain (glue q ++ glue f).
Proof. intros q f Hq Hf. apply plain_app; [destruct q|destruct f]; try constructor; assumption. Qed.

Lemma len_move : forall s l, len (dirs_text (move l s)) <= len (dirs_text l) + len s + 1.
Proof.
  intros s l. pose proof (len_nonneg _ s). unfold move. destruct (is_dot s); [lia|]. destruct (is_dotdot s).
  - unfold up. destruct (snoc_cases _ l) as [->|[l' [x ->]]]; [cbn; lia|].
    rewrite removelast_last, len_dirs_app. pose proof (len_nonneg _ (dirs_text [x])). lia.
  - rewrite len_dirs_app, len_dirs_cons. change (len (dirs_text [])) with 0. lia.
Qed.

Lemma len_moves : forall ds l, len (dirs_text (fold_left move ds l)) <= len (dirs_text l) + len (dirs_text ds).
Proof.
  induction ds as [|d ds IH]; intros l; cbn [fold_left]; [change (len (dirs_text [])) with 0; lia|].
  rewrite len_dirs_cons. specialize (IH (move l d)). pose proof (len_move d l). lia.
Qed.

Lemma len_resolve : forall p, len (path_text (resolve_from [] p)) <= len (path_text p).
Proof.
  intros p. rewrite !len_path_text. unfold resolve_from. pose proof (len_moves (dirs p) []) as H.
  change (len (dirs_text [])) with 0 in H. pose proof (len_nonneg _ (file p)).
  destruct (is_dot (file p)) eqn:E1; [|destruct (is_dotdot (file p)) eqn:E2]; cbn [orb dirs file].
  - assert (M : forall l, move l (file p) = l) by (intros l; unfold move; rewrite E1; reflexivity).
    rewrite M. change (len (@nil char)) with 0. lia.
  - assert (M : forall l, move l (file p) = up l) by (intros l; unfold move; rewrite E1, E2; reflexivity).
    rewrite M. change (len (@nil char)) with 0. unfold up.
    destruct (snoc_cases _ (fold_left move (dirs p) [])) as [G|[l' [x G]]]; rewrite G in *; [cbn [removelast]; change (len (dirs_text [])) with 0 in *; lia|].
    rewrite removelast_last. rewrite len_dirs_app in H. pose proof (len_nonneg _ (dirs_text [x])). lia.
  - lia.
Qed.

Section Refs.
  Context (md : mode) (U : UrlLib) (C : UrlContract U).

  Definition kind (r : ref) : UrlType :=
    match r with RRel _ _ _ => PathRelative | RAbs _ _ _ => PathAbsolute
               | RNet _ _ _ _ => SchemeRelative | RUrl _ _ _ _ => Absolute end.

  Lemma ref_type : forall r, plain_ref r -> get_url_type (ref_text r) = Ok (kind r).
  Proof.
    intros [p q f|p q f|h p q f|o p q f] [H L]; cbn [ref_text kind] in *.
    - destruct H as [H1 [H2 [H3 H4]]]. apply type_rel_path; assumption.
    - destruct H as [H1 [H2 H3]]. apply type_abs_path; try assumption.
      unfold abs_text in L. rewrite <- app_assoc, len_app in L. change (len (lit "/")) with 1 in L. lia.
    - apply type_net.
    - destruct H as [H1 _]. unfold url_text. apply type_url. exact H1.
  Qed.

  Lemma ENSURE_rel_tail : forall p q f, plain_path p -> path_text p <> [] -> plain_opt q -> plain_opt f ->
    2 <= len (path_text p ++ tail_text q f) <= 2147483645 ->
    ENSURE_DIRECTORY md U (path_text p ++ tail_text q f)
    = Ok (path_text (rel_path (dir_rel_of p) (glue q ++ glue f))).
  Proof.
    intros p q f Hp Hn Hq Hf L. pose proof (dir_rel_facts p Hp) as [F1 [F2 [F3 F4]]].
    pose proof (handler_rel md U C (ensure_directory_cb U) dir_path p q f (dir_rel_of p) []) as H.
    unfold ENSURE_DIRECTORY. rewrite H; auto using acts_web, acts_ensure, proper_nil.
    - f_equal. unfold path_text, rel_path. cbn [dirs file]. rewrite app_nil_r. reflexivity.
    - intros seg Hs. rewrite dir_rel_cases. unfold dir_path, as_dirs. cbn [dirs file].
      destruct (file_of p); cbn [ups downs]; unfold absr; cbn [ups downs]; [rewrite app_nil_r; reflexivity|].
      rewrite app_assoc. reflexivity.
    - rewrite F3. apply ups_count.
    - constructor.
  Qed.

  Lemma ref_ensure : forall r, plain_ref r -> len (ref_text r) <= 2147483645 ->
    exists d, ENSURE_DIRECTORY md U (ref_text r) = Ok d.
  Proof.
    intros [p q f|p q f|h p q f|o p q f] [H L] B; cbn [ref_text] in *.
    - destruct H as [H1 [H2 [H3 H4]]]. eexists. apply ENSURE_rel_tail; try assumption. lia.
    - destruct H as [H1 [H2 H3]]. eexists. apply (ENSURE_abs md U C); try assumption.
      unfold abs_text in L. rewrite <- app_assoc, len_app in L. change (len (lit "/")) with 1 in L. lia.
    - destruct H as [H1 [H2 [H3 H4]]]. eexists. apply (ENSURE_net md U C); assumption.
    - destruct H as [H1 [H2 [H3 H4]]]. eexists. apply (ENSURE_url md U C); assumption.
  Qed.

  (** ** the rest of the table *)
  Lemma with_base_any : forall o b p q f,
    plain_origin o -> clean_path b -> file b = [] -> plain_path p -> plain_opt q -> plain_opt f ->
    path_text p <> [] \/ q = None /\ f = None ->
    with_base U (path_text p ++ tail_text q f) (Some (url_text o b None None))
    = Ok (url_text o (resolve_from (dirs b) p) q f).
  Proof.
    intros o b p q f Ho Hb Fb Hp Hq Hf [Hn|[-> ->]].
    - apply (with_base_rel U C); try assumption; exact I.
    - cbn [tail_text app]. rewrite app_nil_r. destruct (path_text p) as [|c s] eqn:E.
      + assert (file p = []) as D.
        { unfold path_text in E. apply app_eq_nil in E. apply E. }
        rewrite <- E. apply (with_base_dir U C); assumption.
      + rewrite <- E. apply (with_base_rel' U C); try assumption; try exact I. rewrite E. discriminate.
  Qed.

  Lemma join_rel_rel : forall r q f p q' f',
    plain_ref (RRel r q f) -> plain_ref (RRel p q' f') -> proper (glue q ++ glue f) ->
    len (ref_text (RRel r q f)) + len (ref_text (RRel p q' f')) <= 2147483644 ->
    url_join md U (ref_text (RRel r q f)) (ref_text (RRel p q' f'))
    = Ok (path_text (normal (below r p)) ++ glue q' ++ glue f').
  Proof.
    intros r q f p q' f' Pr Pp G L. unfold url_join. rewrite !ref_type by assumption. cbn [bind kind].
    destruct Pr as [[Hr [Hq [Hf Nr]]] Lr]. destruct Pp as [[Hp [Hq' [Hf' Np]]] Lp]. cbn [ref_text] in *.
    rewrite ENSURE_rel_tail by (try assumption; lia). cbn [bind url_type_eqb].
    destruct (dir_rel_facts r Hr) as [F1 [F2 [F3 F4]]].
    set (g := glue q ++ glue f) in *. set (D := rel_path (dir_rel_of r) g).
    pose proof (glue_plain q f Hq Hf) as Pg. fold g in Pg.
    assert (HD : plain_path D).
    { split; [|exact Pg]. cbn [D rel_path dirs]. apply Forall_app. split; [|exact F1].
      apply Forall_forall. intros x Hx. apply repeat_spec in Hx. subst x. apply plain_dotdot. }
    assert (LD : len (path_text D) <= len (path_text r ++ tail_text q f) + 1).
    { unfold D. rewrite len_rel_path. pose proof (len_dir r) as X. rewrite len_rel_path in X.
      change (len (@nil char)) with 0 in X. rewrite len_app. pose proof (len_tail q f) as Y. fold g in Y. lia. }
    set (P := path_text p ++ tail_text q' f') in *.
    destruct (base_ok md U C (P ++ path_text D)) as [base [seg [k [u B]]]].
    { rewrite len_app. lia. }
    rewrite (b_ok _ _ _ _ _ _ _ B). cbn [bind].
    pose proof (b_text _ _ _ _ _ _ _ B) as Eb. pose proof (b_clean _ _ _ _ _ _ _ B) as Cb.
    pose proof (b_proper _ _ _ _ _ _ _ B) as Ps. pose proof (b_plain _ _ _ _ _ _ _ B) as Pl.
    assert (W : with_base U (path_text D) (Some base) = Ok (url_text host_origin (resolve_from (repeat seg k) D) None None)).
    { rewrite Eb. pose proof (with_base_any host_origin (mkPath (repeat seg k) []) D None None host_plain Cb eq_refl HD I I
                                 (or_intror (conj eq_refl eq_refl))) as W.
      cbn [tail_text app dirs] in W. rewrite app_nil_r in W. exact W. }
    rewrite W. cbn [bind].
    (* how far up the paths go *)
    assert (K1 : (dotdots (dirs D ++ file_dirs D) + dotdots (dirs p ++ file_dirs p) <= k)%nat).
    { rewrite (b_count _ _ _ _ _ _ _ B).
      pose proof (count_app' P (path_text D)). pose proof (path_dotdots p).
      pose proof (count_app' (path_text p) (tail_text q' f')) as K0. fold P in K0.
      pose proof (path_dotdots D). lia. }
    assert (FD : file_dirs D = [] /\ file_of D = g).
    { unfold file_dirs, file_of. cbn [D rel_path file]. destruct (is_dot_proper _ G) as [-> ->]. split; reflexivity. }
    destruct FD as [FD1 FD2].
    assert (R : rel_of D = dir_rel_of r).
    { rewrite rel_of_fold, FD1. cbn [D rel_path dirs]. rewrite app_nil_r, fold_left_app.
      rewrite fold_rel_dotdots, fold_rel_proper by exact F2. cbn [ups downs app].
      destruct (dir_rel_of r). reflexivity. }
    assert (K2 : (ups (dir_rel_of r) <= dotdots (dirs D ++ file_dirs D))%nat).
    { rewrite <- R, rel_of_fold. pose proof (ups_fold (dirs D ++ file_dirs D) (mkRel 0 [])). cbn [ups] in *. lia. }
    pose proof (ups_fold (dirs p ++ file_dirs p) (dir_rel_of r)) as K3.
    rewrite resolve_base by (rewrite R; lia). rewrite R, FD2.
    pose proof (absr_clean md U _ _ _ _ _ (dir_rel_of r) g B F1 F2 Pg G) as Cd.
    unfold P at 1. rewrite (with_base_rel U C) by (try assumption; try exact I; apply host_plain).
    cbn [bind dirs]. rewrite abs_resolve by lia. rewrite <- dir_below, <- file_below with (a := r).
    rewrite normal_eq.
    pose proof (below_plain r p Hr Hp) as Pb. destruct (plain_rel_path _ Pb) as [Q1 Q2].
    assert (NS : ~ substring seg (path_text p) /\ ~ substring seg (path_text D)).
    { pose proof (b_fresh _ _ _ _ _ _ _ B) as N. split; intros S; apply N;
        [apply substring_app_l; apply substring_app_l|apply substring_app_r]; exact S. }
    destruct NS as [N1 N2].
    assert (FR : Forall (fun d => d <> seg) (downs (rel_of (below r p)))).
    { rewrite dir_below. apply (fold_rel_good (fun d => d <> seg)).
      - apply (@Forall_impl _ (fun d => substring d (path_text D)) (fun d => d <> seg)).
        + intros d S ->. apply N2. exact S.
        + apply Forall_forall. intros d Hd. unfold path_text. apply substring_app_l. apply dirs_substring.
          cbn [D rel_path dirs]. apply in_or_app. right. exact Hd.
      - apply Forall_app. split.
        + apply Forall_forall. intros d Hd _ ->. apply N1. unfold path_text. apply substring_app_l.
          apply dirs_substring. exact Hd.
        + unfold file_dirs. destruct (seg_cases (file p)) as [->|[->|[G1 [G2 [E1 E2]]]]].
          * constructor; [|constructor]. intros [G1 _]. exfalso. apply G1. reflexivity.
          * constructor; [|constructor]. intros [_ G1]. exfalso. apply G1. reflexivity.
          * rewrite E1, E2. constructor. }
    apply (relative_ok md U C _ base seg k u (rel_of (below r p)) (file_of (below r p)) q' f' B); try assumption.
    - rewrite dir_below. lia.
    - left. rewrite file_below. apply file_of_fresh; [apply Pl|exact N1].
    - apply rel_of_proper.
    - apply file_of_proper.
  Qed.

  Lemma join_abs_rel : forall r q f p q' f', plain_path r -> plain_opt q -> plain_opt f ->
    plain_ref (RRel p q' f') ->
    1 <= len (path_text r ++ tail_text q f) -> len (abs_text r ++ tail_text q f) <= 2147483645 ->
    url_join md U (abs_text r ++ tail_text q f) (ref_text (RRel p q' f'))
    = Ok (abs_text (resolve_from [] (below r p)) ++ tail_text q' f').
  Proof.
    intros r q f p q' f' Hr Hq Hf Pp Lr L. unfold url_join. rewrite ref_type by exact Pp.
    rewrite (type_abs_path r) by assumption. cbn [bind kind].
    destruct Pp as [[Hp [Hq' [Hf' Np]]] Lp]. cbn [ref_text] in *.
    rewrite (ENSURE_abs md U C) by assumption. cbn [bind url_type_eqb].
    pose proof (clean_dir _ (clean_resolve [] r (Forall_nil _) (Forall_nil _) Hr)) as Cd.
    rewrite (with_base_host U C) by (try assumption; apply clean_plain; exact Cd). cbn [bind].
    rewrite resolve_clean by exact Cd.
    rewrite (with_base_rel U C) by (try assumption; apply host_plain).
    cbn [bind]. f_equal. cbn [dir_path dirs]. rewrite as_dirs_resolve, <- below_resolve. reflexivity.
  Qed.

  Lemma join_net_rel : forall n r q f p q' f', plain_host n -> plain_path r -> plain_opt q -> plain_opt f ->
    plain_ref (RRel p q' f') -> len (net_text n r q f) <= 2147483645 ->
    url_join md U (net_text n r q f) (ref_text (RRel p q' f'))
    = Ok (net_text n (resolve_from [] (below r p)) q' f').
  Proof.
    intros n r q f p q' f' Hn Hr Hq Hf Pp L. unfold url_join. rewrite ref_type by exact Pp.
    rewrite type_net. cbn [bind kind].
    destruct Pp as [[Hp [Hq' [Hf' Np]]] Lp]. cbn [ref_text] in *.
    rewrite (ENSURE_net md U C) by assumption. cbn [bind url_type_eqb].
    pose proof (clean_dir _ (clean_resolve [] r (Forall_nil _) (Forall_nil _) Hr)) as Cd.
    rewrite (with_base_net U C) by (try assumption; apply clean_plain; exact Cd). cbn [bind].
    rewrite resolve_clean by exact Cd.
    rewrite (with_base_rel U C) by (try assumption; (apply http_plain; exact Hn)).
    cbn [bind]. f_equal. cbn [dir_path dirs]. rewrite as_dirs_resolve, <- below_resolve. apply skip_protocol.
  Qed.

  Lemma join_net_abs : forall n r q f p q' f', plain_host n -> plain_path r -> plain_opt q -> plain_opt f ->
    plain_ref (RAbs p q' f') -> len (net_text n r q f) <= 2147483645 ->
    url_join md U (net_text n r q f) (ref_text (RAbs p q' f'))
    = Ok (net_text n (resolve_from [] p) q' f').
  Proof.
    intros n r q f p q' f' Hn Hr Hq Hf Pp L. unfold url_join. rewrite ref_type by exact Pp.
    rewrite type_net. cbn [bind kind].
    destruct Pp as [[Hp [Hq' Hf']] Lp]. cbn [ref_text] in *.
    rewrite (ENSURE_net md U C) by assumption. cbn [bind url_type_eqb].
    pose proof (clean_dir _ (clean_resolve [] r (Forall_nil _) (Forall_nil _) Hr)) as Cd.
    rewrite (with_base_net U C) by (try assumption; apply clean_plain; exact Cd). cbn [bind].
    rewrite resolve_clean by exact Cd.
    rewrite (with_base_abs U C) by (try assumption; (apply http_plain; exact Hn)).
    cbn [bind]. f_equal. apply skip_protocol.
  Qed.

  Lemma join_url_rel : forall o r q f p q' f', plain_origin o -> plain_path r -> plain_opt q -> plain_opt f ->
    plain_ref (RRel p q' f') -> len (url_text o r q f) <= 2147483645 ->
    url_join md U (url_text o r q f) (ref_text (RRel p q' f'))
    = Ok (url_text o (resolve_from [] (below r p)) q' f').
  Proof.
    intros o r q f p q' f' Ho Hr Hq Hf Pp L. unfold url_join. rewrite ref_type by exact Pp.
    unfold url_text at 1. rewrite type_url by assumption. cbn [bind kind].
    destruct Pp as [[Hp [Hq' [Hf' Np]]] Lp]. cbn [ref_text] in *.
    rewrite (ENSURE_url md U C) by assumption. cbn [bind url_type_eqb].
    pose proof (clean_dir _ (clean_resolve [] r (Forall_nil _) (Forall_nil _) Hr)) as Cd.
    rewrite (with_base_rel U C) by assumption.
    f_equal. cbn [dir_path dirs]. rewrite as_dirs_resolve, <- below_resolve. reflexivity.
  Qed.

  Lemma join_url_net : forall o r q f h p q' f', plain_origin o -> plain_path r -> plain_opt q -> plain_opt f ->
    plain_host h -> plain_path p -> plain_opt q' -> plain_opt f' -> len (url_text o r q f) <= 2147483645 ->
    url_join md U (url_text o r q f) (net_text h p q' f')
    = Ok (url_text (net_origin (o_scheme o) h) (resolve_from [] p) q' f').
  Proof.
    intros o r q f h p q' f' Ho Hr Hq Hf Hh Hp Hq' Hf' L. unfold url_join. rewrite type_net.
    unfold url_text at 1. rewrite type_url by assumption. cbn [bind].
    rewrite (ENSURE_url md U C) by assumption. cbn [bind url_type_eqb].
    pose proof (clean_dir _ (clean_resolve [] r (Forall_nil _) (Forall_nil _) Hr)) as Cd.
    destruct (parse_clean U C o _ q f Ho Cd Hq Hf) as [u [E S]].
    unfold with_base. rewrite E. cbn [unwrap_ok bind].
    destruct (uc_join_net U C u o _ q f h p q' f' Ho Cd S Hh Hp Hq' Hf') as [u' [E' S']].
    rewrite E'. cbn [unwrap_ok bind]. rewrite (shows_string U _ _ _ _ _ S'). reflexivity.
  Qed.

  Lemma long_abs : forall p q f, 2 <= len (abs_text p ++ tail_text q f) -> 1 <= len (path_text p ++ tail_text q f).
  Proof.
    intros p q f L. unfold abs_text in L. rewrite <- app_assoc, len_app in L. change (len (lit "/")) with 1 in L. lia.
  Qed.

  Lemma long_abs' : forall p q f, 1 <= len (path_text p ++ tail_text q f) -> 2 <= len (abs_text p ++ tail_text q f).
  Proof.
    intros p q f L. unfold abs_text. rewrite <- app_assoc, len_app. change (len (lit "/")) with 1. lia.
  Qed.

  (** ** join *)
  Lemma join_refs : forall root t, plain_ref root -> plain_ref t -> harmless_markers root \/ ~ is_relative t ->
    len (ref_text root) + len (ref_text t) <= 2147483644 ->
    url_join md U (ref_text root) (ref_text t) = Ok (given_text (resolved root t)).
  Proof.
    intros root t Pr Pt M L.
    pose proof (len_nonneg _ (ref_text root)) as N1. pose proof (len_nonneg _ (ref_text t)) as N2.
    destruct (ref_ensure root Pr ltac:(lia)) as [d Ed]. pose proof (ref_type root Pr) as Er.
    destruct t as [p q' f'|p q' f'|h p q' f'|o' p q' f'].
    - destruct M as [M|M]; [|exfalso; apply M; exact I].
      destruct root as [r q f|r q f|h r q f|o r q f]; pose proof Pr as [Hr Lr]; cbn [resolved given_text ref_text harmless_markers] in *.
      + apply join_rel_rel; try assumption; cbn [ref_text]; lia.
      + destruct Hr as [H1 [H2 H3]]. apply join_abs_rel; try assumption; [apply long_abs; exact Lr|lia].
      + destruct Hr as [H1 [H2 [H3 H4]]]. apply join_net_rel; try assumption. lia.
      + destruct Hr as [H1 [H2 [H3 H4]]]. apply join_url_rel; try assumption. lia.
    - destruct Pt as [[Hp [Hq Hf]] Lt].
      destruct root as [r q f|r q f|h r q f|o r q f]; cbn [resolved given_text ref_text kind] in *.
      + eapply (join_ra md U C); try eassumption; [left; reflexivity|apply long_abs; assumption|lia].
      + eapply (join_ra md U C); try eassumption; [right; reflexivity|apply long_abs; assumption|lia].
      + destruct Pr as [[H1 [H2 [H3 H4]]] Lr]. apply join_net_abs; try assumption; [|lia].
        split; [|exact Lt]. exact (conj Hp (conj Hq Hf)).
      + destruct Pr as [[H1 [H2 [H3 H4]]] Lr]. cbn [ref_text] in *.
        apply (join_ua md U C); try assumption; [apply long_abs; exact Lt|lia].
    - destruct Pt as [[Hh [Hp [Hq Hf]]] Lt].
      destruct root as [r q f|r q f|n r q f|o r q f]; cbn [resolved given_text ref_text kind] in *.
      1-3: unfold url_join; rewrite type_net, Er; cbn [bind]; rewrite Ed; cbn [bind url_type_eqb];
           apply (NORMALIZE_net md U C); try assumption; lia.
      destruct Pr as [[H1 [H2 [H3 H4]]] Lr]. apply join_url_net; try assumption. cbn [ref_text] in *. lia.
    - destruct Pt as [[Ho _] _]. cbn [resolved given_text ref_text] in *. unfold url_text.
      eapply join_xu; eassumption.
  Qed.

  (** ** relative *)
  Lemma net_no_colon : forall h p q f, plain_host h -> plain_path p -> plain_opt q -> plain_opt f ->
    ~ In (ch ":") (net_text h p q f).
  Proof.
    intros h p q f Hh Hp Hq Hf Hi. unfold net_text in Hi. cbn [lit app In] in Hi.
    destruct Hi as [Hi|[Hi|Hi]]; [discriminate..|].
    apply in_app_or in Hi. destruct Hi as [Hi|Hi]; [|apply (abs_no_colon p q f Hp Hq Hf Hi)].
    destruct Hh as [ls [N [F ->]]].
    assert (G : forall l, In l ls -> ~ In (ch ":") l).
    { intros l Hl Hc. rewrite Forall_forall in F. apply F in Hl. destruct Hl as [_ Hl].
      rewrite Forall_forall in Hl. apply Hl in Hc. discriminate Hc. }
    assert (A : ls = removelast ls ++ [last ls []]) by (apply app_removelast_last; exact N).
    apply in_app_or in Hi. destruct Hi as [Hi|Hi].
    - apply in_concat in Hi. destruct Hi as [x [Hx Hc]]. apply in_map_iff in Hx. destruct Hx as [l [<- Hl]].
      apply in_app_or in Hc. destruct Hc as [Hc|[Hc|[]]]; [|discriminate Hc].
      apply (G l); [rewrite A; apply in_or_app; left; exact Hl|exact Hc].
    - apply (G (last ls [])); [|exact Hi]. rewrite A at 2. apply in_or_app. right. left. reflexivity.
  Qed.

  Lemma relative_net : forall h r q f t q' f',
    plain_host h -> plain_path r -> plain_opt q -> plain_opt f ->
    plain_path t -> plain_opt q' -> plain_opt f' ->
    len (net_text h r q f) + len (net_text h t q' f') <= 2147483645 ->
    relative md U (net_text h r q f) (net_text h t q' f') = Panic PUnwrapErr.
  Proof.
    intros h r q f t q' f' Hh Hr Hq Hf Ht Hq' Hf' L. unfold relative.
    rewrite (replace_same md U C _ _ SchemeRelative (mkOrigin (lit "http") h) (fun _ => resolve_from [] r) q f
               (resolve_from [] t) q' f').
    - rewrite (no_parse U C) by (apply net_no_colon; assumption). reflexivity.
    - apply type_net.
    - apply type_net.
    - exact L.
    - apply http_plain. exact Hh.
    - apply clean_resolve; try constructor; apply Ht.
    - intros u p Hp S _. apply (join_host_net U C u _ _ _ h r q f Hp S); assumption.
    - intros u p Hp S. apply (join_host_net U C u _ _ _ h t q' f' Hp S); assumption.
  Qed.

  Lemma relative_hosts : forall h r q f h' t q' f',
    plain_host h -> plain_path r -> plain_opt q -> plain_opt f ->
    plain_host h' -> plain_path t -> plain_opt q' -> plain_opt f' -> h <> h' ->
    len (net_text h r q f) + len (net_text h' t q' f') <= 2147483645 ->
    relative md U (net_text h r q f) (net_text h' t q' f') = Ok (net_text h' (resolve_from [] t) q' f').
  Proof.
    intros h r q f h' t q' f' Hh Hr Hq Hf Hh' Ht Hq' Hf' No L. unfold relative, replace_if_possible.
    rewrite !type_net. cbn [bind url_type_eqb negb].
    destruct (base_ok md U C (net_text h r q f ++ net_text h' t q' f')) as [base [seg [k [u B]]]];
      [rewrite len_app; lia|].
    rewrite (b_ok _ _ _ _ _ _ _ B). cbn [bind]. rewrite (b_parse _ _ _ _ _ _ _ B). cbn [bind unwrap_ok].
    destruct (join_host_net U C u _ None None h r q f (b_clean _ _ _ _ _ _ _ B)
                (b_shows _ _ _ _ _ _ _ B) Hh Hr Hq Hf) as [u1 [F1 S1]].
    destruct (join_host_net U C u _ None None h' t q' f' (b_clean _ _ _ _ _ _ _ B)
                (b_shows _ _ _ _ _ _ _ B) Hh' Ht Hq' Hf') as [u2 [F2 S2]].
    rewrite F1, F2. cbn [bind unwrap_ok].
    assert (Ho' : plain_origin (mkOrigin (o_scheme host_origin) h')) by (apply http_plain; exact Hh').
    destruct (uc_join_empty U C u2 _ _ _ _ Ho' (clean_resolve [] t (Forall_nil _) (Forall_nil _) Ht) S2) as [u3 [F3 _]].
    rewrite F3.
    rewrite (shows_other_origin U _ _ _ _ _ _ _ _ _ _ S1 S2) by (intros X; injection X; intros; apply No; assumption).
    apply (NORMALIZE_net md U C); try assumption. pose proof (len_nonneg _ (net_text h r q f)). lia.
  Qed.

  (** ** normalisation *)
  Lemma normalize_ref : forall s, plain_ref s -> len (ref_text s) <= 2147483645 ->
    NORMALIZE md U (ref_text s) = Ok (given_text (in_order s)).
  Proof.
    intros [p q f|p q f|h p q f|o p q f] [H L] B; cbn [ref_text in_order given_text] in *.
    - destruct H as [H1 [H2 [H3 H4]]]. apply (NORMALIZE_rel md U C); try assumption. lia.
    - destruct H as [H1 [H2 H3]]. apply (NORMALIZE_abs md U C); try assumption. apply long_abs. exact L.
    - destruct H as [H1 [H2 [H3 H4]]]. apply (NORMALIZE_net md U C); assumption.
    - destruct H as [H1 [H2 [H3 H4]]]. apply (NORMALIZE_url md U C); assumption.
  Qed.

  (** ** compute_source_url *)
  Lemma plain_in_order : forall s, plain_ref s -> ~ is_path s -> plain_ref (in_order s).
  Proof.
    intros [p q f|p q f|h p q f|o p q f] [H L] N; try (exfalso; apply N; exact I).
    - destruct H as [H1 [H2 [H3 H4]]]. split.
      + split; [exact H1|]. split; [|split; assumption]. apply clean_plain, clean_resolve; try constructor; apply H2.
      + cbn [in_order ref_text]. unfold net_text. rewrite len_app. change (len (lit "//")) with 2.
        pose proof (len_nonneg _ (h ++ abs_text (resolve_from [] p) ++ tail_text q f)). lia.
    - destruct H as [H1 [H2 [H3 H4]]]. split.
      + split; [exact H1|]. split; [|split; assumption]. apply clean_plain, clean_resolve; try constructor; apply H2.
      + cbn [in_order ref_text]. unfold url_text, origin_text. rewrite !len_app. change (len (lit "://")) with 3.
        pose proof (len_nonneg _ (o_scheme o)). pose proof (len_nonneg _ (login_text o)).
        pose proof (len_nonneg _ (o_host o)). pose proof (len_nonneg _ (port_text o)).
        pose proof (len_nonneg _ (abs_text (resolve_from [] p))). pose proof (len_nonneg _ (tail_text q f)). lia.
  Qed.

  Lemma len_in_order : forall s, ~ is_relative s -> len (ref_text (in_order s)) <= len (ref_text s).
  Proof.
    intros [p q f|p q f|h p q f|o p q f] N; [exfalso; apply N; exact I|..];
      cbn [in_order ref_text]; unfold net_text, url_text, abs_text; rewrite !len_app;
      pose proof (len_resolve p); lia.
  Qed.

  Lemma resolve_twice : forall p, plain_path p -> resolve_from [] (resolve_from [] p) = resolve_from [] p.
  Proof. intros p Hp. apply resolve_clean, clean_resolve; try constructor; apply Hp. Qed.

  Lemma root_refs : forall root s, plain_ref root -> plain_ref s -> ~ is_path s ->
    len (ref_text root) + len (ref_text s) <= 2147483644 ->
    compute_source_url md U (Some (ref_text root)) (ref_text s) None
    = Ok (ref_text (in_order (resolved root s))).
  Proof.
    intros root s Pr Ps N L.
    pose proof (len_nonneg _ (ref_text root)) as N1. pose proof (len_nonneg _ (ref_text s)) as N2.
    assert (NR : ~ is_relative s) by (intros X; apply N; destruct s; try exact X; exact I).
    rewrite (source_root_type md U _ _ (kind s) (ref_type s Ps)) by (destruct s; try discriminate; exfalso; apply N; exact I).
    rewrite normalize_ref by (try assumption; lia). cbn [bind].
    assert (E : given_text (in_order s) = ref_text (in_order s)) by (destruct s; [exfalso; apply N; exact I|reflexivity..]).
    rewrite E. pose proof (len_in_order s NR) as Ln.
    rewrite join_refs; try assumption; [|apply plain_in_order; assumption|right|lia].
    - destruct Ps as [Hs _]. destruct s as [p q f|p q f|h p q f|o p q f]; try (exfalso; apply N; exact I).
      + destruct Hs as [_ [Hp _]]. destruct root; cbn [in_order resolved given_text]; rewrite !resolve_twice by assumption; reflexivity.
      + destruct Hs as [_ [Hp _]]. cbn [in_order resolved given_text]. reflexivity.
    - destruct s; try exact NR; intros [].
  Qed.

  (** the directories of a map URL, run together *)
  Lemma len_map_dir : forall p, len (path_text (map_dir p)) <= len (path_text p).
  Proof.
    intros [ds f]. rewrite !len_path_text. cbn [map_dir dirs file]. change (len (dirs_text [])) with 0.
    assert (G : len (concat ds) <= len (dirs_text ds)).
    { clear. induction ds as [|d ds IH]; [reflexivity|]. cbn [concat]. rewrite len_dirs_cons, len_app. lia. }
    pose proof (len_nonneg _ f). lia.
  Qed.

  Lemma plain_map_dir : forall p, plain_path p -> plain_path (map_dir p).
  Proof. intros p [H _]. split; [constructor|]. apply plain_concat. exact H. Qed.

  Lemma len_map_ref : forall m, ~ is_relative m -> len (ref_text (map_ref (in_order m))) <= len (ref_text m).
  Proof.
    intros m N. pose proof (len_in_order m N) as L1.
    assert (L2 : len (ref_text (map_ref (in_order m))) <= len (ref_text (in_order m))).
    { destruct m as [p q f|p q f|h p q f|o p q f]; [exfalso; apply N; exact I|..];
        cbn [in_order map_ref ref_text]; unfold net_text, url_text, abs_text; rewrite !len_app;
        pose proof (len_map_dir (resolve_from [] p)); lia. }
    lia.
  Qed.

  Lemma trim_ref : forall m, plain_ref m -> ~ is_relative m -> len (ref_text m) <= 2147483645 ->
    exists t, TRIM_FILENAME md U (ref_text m) = Ok t /\ same_root md U t (ref_text (map_ref (in_order m))).
  Proof.
    intros [p q f|p q f|h p q f|o p q f] [H L] N B; cbn [ref_text map_ref in_order] in *; [exfalso; apply N; exact I|..].
    - destruct H as [H1 [H2 H3]]. eexists. split; [|intros path; reflexivity].
      apply (TRIM_abs md U C); try assumption. apply long_abs. exact L.
    - destruct H as [H1 [H2 [H3 H4]]]. eexists. split; [|intros path; reflexivity]. apply (TRIM_net md U C); assumption.
    - destruct H as [H1 [H2 [H3 H4]]]. apply (TRIM_any_url md U C); assumption.
  Qed.

  Lemma map_ref_plain : forall m, plain_ref m -> ~ is_relative m -> 2 <= len (ref_text (map_ref (in_order m))) ->
    plain_ref (map_ref (in_order m)).
  Proof.
    intros m Pm N L. split; [|lia]. destruct Pm as [Hm _].
      destruct m as [p q f|p q f|h p q f|o p q f]; [exfalso; apply N; exact I|..]; cbn [map_ref in_order].
      - destruct Hm as [H1 H2]. split; [|exact H2]. apply plain_map_dir, clean_plain, clean_resolve; try constructor; apply H1.
      - destruct Hm as [H0 [H1 H2]]. split; [exact H0|]. split; [|exact H2].
        apply plain_map_dir, clean_plain, clean_resolve; try constructor; apply H1.
      - destruct Hm as [H0 [H1 H2]]. split; [exact H0|]. split; [|exact H2].
        apply plain_map_dir, clean_plain, clean_resolve; try constructor; apply H1.
  Qed.

  Lemma map_refs : forall sr src s m, compute_source_url md U sr src None = Ok (ref_text s) ->
    plain_ref s -> plain_ref m -> ~ is_relative m ->
    len (ref_text m) + len (ref_text s) <= 2147483644 ->
    compute_source_url md U sr src (Some (ref_text m))
    = if Z_lt_dec (len (ref_text (map_ref (in_order m)))) 2 then Panic PUnwrapNone
      else Ok (ref_text (resolved (map_ref (in_order m)) s)).
  Proof.
    intros sr src s m E Ps Pm N L. rewrite source_map, E. cbn [bind].
    pose proof (len_nonneg _ (ref_text m)) as N1. pose proof (len_nonneg _ (ref_text s)) as N2.
    destruct (trim_ref m Pm N ltac:(lia)) as [t [-> J]]. cbn [bind]. rewrite J.
    destruct (Z_lt_dec (len (ref_text (map_ref (in_order m)))) 2) as [Y|Y].
    - apply short_join_root. exact Y.
    - pose proof (len_map_ref m N) as Lm.
      pose proof (map_ref_plain m Pm N ltac:(lia)) as Pd.
      rewrite join_refs; try assumption; [|left; destruct m; try exact I; exfalso; apply N; exact I|lia].
      destruct m; [exfalso; apply N; exact I|destruct s; reflexivity..].
  Qed.

  Lemma map_refs_right : forall sr src s m, compute_source_url md U sr src None = Ok (ref_text s) ->
    plain_ref s -> ~ is_relative s -> plain_ref m -> ~ is_relative m ->
    len (ref_text m) + len (ref_text s) <= 2147483644 ->
    compute_source_url md U sr src (Some (ref_text m))
    = if Z_lt_dec (len (ref_text (map_ref (in_order m)))) 2 then Panic PUnwrapNone
      else Ok (ref_text (resolved m s)).
  Proof.
    intros sr src s m E Ps Ns Pm N L. rewrite (map_refs sr src s m) by assumption.
    destruct m; [exfalso; apply N; exact I|..]; (destruct s; [exfalso; apply Ns; exact I|..]); reflexivity.
  Qed.

  Lemma map_rel_refs : forall sr src s n ds f q fr, compute_source_url md U sr src None = Ok (ref_text s) ->
    plain_ref s -> ~ is_relative s ->
    Forall plain_seg ds -> Forall proper ds -> plain f -> proper f -> plain_opt q -> plain_opt fr ->
    n = O \/ len ds <= 1 ->
    let url := path_text (mkPath (repeat dotdot n ++ ds) f) ++ tail_text q fr in
    let dir := mkPath (repeat dotdot n) (concat ds ++ glue q ++ glue fr) in
    path_text (mkPath (repeat dotdot n ++ ds) f) <> [] -> max_dotdots url n -> 2 <= len url <= 2147483645 ->
    len (ref_text s) + len (path_text dir) <= 2147483644 ->
    compute_source_url md U sr src (Some url)
    = if Z_lt_dec (len (path_text dir)) 2 then Panic PUnwrapNone
      else Ok (ref_text (match s with RUrl _ _ _ _ => s | _ => in_order s end)).
  Proof.
    intros sr src s n ds f q fr E Ps Ns P1 P2 P3 P4 Hq Hf Hn url dir Nu Hm L LD. rewrite source_map, E. cbn [bind].
    unfold url. pose proof (TRIM_rel md U C n ds f q fr P1 P2 P3 P4 Hq Hf Hn) as T. cbv zeta in T.
    unfold map_path in T. rewrite T by assumption. rewrite app_nil_r. fold dir. cbn [bind]. clear T.
    pose proof (len_nonneg _ (ref_text s)) as N2.
    destruct (Z_lt_dec (len (path_text dir)) 2) as [Y|Y]; [apply short_join_root; exact Y|].
    assert (Pd : plain_ref (RRel dir None None)).
    { split; cbn [ref_text tail_text app]; rewrite ?app_nil_r; [|lia]. split; [|split; [exact I|split; [exact I|]]].
      - split; cbn [dir dirs file].
        + apply Forall_forall. intros x Hx. apply repeat_spec in Hx. subst x. apply plain_dotdot.
        + apply plain_app; [apply plain_concat; exact P1|apply glue_plain; assumption].
      - apply len_nonempty. lia. }
    pose proof (join_refs (RRel dir None None) s Pd Ps (or_intror Ns)) as J.
    cbn [ref_text tail_text app] in J. rewrite app_nil_r in J. rewrite J by lia.
    destruct s; [exfalso; apply Ns; exact I|reflexivity..].
  Qed.

  (** a root that is only an origin *)
  Lemma root_origin : forall o q f src mu, plain_origin o -> plain_opt q -> plain_opt f ->
    len (origin_text o ++ tail_text q f) <= 2147483644 ->
    compute_source_url md U (Some (origin_text o ++ tail_text q f)) src mu
    = compute_source_url md U (Some (url_text o (mkPath [] []) q f)) src mu.
  Proof.
    intros o q f src mu Ho Hq Hf L. unfold compute_source_url.
    destruct (get_url_type src) as [t|]; [|reflexivity]. cbn [bind].
    destruct (NORMALIZE md U _) as [u|]; [|reflexivity]. cbn [bind].
    rewrite (join_bare md U C o q f Ho Hq Hf L). reflexivity.
  Qed.

  (** an absolute or scheme-relative content URL under a root (gen_set_source_content) *)
  Lemma content_net : forall g h r q f s q' f' c, g_source_root g = Some (net_text h r q f) ->
    plain_host h -> plain_path r -> plain_opt q -> plain_opt f ->
    plain_path s -> plain_opt q' -> plain_opt f' ->
    len (net_text h r q f) + len (net_text h s q' f') <= 2147483645 ->
    gen_set_source_content md U g (net_text h s q' f') c = Panic PUnwrapErr.
  Proof.
    intros g h r q f s q' f' c E Hh Hr Hq Hf Hs Hq' Hf' L. unfold gen_set_source_content. rewrite E.
    rewrite relative_net by assumption. reflexivity.
  Qed.
End Refs.
