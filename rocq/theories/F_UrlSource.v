(** * compute_source_url, TRIM_FILENAME and relative on plain paths and URLs *)
From Verif Require Import Base F_Base M_Util M_Generator S_Url F_Dec F_UrlText F_UrlPath F_UrlOps F_Url.

(** ** the meaning of normal forms *)
Lemma normal_in_nf : forall p, in_normal_form (normal p).
Proof.
  intros p. rewrite normal_eq. split; [|apply file_of_proper].
  exists (ups (rel_of p)), (downs (rel_of p)). split; [reflexivity|apply rel_of_proper].
Qed.

Lemma normal_same : forall p, same_place p (normal p).
Proof. intros p at_. symmetry. apply normal_resolve. Qed.

Lemma fold_move_ups : forall s N n, (n <= N)%nat -> fold_left move (repeat dotdot n) (repeat s N) = repeat s (N - n).
Proof.
  intros s N n. revert N. induction n as [|n IH]; intros N H; [rewrite Nat.sub_0_r; reflexivity|].
  destruct N as [|N]; [lia|]. cbn [repeat fold_left].
  change (s :: repeat s N) with (repeat s (S N)). rewrite repeat_snoc, move_dotdot_snoc. rewrite IH by lia.
  f_equal.
Qed.

Lemma nf_resolve : forall s N p n ds, dirs p = repeat dotdot n ++ ds -> Forall proper ds -> proper (file p) ->
  (n <= N)%nat -> resolve_from (repeat s N) p = mkPath (repeat s (N - n) ++ ds) (file p).
Proof.
  intros s N p n ds E P F H. rewrite resolve_eq. unfold file_dirs, file_of.
  destruct (is_dot_proper _ F) as [-> ->]. cbn [orb]. rewrite app_nil_r, E, fold_left_app, fold_move_ups by exact H.
  rewrite fold_move_proper by exact P. reflexivity.
Qed.

Lemma count_repeat_fresh : forall (s : str) n ds, ~ In s ds ->
  List.length (filter (fun x => str_eqb x s) (repeat s n ++ ds)) = n.
Proof.
  intros s n ds H. rewrite filter_app, app_length.
  replace (filter (fun x => str_eqb x s) ds) with (@nil str).
  - rewrite Nat.add_0_r. induction n; cbn; [reflexivity|]. rewrite str_eqb_refl. cbn. congruence.
  - induction ds as [|d ds IH]; [reflexivity|]. cbn. destruct (str_eqb d s) eqn:E.
    + apply str_eqb_eq in E. subst. exfalso. apply H. left. reflexivity.
    + apply IH. intros Hi. apply H. right. exact Hi.
Qed.

Lemma fresh_name : forall ds : list str, exists s, ~ In s ds.
Proof.
  intros ds. exists (ch "x" :: concat ds). intros H.
  assert (G : forall l (x : str), In x l -> (List.length x <= List.length (concat l))%nat).
  { induction l as [|y l IH]; intros x Hi; [destruct Hi|]. cbn. rewrite app_length.
    destruct Hi as [->|Hi]; [lia|]. specialize (IH x Hi). lia. }
  specialize (G ds _ H). cbn in G. lia.
Qed.

Lemma normal_unique : forall a b, in_normal_form a -> in_normal_form b -> same_place a b -> a = b.
Proof.
  intros a b [[n [ds [Ea Pa]]] Fa] [[m [es [Eb Pb]]] Fb] S.
  destruct (fresh_name (ds ++ es)) as [s Hs].
  specialize (S (repeat s (n + m))).
  rewrite (nf_resolve s (n + m) a n ds Ea Pa Fa) in S by lia.
  rewrite (nf_resolve s (n + m) b m es Eb Pb Fb) in S by lia.
  injection S as S1 S2.
  assert (N : n = m).
  { pose proof (f_equal (fun l => List.length (filter (fun x => str_eqb x s) l)) S1) as G. cbn beta in G.
    rewrite !count_repeat_fresh in G by (intros Hi; apply Hs; apply in_or_app; auto). lia. }
  subst m. apply app_inv_head in S1. destruct a as [da fa], b as [db fb]. cbn [dirs file] in *. congruence.
Qed.

Lemma normal_below : forall r p, normal (below r (normal p)) = normal (below r p).
Proof.
  intros r p. rewrite !below_rel. rewrite normal_eq.
  destruct (rel_path_file (rel_of p) (file_of p) (file_of_proper p)) as [-> ->].
  rewrite app_nil_r. cbn [dirs rel_path]. f_equal. rewrite (rel_of_fold p). apply fold_normal.
Qed.

Lemma resolve_below_normal : forall at_ r p, resolve_from at_ (below r (normal p)) = resolve_from at_ (below r p).
Proof. intros. rewrite !below_resolve. apply normal_resolve. Qed.

(** a directory part only counts through its names *)
Lemma below_ext : forall a a' b, as_dirs a = as_dirs a' -> below a b = below a' b.
Proof. intros a a' b H. unfold below. rewrite H. reflexivity. Qed.

(** ** net depth *)
Definition net_seg (s : str) : Z := if is_dot s then 0 else if is_dotdot s then -1 else 1.
Definition net (ds : list str) : Z := fold_right (fun s n => net_seg s + n) 0 ds.
Definition depth (r : rel) : Z := len (downs r) - Z.of_nat (ups r).

Lemma depth_move : forall r s, depth (rel_move r s) = depth r + net_seg s.
Proof.
  intros [u d] s. destruct (seg_cases s) as [->|[->|[H1 [H2 [E1 E2]]]]].
  - change (net_seg dot) with 0. change (rel_move (mkRel u d) dot) with (mkRel u d). lia.
  - change (net_seg dotdot) with (-1). destruct (snoc_cases _ d) as [->|[l [x ->]]].
    + change (rel_move (mkRel u []) dotdot) with (mkRel (S u) []). unfold depth. cbn [ups downs]. rewrite len_nil. lia.
    + rewrite rel_dotdot_snoc. unfold depth. cbn [ups downs]. rewrite len_app, len_cons, len_nil. lia.
  - rewrite rel_move_proper by (split; assumption). unfold net_seg. rewrite E1, E2. unfold depth. cbn [ups downs].
    rewrite len_app, len_cons, len_nil. lia.
Qed.

Lemma depth_fold : forall ds r, depth (fold_left rel_move ds r) = depth r + net ds.
Proof.
  induction ds as [|d ds IH]; intros r; cbn [fold_left net fold_right]; [lia|].
  rewrite IH, depth_move. unfold net. lia.
Qed.

Lemma net_proper : forall ds, Forall proper ds -> net ds = len ds.
Proof.
  induction 1 as [|d ds H _ IH]; [reflexivity|]. cbn [net fold_right]. fold (net ds). rewrite IH, len_cons.
  unfold net_seg. destruct (is_dot_proper _ H) as [-> ->]. lia.
Qed.

Lemma depth_below : forall a b, depth (rel_of (below a b)) = net (as_dirs a) + net (dirs b ++ file_dirs b).
Proof.
  intros a b. rewrite dir_below, depth_fold. unfold dir_rel_of. rewrite depth_fold.
  change (depth (mkRel 0 [])) with 0. lia.
Qed.

Lemma depth_text : forall a b, plain_path a -> plain_path b ->
  path_text (normal a) = path_text (normal b) -> depth (rel_of a) = depth (rel_of b).
Proof.
  intros a b Ha Hb E.
  pose proof (plain_normal a Ha) as [A1 A2]. pose proof (plain_normal b Hb) as [B1 B2].
  unfold path_text in E. apply dirs_text_inj in E; try (apply plain_segs_no_slash; assumption); try (apply plain_no_slash; assumption).
  destruct E as [E _]. rewrite !normal_eq in E. cbn [rel_path dirs] in E.
  pose proof (fold_rel_dotdots (ups (rel_of a)) 0) as F1.
  pose proof (fold_rel_dotdots (ups (rel_of b)) 0) as F2.
  apply (f_equal (fun l => fold_left rel_move l (mkRel 0 []))) in E. rewrite !fold_left_app, F1, F2 in E.
  rewrite !fold_rel_proper in E by apply rel_of_proper. cbn [ups downs app] in E. injection E as E1 E2.
  unfold depth. unfold str in *. rewrite E1, E2. reflexivity.
Qed.

(** ** gluing names *)
Lemma plain_concat : forall ds, Forall plain_seg ds -> plain (concat ds).
Proof. induction 1 as [|d ds [_ H] _ IH]; cbn; [constructor|apply plain_app; assumption]. Qed.

Lemma proper_concat : forall ds, Forall plain_seg ds -> Forall proper ds -> proper (concat ds).
Proof.
  intros ds H1 H2. destruct ds as [|d [|e ds]]; [apply proper_nil| |].
  - cbn. rewrite app_nil_r. inv H2. assumption.
  - inversion H1 as [|? ? [N1 _] H1' E]. inversion H1' as [|? ? [N2 _] _ E']. subst. inv H2. cbn [concat].
    destruct d as [|c d]; [exfalso; apply N1; reflexivity|]. destruct e as [|c' e]; [exfalso; apply N2; reflexivity|].
    split; intros E.
    + apply (f_equal (@List.length char)) in E. cbn in E. rewrite !app_length in E. cbn in E. lia.
    + assert (L : d = []).
      { apply (f_equal (@List.length char)) in E. cbn in E. rewrite !app_length in E. cbn in E.
        destruct d; [reflexivity|cbn in E; lia]. }
      subst d. cbn in E. injection E as E _. subst c. destruct H3 as [H3 _]. apply H3. reflexivity.
Qed.

Section Source.
  Context (md : mode) (U : UrlLib) (C : UrlContract U).

  Definition trim_path (p : path) : path := mkPath [] (concat (dirs p)).

  Lemma join_empty_sep : forall ds, join_str [] ds = concat ds.
  Proof.
    induction ds as [|d ds IH]; [reflexivity|]. destruct ds as [|e ds].
    - cbn. rewrite app_nil_r. reflexivity.
    - cbn [join_str concat app] in *. rewrite IH. reflexivity.
  Qed.

  Lemma trim_shows : forall u o p q f, special_origin o \/ (plain_origin o /\ dirs p <> []) -> clean_path p -> shows U u o p q f ->
    clean_path (trim_path p) /\ shows U (trim_filename_cb U u) o (trim_path p) q f.
  Proof.
    intros u o p q f Ho Hp S. pose proof Hp as [[P1 P2] [P3 P4]].
    assert (Pc : plain (concat (dirs p))) by (apply plain_concat; exact P1).
    assert (Pd : proper (concat (dirs p))) by (apply proper_concat; assumption).
    split.
    - split; [split|split]; cbn [trim_path dirs file]; try constructor; try assumption; apply Pd.
    - unfold trim_filename_cb.
      assert (Ep : ul_path U u = abs_text p) by apply S. rewrite Ep.
      rewrite no_slash_abs by (split; assumption).
      replace (join_str [] _) with (concat (dirs p)).
      + eapply (uc_set_path_rel U C); eauto. destruct Ho as [Ho|[Ho N]]; [left; exact Ho|right]. split; [exact Ho|].
        destruct (dirs p) as [|d ds]; [contradiction|]. inversion P1 as [|? ? [N1 _] _ E]. cbn [concat]. intros E'.
        apply app_eq_nil in E'. apply N1, E'.
      + rewrite join_empty_sep. change ([] :: dirs p ++ [file p]) with (([] :: dirs p) ++ [file p]).
        rewrite rev_app_distr. cbn [rev app].
        destruct (file p) as [|c s].
        * cbn [concat app]. rewrite concat_app. cbn. rewrite app_nil_r. reflexivity.
        * rewrite rev_app_distr, rev_involutive. reflexivity.
  Qed.

  Lemma acts_trim : acts U special_origin (trim_filename_cb U) trim_path.
  Proof. intros u o p q f Ho. apply trim_shows. left. exact Ho. Qed.

  Lemma acts_trim_web : acts U web_origin (trim_filename_cb U) trim_path.
  Proof. intros u o p q f Ho. apply acts_trim, web_special, Ho. Qed.

  Lemma TRIM_abs : forall p q f, plain_path p -> plain_opt q -> plain_opt f ->
    1 <= len (path_text p ++ tail_text q f) -> len (abs_text p ++ tail_text q f) <= 2147483645 ->
    TRIM_FILENAME md U (abs_text p ++ tail_text q f)
    = Ok (abs_text (trim_path (resolve_from [] p)) ++ tail_text q f).
  Proof. intros. apply (handler_abs md U C _ trim_path); auto using acts_trim_web. Qed.

  Lemma TRIM_url : forall o p q f, special_origin o -> plain_path p -> plain_opt q -> plain_opt f ->
    len (url_text o p q f) <= 2147483645 ->
    TRIM_FILENAME md U (url_text o p q f) = Ok (url_text o (trim_path (resolve_from [] p)) q f).
  Proof. intros. apply (handler_url md U C special_origin _ trim_path); auto using acts_trim, special_plain. Qed.

  (** a root that is only an origin is the same as one with "/" *)
  Definition same_root (t t' : str) : Prop := forall path, url_join md U t path = url_join md U t' path.

  Lemma ENSURE_bare : forall o q f, plain_origin o -> plain_opt q -> plain_opt f ->
    len (origin_text o ++ tail_text q f) <= 2147483645 ->
    ENSURE_DIRECTORY md U (origin_text o ++ tail_text q f) = Ok (url_text o (mkPath [] []) q f).
  Proof.
    intros o q f Ho Hq Hf L. unfold ENSURE_DIRECTORY, safe_handler. rewrite (type_url o _ Ho). cbn [bind].
    destruct (base_ok md U C (origin_text o ++ tail_text q f) L) as [base [seg [k [u B]]]].
    rewrite (b_ok _ _ _ _ _ _ _ B). cbn [bind]. rewrite (b_parse _ _ _ _ _ _ _ B). cbn [bind unwrap_ok].
    destruct (uc_join_bare U C u host_origin _ None None o q f host_plain (b_clean _ _ _ _ _ _ _ B)
                (b_shows _ _ _ _ _ _ _ B) Ho Hq Hf) as [u1 [F1 [P1 S1]]].
    rewrite F1. cbn [bind unwrap_ok]. unfold ensure_directory_cb.
    replace (replace_trailing_slash (ul_path U u1)) with (lit "/") by (destruct P1 as [-> | ->]; reflexivity).
    rewrite (shows_string U _ _ _ _ _ S1). reflexivity.
  Qed.

  Lemma join_bare : forall o q f, plain_origin o -> plain_opt q -> plain_opt f ->
    len (origin_text o ++ tail_text q f) <= 2147483644 ->
    same_root (origin_text o ++ tail_text q f) (url_text o (mkPath [] []) q f).
  Proof.
    intros o q f Ho Hq Hf L path. unfold url_join. destruct (get_url_type path) as [t|]; [|reflexivity]. cbn [bind].
    rewrite (type_url o _ Ho). unfold url_text at 1. rewrite type_url by exact Ho.
    cbn [bind]. rewrite (ENSURE_bare o q f Ho Hq Hf ltac:(lia)).
    assert (L2 : len (url_text o (mkPath [] []) q f) <= 2147483645).
    { unfold url_text. rewrite !len_app in *. change (len (abs_text (mkPath [] []))) with 1. lia. }
    rewrite (ENSURE_url md U C o (mkPath [] []) q f Ho (clean_plain _ clean_nil) Hq Hf L2).
    reflexivity.
  Qed.

  Lemma TRIM_any_url : forall o p q f, plain_origin o ->
    plain_path p -> plain_opt q -> plain_opt f -> len (url_text o p q f) <= 2147483645 ->
    exists t, TRIM_FILENAME md U (url_text o p q f) = Ok t /\ same_root t (url_text o (trim_path (resolve_from [] p)) q f).
  Proof.
    intros o p q f Ho Hp Hq Hf L.
    assert (Cp : clean_path (resolve_from [] p)) by (apply clean_resolve; try constructor; apply Hp).
    destruct (dirs (resolve_from [] p)) as [|d ds] eqn:E.
    - unfold TRIM_FILENAME, safe_handler. unfold url_text at 1. rewrite type_url by assumption. cbn [bind].
      destruct (base_ok md U C (url_text o p q f) L) as [base [seg [k [u B]]]].
      rewrite (b_ok _ _ _ _ _ _ _ B). cbn [bind]. rewrite (b_parse _ _ _ _ _ _ _ B). cbn [bind unwrap_ok].
      destruct (uc_join_url U C u host_origin _ None None o p q f host_plain (b_clean _ _ _ _ _ _ _ B)
                  (b_shows _ _ _ _ _ _ _ B) Ho Hp Hq Hf) as [u' [E' S]].
      rewrite E'. cbn [bind unwrap_ok].
      assert (T : trim_filename_cb U u' = ul_set_path U u' []).
      { unfold trim_filename_cb. assert (Ep : ul_path U u' = abs_text (resolve_from [] p)) by apply S. rewrite Ep.
        rewrite no_slash_abs by (apply clean_plain; exact Cp). rewrite E. cbn [app rev].
        destruct (file (resolve_from [] p)); reflexivity. }
      rewrite T. unfold trim_path. rewrite E. cbn [concat]. eexists. split; [reflexivity|].
      destruct (uc_set_path_none U C u' o _ q f Ho Cp S) as [-> | ->]; [|intros path; reflexivity].
      apply (join_bare o q f Ho Hq Hf). unfold url_text, abs_text in L. rewrite !len_app in *. change (len (lit "/")) with 1 in L.
      pose proof (len_nonneg _ (path_text p)). lia.
    - eexists. split; [|intros path; reflexivity]. apply (handler_shown md U C); try assumption. intros u S.
      apply trim_shows; [|exact Cp|exact S]. right. split; [exact Ho|]. rewrite E. discriminate.
  Qed.

  Lemma TRIM_net : forall n p q f, plain_host n -> plain_path p -> plain_opt q -> plain_opt f ->
    len (net_text n p q f) <= 2147483645 ->
    TRIM_FILENAME md U (net_text n p q f) = Ok (net_text n (trim_path (resolve_from [] p)) q f).
  Proof. intros. apply (handler_net md U C _ trim_path); auto using acts_trim_web. Qed.

  (** relative map URLs: "../" n times, then directories *)
  Definition map_path (n : nat) (ds : list str) (f : str) : path := mkPath (repeat dotdot n ++ ds) f.

  Lemma map_rel : forall n ds f, Forall proper ds -> proper f ->
    rel_of (map_path n ds f) = mkRel n ds /\ file_of (map_path n ds f) = f.
  Proof.
    intros n ds f Hd Hf. rewrite rel_of_fold. unfold file_dirs, file_of, map_path. cbn [dirs file].
    destruct (is_dot_proper _ Hf) as [-> ->]. cbn [orb]. rewrite app_nil_r, fold_left_app, fold_rel_dotdots.
    rewrite fold_rel_proper by exact Hd. cbn [ups downs app]. split; reflexivity.
  Qed.

  Lemma map_plain : forall n ds f, Forall plain_seg ds -> plain f -> plain_path (map_path n ds f).
  Proof.
    intros n ds f Hd Hf. split; [|exact Hf]. cbn [map_path dirs]. apply Forall_app. split; [|exact Hd].
    apply Forall_forall. intros x Hx. apply repeat_spec in Hx. subst x. apply plain_dotdot.
  Qed.

  Lemma TRIM_rel : forall n ds f q fr,
    Forall plain_seg ds -> Forall proper ds -> plain f -> proper f -> plain_opt q -> plain_opt fr ->
    n = O \/ len ds <= 1 ->
    let text := path_text (map_path n ds f) ++ tail_text q fr in
    path_text (map_path n ds f) <> [] ->
    max_dotdots text n -> 2 <= len text <= 2147483645 ->
    TRIM_FILENAME md U text = Ok (path_text (map_path n [] (concat ds ++ glue q ++ glue fr))).
  Proof.
    intros n ds f q fr P1 P2 P3 P4 Hq Hf Hn text Ht Hm L.
    pose proof (max_dotdots_fun _ _ _ Hm (count_max text)) as Ek.
    destruct (map_rel n ds f P2 P4) as [R1 R2].
    unfold TRIM_FILENAME, text.
    rewrite (handler_rel md U C _ trim_path (map_path n ds f) q fr (mkRel n []) (concat ds)); try assumption.
    - rewrite glued_text. unfold glued, map_path, rel_path. cbn [ups downs dirs file]. reflexivity.
    - apply acts_trim_web.
    - apply map_plain; assumption.
    - fold text. rewrite <- Ek. intros seg _. rewrite R1. unfold trim_path, absr. cbn [dirs ups downs].
      rewrite Nat.sub_diag. reflexivity.
    - fold text. rewrite <- Ek. cbn. lia.
    - intros seg Ns Hs. cbn [downs ups]. split; [constructor|].
      destruct Hn as [Hn|Hn]; [right; exact Hn|left].
      destruct ds as [|d [|e ds]]; [intros <-; apply Ns; reflexivity| |rewrite !len_cons in Hn; pose proof (len_nonneg _ ds); lia].
      cbn. rewrite app_nil_r. intros <-. apply Hs. unfold path_text. apply substring_app_l. apply dirs_substring.
      cbn [map_path dirs]. apply in_or_app. right. left. reflexivity.
    - constructor.
    - constructor.
    - apply plain_concat. exact P1.
    - apply proper_concat; assumption.
  Qed.

  (** ** compute_source_url without root and map *)
  Lemma source_none : forall s, compute_source_url md U None s None = NORMALIZE md U s.
  Proof. intros s. unfold compute_source_url. cbn [bind]. destruct (NORMALIZE md U s); reflexivity. Qed.

  Lemma source_map : forall sr s m, compute_source_url md U sr s (Some m)
    = (let* url := compute_source_url md U sr s None in
       let* d := TRIM_FILENAME md U m in url_join md U d url).
  Proof.
    intros sr s m. unfold compute_source_url.
    destruct (match sr with None => _ | Some _ => _ end); [|reflexivity]. cbn [bind].
    destruct (NORMALIZE md U _); [|reflexivity]. cbn [bind].
    destruct (match sr with Some _ => _ | None => _ end); reflexivity.
  Qed.

  Lemma source_root_type : forall root s t, get_url_type s = Ok t -> t <> PathAbsolute ->
    compute_source_url md U (Some root) s None
    = (let* url := NORMALIZE md U s in url_join md U root url).
  Proof.
    intros root s t E Ht. unfold compute_source_url. rewrite E. cbn [bind].
    destruct t; try contradiction; cbn [url_type_eqb]; destruct (NORMALIZE md U s); try reflexivity;
      cbn [bind]; destruct (url_join _ _ _ _); reflexivity.
  Qed.

  Lemma source_root_abs : forall root s, get_url_type (lit "/" ++ s) = Ok PathAbsolute ->
    compute_source_url md U (Some root) (lit "/" ++ s) None
    = (let* url := NORMALIZE md U s in url_join md U root url).
  Proof.
    intros root s E. unfold compute_source_url. rewrite E. cbn [bind url_type_eqb].
    change (remove_first_slash (lit "/" ++ s)) with s. destruct (NORMALIZE md U s); try reflexivity.
    cbn [bind]. destruct (url_join _ _ _ _); reflexivity.
  Qed.

  Lemma source_root_rel : forall root p q f (slash : bool), plain_path p -> path_text p <> [] ->
    plain_opt q -> plain_opt f ->
    2 <= len (path_text p ++ tail_text q f) <= 2147483645 ->
    compute_source_url md U (Some root) ((if slash then lit "/" else []) ++ path_text p ++ tail_text q f) None
    = url_join md U root (path_text (glued (normal p) q f)).
  Proof.
    intros root p q f slash Hp Hn Hq Hf L.
    assert (E : NORMALIZE md U (path_text p ++ tail_text q f) = Ok (path_text (glued (normal p) q f))).
    { rewrite (NORMALIZE_rel md U C) by assumption. rewrite glued_text. reflexivity. }
    destruct slash.
    - rewrite source_root_abs.
      + rewrite E. reflexivity.
      + rewrite app_assoc. apply type_abs_path; try assumption. lia.
    - cbn [app]. rewrite (source_root_type root _ PathRelative).
      + rewrite E. reflexivity.
      + apply type_rel_path; try assumption. lia.
      + discriminate.
  Qed.

  (** ** compute_relative_url on URLs *)
  Definition rel_parts (a b : list str) : list str :=
    let '(t, r) := strip_common b a in repeat dotdot (List.length r) ++ t.

  Lemma pop_as_dirs : forall p, pop_empty_back ([] :: dirs p ++ [file p]) = [] :: as_dirs p.
  Proof.
    intros p. unfold as_dirs. destruct (file p) as [|c s].
    - rewrite pop_empty_snoc, app_nil_r. reflexivity.
    - unfold pop_empty_back. change ([] :: dirs p ++ [c :: s]) with (([] :: dirs p) ++ [c :: s]).
      rewrite rev_app_distr. reflexivity.
  Qed.

  Lemma map_len : forall A B (b : B) (l : list A), map (fun _ => b) l = repeat b (List.length l).
  Proof. induction l; cbn; congruence. Qed.

  Lemma relative_urls : forall o1 r q f o2 t q' f',
    plain_origin o1 -> plain_path r -> plain_opt q -> plain_opt f ->
    plain_origin o2 -> plain_path t -> plain_opt q' -> plain_opt f' ->
    compute_relative_url U (url_text o1 r q f) (url_text o2 t q' f')
    = Ok (join_str (lit "/") (rel_parts (as_dirs (resolve_from [] r))
           (dirs (resolve_from [] t) ++ [file (resolve_from [] t)])) ++ glue q' ++ glue f').
  Proof.
    intros o1 r q f o2 t q' f' Ho1 Hr Hq Hf Ho2 Ht Hq' Hf'.
    destruct (uc_parse U C o1 r q f Ho1 Hr Hq Hf) as [u1 [E1 S1]].
    destruct (uc_parse U C o2 t q' f' Ho2 Ht Hq' Hf') as [u2 [E2 S2]].
    unfold compute_relative_url. rewrite E1, E2. cbn [bind unwrap_ok]. f_equal. unfold relative_path_of.
    destruct S1 as [_ [-> _]]. destruct S2 as [_ [-> [-> [-> _]]]].
    pose proof (clean_plain _ (clean_resolve [] r (Forall_nil _) (Forall_nil _) Hr)) as P1.
    pose proof (clean_plain _ (clean_resolve [] t (Forall_nil _) (Forall_nil _) Ht)) as P2.
    rewrite !no_slash_abs by assumption. rewrite pop_as_dirs. cbn [strip_common].
    change (str_eqb [] []) with true. cbn iota. unfold rel_parts.
    destruct (strip_common _ (as_dirs _)) as [tp rp]. rewrite map_len. change (lit "..") with dotdot.
    destruct q' as [x|], f' as [y|]; cbn [glue]; rewrite ?app_nil_r, <- ?app_assoc; reflexivity.
  Qed.

  (** ** relative *)
  Lemma type_eqb_refl : forall t, url_type_eqb t t = true.
  Proof. destruct t; reflexivity. Qed.

  Lemma ostr_eqb_refl : forall a, ostr_eqb a a = true.
  Proof. intros [a|]; [apply str_eqb_refl|reflexivity]. Qed.

  Lemma shows_port : forall u1 u2 o1 o2 b1 q1 f1 b2 q2 f2, shows U u1 o1 b1 q1 f1 -> shows U u2 o2 b2 q2 f2 ->
    o_port o1 = o_port o2 -> oZ_eqb (ul_port U u1) (ul_port U u2) = true.
  Proof.
    intros u1 u2 o1 o2 b1 q1 f1 b2 q2 f2 S1 S2 E.
    destruct S1 as [_ [_ [_ [_ [_ [_ [_ [_ P1]]]]]]]]. destruct S2 as [_ [_ [_ [_ [_ [_ [_ [_ P2]]]]]]]].
    rewrite E in P1. destruct (o_port o2) as [t|].
    - destruct P1 as [n [D1 ->]], P2 as [m [D2 ->]]. rewrite (decimal_value _ _ _ D1 D2). apply Z.eqb_refl.
    - rewrite P1, P2. reflexivity.
  Qed.

  Lemma shows_ports : forall u1 u2 o1 o2 b1 q1 f1 b2 q2 f2, shows U u1 o1 b1 q1 f1 -> shows U u2 o2 b2 q2 f2 ->
    oZ_eqb (ul_port U u1) (ul_port U u2) = true -> o_port o1 = o_port o2.
  Proof.
    intros u1 u2 o1 o2 b1 q1 f1 b2 q2 f2 S1 S2 E.
    destruct S1 as [_ [_ [_ [_ [_ [_ [_ [_ P1]]]]]]]]. destruct S2 as [_ [_ [_ [_ [_ [_ [_ [_ P2]]]]]]]].
    destruct (o_port o1) as [t|], (o_port o2) as [t'|]; try reflexivity.
    - destruct P1 as [n [D1 E1]], P2 as [m [D2 E2]]. rewrite E1, E2 in E. cbn in E. apply Z.eqb_eq in E. subst m.
      rewrite (decimal_text _ _ _ D1 D2). reflexivity.
    - destruct P1 as [n [D1 E1]]. rewrite E1, P2 in E. discriminate.
    - destruct P2 as [n [D2 E2]]. rewrite P1, E2 in E. discriminate.
  Qed.

  Lemma ostr_eqb_eq : forall a b, ostr_eqb a b = true -> a = b.
  Proof. intros [a|] [b|] H; try discriminate; [|reflexivity]. apply str_eqb_eq in H. congruence. Qed.

  (** different origins are told apart *)
  Lemma shows_other_origin : forall u1 u2 o1 o2 b1 q1 f1 b2 q2 f2,
    shows U u1 o1 b1 q1 f1 -> shows U u2 o2 b2 q2 f2 -> o1 <> o2 ->
    negb (str_eqb (ul_scheme U u2) (ul_scheme U u1)) || negb (str_eqb (ul_username U u2) (ul_username U u1))
    || negb (ostr_eqb (ul_password U u2) (ul_password U u1)) || negb (ostr_eqb (ul_host U u2) (ul_host U u1))
    || negb (oZ_eqb (ul_port U u2) (ul_port U u1)) = true.
  Proof.
    intros u1 u2 o1 o2 b1 q1 f1 b2 q2 f2 S1 S2 N. rewrite <- !negb_andb. apply negb_true_iff.
    destruct (str_eqb _ _ && _ && _ && _ && _) eqn:E; [|reflexivity]. exfalso. apply N.
    rewrite !andb_true_iff in E. destruct E as [[[[E1 E2] E3] E4] E5].
    pose proof (shows_ports _ _ _ _ _ _ _ _ _ _ S2 S1 E5) as Ep.
    destruct S1 as [_ [_ [_ [_ [A1 [A2 [A3 [A4 _]]]]]]]]. destruct S2 as [_ [_ [_ [_ [B1 [B2 [B3 [B4 _]]]]]]]].
    rewrite A1, B1 in E1. rewrite A2, B2 in E2. rewrite A3, B3 in E3. rewrite A4, B4 in E4.
    apply str_eqb_eq in E1. apply str_eqb_eq in E2. apply ostr_eqb_eq in E3. apply ostr_eqb_eq in E4.
    assert (o_host o1 = o_host o2) by (destruct (o_host o1), (o_host o2); congruence).
    destruct o1, o2. cbn in *. congruence.
  Qed.

  Lemma shows_same_origin : forall u1 u2 o b1 q1 f1 b2 q2 f2,
    shows U u1 o b1 q1 f1 -> shows U u2 o b2 q2 f2 ->
    negb (str_eqb (ul_scheme U u2) (ul_scheme U u1)) || negb (str_eqb (ul_username U u2) (ul_username U u1))
    || negb (ostr_eqb (ul_password U u2) (ul_password U u1)) || negb (ostr_eqb (ul_host U u2) (ul_host U u1))
    || negb (oZ_eqb (ul_port U u2) (ul_port U u1)) = false.
  Proof.
    intros u1 u2 o b1 q1 f1 b2 q2 f2 S1 S2.
    rewrite (shows_port u2 u1 o o _ _ _ _ _ _ S2 S1 eq_refl).
    destruct S1 as [_ [_ [_ [_ [-> [-> [-> [-> _]]]]]]]]. destruct S2 as [_ [_ [_ [_ [-> [-> [-> [-> _]]]]]]]].
    rewrite !ostr_eqb_refl, !str_eqb_refl. reflexivity.
  Qed.

  (** two references that the base resolves to the same origin *)
  Lemma replace_same : forall root target t o b1 q1 f1 b2 q2 f2,
    get_url_type root = Ok t -> get_url_type target = Ok t ->
    len root + len target <= 2147483645 -> plain_origin o ->
    clean_path b2 ->
    (forall u p, clean_path p -> shows U u host_origin p None None ->
       max_dotdots (root ++ target) (List.length (dirs p)) ->
       exists u', ul_join U u root = Some u' /\ shows U u' o (b1 p) q1 f1) ->
    (forall u p, clean_path p -> shows U u host_origin p None None ->
       exists u', ul_join U u target = Some u' /\ shows U u' o b2 q2 f2) ->
    replace_if_possible md U root target = (let* r := compute_relative_url U root target in Ok (Some r)).
  Proof.
    intros root target t o b1 q1 f1 b2 q2 f2 E1 E2 L Ho Cb J1 J2. unfold replace_if_possible.
    rewrite E1, E2. cbn [bind]. rewrite type_eqb_refl. cbn [negb].
    destruct (base_ok md U C (root ++ target)) as [base [seg [k [u B]]]]; [rewrite len_app; lia|].
    rewrite (b_ok _ _ _ _ _ _ _ B). cbn [bind]. rewrite (b_parse _ _ _ _ _ _ _ B). cbn [bind unwrap_ok].
    destruct (J1 u _ (b_clean _ _ _ _ _ _ _ B) (b_shows _ _ _ _ _ _ _ B)) as [u1 [F1 S1]].
    { cbn [dirs]. rewrite repeat_length, (b_count _ _ _ _ _ _ _ B). apply count_max. }
    destruct (J2 u _ (b_clean _ _ _ _ _ _ _ B) (b_shows _ _ _ _ _ _ _ B)) as [u2 [F2 S2]].
    rewrite F1, F2. cbn [bind unwrap_ok].
    destruct (uc_join_empty U C u2 o b2 q2 f2 Ho Cb S2) as [u3 [F3 _]].
    rewrite F3. rewrite (shows_same_origin _ _ _ _ _ _ _ _ _ S1 S2). reflexivity.
  Qed.

  Lemma no_parse : forall root target, ~ In (ch ":") root ->
    compute_relative_url U root target = Panic PUnwrapErr.
  Proof. intros root target H. unfold compute_relative_url. rewrite (uc_parse_fail U C _ H). reflexivity. Qed.

  Lemma abs_no_colon : forall p q f, plain_path p -> plain_opt q -> plain_opt f ->
    ~ In (ch ":") (abs_text p ++ tail_text q f).
  Proof.
    intros p q f Hp Hq Hf Hi. unfold abs_text in Hi. rewrite <- app_assoc in Hi. cbn [lit app In] in Hi.
    destruct Hi as [Hi|Hi]; [discriminate|]. apply (path_no_colon p q f Hp Hq Hf Hi).
  Qed.

  Lemma relative_rel : forall r q f t q' f',
    plain_path r -> path_text r <> [] -> plain_opt q -> plain_opt f ->
    plain_path t -> path_text t <> [] -> plain_opt q' -> plain_opt f' ->
    2 <= len (path_text r ++ tail_text q f) -> 2 <= len (path_text t ++ tail_text q' f') ->
    len (path_text r ++ tail_text q f) + len (path_text t ++ tail_text q' f') <= 2147483645 ->
    relative md U (path_text r ++ tail_text q f) (path_text t ++ tail_text q' f') = Panic PUnwrapErr.
  Proof.
    intros r q f t q' f' Hr Nr Hq Hf Ht Nt Hq' Hf' L1 L2 L. unfold relative, replace_if_possible.
    rewrite !type_rel_path by assumption. cbn [bind url_type_eqb negb].
    destruct (base_ok md U C ((path_text r ++ tail_text q f) ++ (path_text t ++ tail_text q' f')))
      as [base [seg [k [u B]]]]; [rewrite len_app; lia|].
    rewrite (b_ok _ _ _ _ _ _ _ B). cbn [bind]. rewrite (b_parse _ _ _ _ _ _ _ B). cbn [bind unwrap_ok].
    pose proof (b_clean _ _ _ _ _ _ _ B) as Cb.
    destruct (uc_join_rel U C u host_origin _ None None r q f host_plain Cb
                (b_shows _ _ _ _ _ _ _ B) Hr Nr Hq Hf) as [u1 [F1 S1]].
    destruct (uc_join_rel U C u host_origin _ None None t q' f' host_plain Cb
                (b_shows _ _ _ _ _ _ _ B) Ht Nt Hq' Hf') as [u2 [F2 S2]].
    rewrite F1, F2. cbn [bind unwrap_ok].
    assert (Ct : clean_path (resolve_from (dirs (mkPath (repeat seg k) [])) t)).
    { apply clean_resolve; [apply Cb|apply Cb|exact Ht]. }
    destruct (uc_join_empty U C u2 _ _ _ _ host_plain Ct S2) as [u3 [F3 _]].
    rewrite F3. rewrite (shows_same_origin _ _ _ _ _ _ _ _ _ S1 S2).
    rewrite no_parse by (apply path_no_colon; assumption). reflexivity.
  Qed.

  Lemma relative_abs : forall r q f t q' f',
    plain_path r -> plain_opt q -> plain_opt f ->
    plain_path t -> plain_opt q' -> plain_opt f' ->
    1 <= len (path_text r ++ tail_text q f) -> 1 <= len (path_text t ++ tail_text q' f') ->
    len (abs_text r ++ tail_text q f) + len (abs_text t ++ tail_text q' f') <= 2147483645 ->
    relative md U (abs_text r ++ tail_text q f) (abs_text t ++ tail_text q' f') = Panic PUnwrapErr.
  Proof.
    intros r q f t q' f' Hr Hq Hf Ht Hq' Hf' L1 L2 L. unfold relative.
    rewrite (replace_same _ _ PathAbsolute host_origin (fun _ => resolve_from [] r) q f (resolve_from [] t) q' f').
    - rewrite no_parse by (apply abs_no_colon; assumption). reflexivity.
    - apply type_abs_path; assumption.
    - apply type_abs_path; assumption.
    - exact L.
    - apply host_plain.
    - apply clean_resolve; try constructor; apply Ht.
    - intros u p Hp S _. apply (uc_join_abs U C u _ _ _ _ r q f host_plain Hp S); assumption.
    - intros u p Hp S. apply (uc_join_abs U C u _ _ _ _ t q' f' host_plain Hp S); assumption.
  Qed.

  Lemma relative_url : forall o r q f t q' f',
    plain_origin o -> plain_path r -> plain_opt q -> plain_opt f ->
    plain_path t -> plain_opt q' -> plain_opt f' ->
    len (url_text o r q f) + len (url_text o t q' f') <= 2147483645 ->
    relative md U (url_text o r q f) (url_text o t q' f')
    = Ok (join_str (lit "/") (rel_parts (as_dirs (resolve_from [] r))
           (dirs (resolve_from [] t) ++ [file (resolve_from [] t)])) ++ glue q' ++ glue f').
  Proof.
    intros o r q f t q' f' Ho Hr Hq Hf Ht Hq' Hf' L. unfold relative.
    rewrite (replace_same _ _ Absolute o (fun _ => resolve_from [] r) q f (resolve_from [] t) q' f').
    - rewrite relative_urls by assumption. reflexivity.
    - apply type_url. assumption.
    - apply type_url. assumption.
    - exact L.
    - exact Ho.
    - apply clean_resolve; try constructor; apply Ht.
    - intros u p Hp S _. apply (uc_join_url U C u _ _ _ _ o r q f host_plain Hp S); assumption.
    - intros u p Hp S. apply (uc_join_url U C u _ _ _ _ o t q' f' host_plain Hp S); assumption.
  Qed.

  Lemma relative_kinds : forall root target t t', get_url_type root = Ok t -> get_url_type target = Ok t' -> t <> t' ->
    relative md U root target = NORMALIZE md U target.
  Proof.
    intros root target t t' E1 E2 H. unfold relative, replace_if_possible. rewrite E1, E2. cbn [bind].
    destruct t, t'; try (exfalso; apply H; reflexivity); reflexivity.
  Qed.

  Lemma relative_origins : forall o r q f o' t q' f',
    plain_origin o -> plain_path r -> plain_opt q -> plain_opt f ->
    plain_origin o' -> plain_path t -> plain_opt q' -> plain_opt f' -> o <> o' ->
    len (url_text o r q f) + len (url_text o' t q' f') <= 2147483645 ->
    relative md U (url_text o r q f) (url_text o' t q' f') = Ok (url_text o' (resolve_from [] t) q' f').
  Proof.
    intros o r q f o' t q' f' Ho Hr Hq Hf Ho' Ht Hq' Hf' No L. unfold relative, replace_if_possible.
    unfold url_text at 1 2. rewrite !type_url by assumption. cbn [bind url_type_eqb negb].
    destruct (base_ok md U C (url_text o r q f ++ url_text o' t q' f')) as [base [seg [k [u B]]]];
      [rewrite len_app; lia|].
    rewrite (b_ok _ _ _ _ _ _ _ B). cbn [bind]. rewrite (b_parse _ _ _ _ _ _ _ B). cbn [bind unwrap_ok].
    destruct (uc_join_url U C u host_origin _ None None o r q f host_plain (b_clean _ _ _ _ _ _ _ B)
                (b_shows _ _ _ _ _ _ _ B) Ho Hr Hq Hf) as [u1 [F1 S1]].
    destruct (uc_join_url U C u host_origin _ None None o' t q' f' host_plain (b_clean _ _ _ _ _ _ _ B)
                (b_shows _ _ _ _ _ _ _ B) Ho' Ht Hq' Hf') as [u2 [F2 S2]].
    rewrite F1, F2. cbn [bind unwrap_ok].
    destruct (uc_join_empty U C u2 _ _ _ _ Ho' (clean_resolve [] t (Forall_nil _) (Forall_nil _) Ht) S2) as [u3 [F3 _]].
    rewrite F3.
    rewrite (shows_other_origin _ _ _ _ _ _ _ _ _ _ S1 S2 No).
    apply (NORMALIZE_url md U C); try assumption; pose proof (len_nonneg _ (url_text o r q f)); lia.
  Qed.
End Source.
