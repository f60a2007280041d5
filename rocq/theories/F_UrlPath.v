(** * Paths: moves, normal forms and relative paths *)
From Verif Require Import Base F_Base M_Util S_Url F_UrlText.

(** ** single moves *)
Lemma is_dot_proper : forall s, proper s -> is_dot s = false /\ is_dotdot s = false.
Proof.
  intros s [H1 H2]. unfold is_dot, is_dotdot. split; apply str_eqb_neq; assumption.
Qed.

Lemma proper_nil : proper [].
Proof. split; discriminate. Qed.

Lemma seg_cases : forall s, s = dot \/ s = dotdot \/ (s <> dot /\ s <> dotdot /\ is_dot s = false /\ is_dotdot s = false).
Proof.
  intros s. destruct (str_eqb s dot) eqn:E1; [left; apply str_eqb_eq; exact E1|right].
  destruct (str_eqb s dotdot) eqn:E2; [left; apply str_eqb_eq; exact E2|right].
  apply str_eqb_neq in E1 as F1. apply str_eqb_neq in E2 as F2. auto.
Qed.

Lemma move_proper : forall at_ s, proper s -> move at_ s = at_ ++ [s].
Proof. intros at_ s H. unfold move. destruct (is_dot_proper s H) as [-> ->]. reflexivity. Qed.

Lemma rel_move_proper : forall r s, proper s -> rel_move r s = mkRel (ups r) (downs r ++ [s]).
Proof. intros r s H. unfold rel_move. destruct (is_dot_proper s H) as [-> ->]. reflexivity. Qed.

Lemma fold_move_proper : forall ds at_, Forall proper ds -> fold_left move ds at_ = at_ ++ ds.
Proof.
  induction ds as [|d ds IH]; intros at_ H; cbn; [symmetry; apply app_nil_r|]. inv H.
  rewrite move_proper by assumption. rewrite IH by assumption. rewrite <- app_assoc. reflexivity.
Qed.

Lemma fold_rel_proper : forall ds r, Forall proper ds ->
  fold_left rel_move ds r = mkRel (ups r) (downs r ++ ds).
Proof.
  induction ds as [|d ds IH]; intros r H; cbn.
  - rewrite app_nil_r. destruct r; reflexivity.
  - inv H. rewrite rel_move_proper by assumption. rewrite IH by assumption. cbn.
    rewrite <- app_assoc. reflexivity.
Qed.

Lemma fold_rel_dotdots : forall n u, fold_left rel_move (repeat dotdot n) (mkRel u []) = mkRel (u + n) [].
Proof.
  induction n as [|n IH]; intros u; cbn [repeat fold_left]; [rewrite Nat.add_0_r; reflexivity|].
  change (rel_move (mkRel u []) dotdot) with (mkRel (S u) []). rewrite IH. f_equal. lia.
Qed.

Lemma removelast_snoc : forall A (l : list A) x, removelast (l ++ [x]) = l.
Proof. intros. rewrite removelast_app by discriminate. cbn. apply app_nil_r. Qed.

Lemma rel_dotdot_snoc : forall u d x, rel_move (mkRel u (d ++ [x])) dotdot = mkRel u d.
Proof.
  intros u d x. unfold rel_move. change (is_dot dotdot) with false. change (is_dotdot dotdot) with true.
  cbn [downs ups]. destruct (d ++ [x]) as [|y l] eqn:E; [destruct d; discriminate|].
  rewrite <- E, removelast_snoc. reflexivity.
Qed.

Lemma move_dotdot_snoc : forall d x, move (d ++ [x]) dotdot = d.
Proof. intros. unfold move, up. cbn. apply removelast_snoc. Qed.

(** ** what walking produces *)
Definition good_rel (P : str -> Prop) (r : rel) : Prop := Forall P (downs r).

Lemma Forall_removelast : forall A (P : A -> Prop) l, Forall P l -> Forall P (removelast l).
Proof.
  intros A P l H. induction H as [|x l Hx Hl IH]; [constructor|]. cbn. destruct l; [constructor|].
  constructor; assumption.
Qed.

Lemma rel_move_good : forall (P : str -> Prop) r s, good_rel P r -> (proper s -> P s) -> good_rel P (rel_move r s).
Proof.
  intros P r s H Hs. unfold good_rel in *. destruct (seg_cases s) as [->|[->|[H1 [H2 [E1 E2]]]]].
  - exact H.
  - unfold rel_move. cbn. destruct (downs r) as [|x d] eqn:E; [constructor|].
    apply (Forall_removelast _ P (x :: d)). exact H.
  - unfold rel_move. rewrite E1, E2. cbn. apply Forall_app. split; [exact H|].
    constructor; [|constructor]. apply Hs. split; assumption.
Qed.

Lemma fold_rel_good : forall (P : str -> Prop) ds r, good_rel P r -> Forall (fun s => proper s -> P s) ds ->
  good_rel P (fold_left rel_move ds r).
Proof.
  intros P ds. induction ds as [|d ds IH]; intros r H F; cbn; [exact H|]. inv F.
  apply IH; [|assumption]. apply rel_move_good; assumption.
Qed.

Lemma fold_rel_proper_downs : forall ds, Forall proper (downs (fold_left rel_move ds (mkRel 0 []))).
Proof.
  intros ds. apply (fold_rel_good proper); [constructor|]. apply Forall_forall. auto.
Qed.

Lemma move_good : forall (P : str -> Prop) at_ s, Forall P at_ -> (proper s -> P s) -> Forall P (move at_ s).
Proof.
  intros P at_ s H Hs. destruct (seg_cases s) as [->|[->|[H1 [H2 [E1 E2]]]]].
  - exact H.
  - apply Forall_removelast. exact H.
  - unfold move. rewrite E1, E2. apply Forall_app. split; [exact H|].
    constructor; [|constructor]. apply Hs. split; assumption.
Qed.

Lemma fold_move_good : forall (P : str -> Prop) ds at_, Forall P at_ -> Forall (fun s => proper s -> P s) ds ->
  Forall P (fold_left move ds at_).
Proof.
  intros P ds. induction ds as [|d ds IH]; intros at_ H F; cbn; [exact H|]. inv F.
  apply IH; [|assumption]. apply move_good; assumption.
Qed.

(** ** levels up *)
Definition dotdots (ds : list str) : nat := List.length (filter is_dotdot ds).

Lemma dotdots_app : forall a b, dotdots (a ++ b) = (dotdots a + dotdots b)%nat.
Proof. intros. unfold dotdots. rewrite filter_app, app_length. reflexivity. Qed.

Lemma ups_move : forall r s,
  (ups r <= ups (rel_move r s) <= ups r + (if is_dotdot s then 1 else 0))%nat.
Proof.
  intros r s. unfold rel_move. destruct (is_dot s) eqn:E; [lia|].
  destruct (is_dotdot s); [destruct (downs r)|]; cbn; lia.
Qed.

Lemma ups_fold : forall ds r,
  (ups r <= ups (fold_left rel_move ds r) <= ups r + dotdots ds)%nat.
Proof.
  induction ds as [|d ds IH]; intros r; [cbn; lia|]. cbn [fold_left].
  specialize (IH (rel_move r d)). pose proof (ups_move r d).
  unfold dotdots in *. cbn [filter]. destruct (is_dotdot d); cbn [length]; lia.
Qed.

(** ** the internal base *)
Definition absr (seg : str) (k : nat) (r : rel) : list str := repeat seg (k - ups r) ++ downs r.

Lemma repeat_snoc : forall A (x : A) n, repeat x (S n) = repeat x n ++ [x].
Proof. intros. rewrite <- (repeat_cons n x). reflexivity. Qed.

Lemma abs_move : forall seg k r s, (ups (rel_move r s) <= k)%nat ->
  move (absr seg k r) s = absr seg k (rel_move r s).
Proof.
  intros seg k r s H. unfold absr. destruct (seg_cases s) as [->|[->|[H1 [H2 [E1 E2]]]]].
  - reflexivity.
  - unfold move, up. change (is_dot dotdot) with false. change (is_dotdot dotdot) with true. cbn iota.
    unfold rel_move in *. change (is_dot dotdot) with false in *. change (is_dotdot dotdot) with true in *.
    cbn iota in *. destruct (downs r) as [|x d] eqn:E; cbn [ups downs] in *.
    + rewrite !app_nil_r. replace (k - ups r)%nat with (S (k - S (ups r))) by lia.
      rewrite repeat_snoc, removelast_snoc. reflexivity.
    + rewrite removelast_app by discriminate. reflexivity.
  - unfold move, rel_move. rewrite E1, E2. cbn [ups downs]. rewrite app_assoc. reflexivity.
Qed.

Lemma abs_fold : forall seg k ds r, (ups (fold_left rel_move ds r) <= k)%nat ->
  fold_left move ds (absr seg k r) = absr seg k (fold_left rel_move ds r).
Proof.
  induction ds as [|d ds IH]; intros r H; cbn [fold_left]; [reflexivity|].
  cbn [fold_left] in H. pose proof (ups_fold ds (rel_move r d)).
  rewrite abs_move by lia. apply IH. exact H.
Qed.

(** ** walking the normal form *)
Lemma snoc_cases : forall A (l : list A), l = [] \/ exists l' x, l = l' ++ [x].
Proof.
  intros A l. induction l as [|x l' _] using rev_ind; [left; reflexivity|right; eauto].
Qed.

Lemma fold_normal : forall ds r,
  let n := fold_left rel_move ds (mkRel 0 []) in
  fold_left rel_move (repeat dotdot (ups n) ++ downs n) r = fold_left rel_move ds r.
Proof.
  intros ds r. cbn zeta. induction ds as [|s ds IH] using rev_ind; [reflexivity|].
  rewrite !fold_left_app. cbn [fold_left].
  pose proof (fold_rel_proper_downs ds) as G.
  rewrite <- fold_left_app. rewrite <- IH. clear IH.
  destruct (fold_left rel_move ds (mkRel 0 [])) as [u d]. cbn [ups downs] in *.
  destruct (seg_cases s) as [->|[->|[H1 [H2 [E1 E2]]]]].
  - reflexivity.
  - destruct (snoc_cases _ d) as [->|[d' [x ->]]].
    + change (rel_move (mkRel u []) dotdot) with (mkRel (S u) []). cbn [ups downs].
      rewrite !app_nil_r, repeat_snoc, fold_left_app. reflexivity.
    + rewrite rel_dotdot_snoc. cbn [ups downs].
      apply Forall_app in G. destruct G as [_ G]. inv G.
      rewrite app_assoc, (fold_left_app _ (repeat dotdot u ++ d') [x]). cbn [fold_left].
      rewrite (rel_move_proper _ x) by assumption. rewrite rel_dotdot_snoc.
      destruct (fold_left rel_move (_ ++ d') _); reflexivity.
  - rewrite (rel_move_proper (mkRel u d)) by (split; assumption). cbn [ups downs].
    rewrite app_assoc, fold_left_app. reflexivity.
Qed.

Lemma fold_normal_move : forall ds at_,
  let n := fold_left rel_move ds (mkRel 0 []) in
  fold_left move (repeat dotdot (ups n) ++ downs n) at_ = fold_left move ds at_.
Proof.
  intros ds at_. cbn zeta. induction ds as [|s ds IH] using rev_ind; [reflexivity|].
  rewrite !fold_left_app. cbn [fold_left].
  pose proof (fold_rel_proper_downs ds) as G.
  rewrite <- fold_left_app. rewrite <- IH. clear IH.
  destruct (fold_left rel_move ds (mkRel 0 [])) as [u d]. cbn [ups downs] in *.
  destruct (seg_cases s) as [->|[->|[H1 [H2 [E1 E2]]]]].
  - reflexivity.
  - destruct (snoc_cases _ d) as [->|[d' [x ->]]].
    + change (rel_move (mkRel u []) dotdot) with (mkRel (S u) []). cbn [ups downs].
      rewrite !app_nil_r, repeat_snoc, fold_left_app. reflexivity.
    + rewrite rel_dotdot_snoc. cbn [ups downs].
      apply Forall_app in G. destruct G as [_ G]. inv G.
      rewrite app_assoc, (fold_left_app _ (repeat dotdot u ++ d') [x]). cbn [fold_left].
      rewrite (move_proper _ x) by assumption. rewrite move_dotdot_snoc.
      reflexivity.
  - rewrite (rel_move_proper (mkRel u d)) by (split; assumption). cbn [ups downs].
    rewrite app_assoc, fold_left_app. reflexivity.
Qed.

(** ** rel_of: the parts of the normal form *)
Definition rel_of (p : path) : rel :=
  let r := fold_left rel_move (dirs p) (mkRel 0 []) in
  if is_dot (file p) || is_dotdot (file p) then rel_move r (file p) else r.
Definition file_of (p : path) : str :=
  if is_dot (file p) || is_dotdot (file p) then [] else file p.

Lemma normal_eq : forall p, normal p = rel_path (rel_of p) (file_of p).
Proof. intros p. unfold normal, rel_of, file_of. destruct (is_dot _ || _); reflexivity. Qed.

Definition file_dirs (p : path) : list str :=
  if is_dot (file p) || is_dotdot (file p) then [file p] else [].

Lemma rel_of_fold : forall p, rel_of p = fold_left rel_move (dirs p ++ file_dirs p) (mkRel 0 []).
Proof.
  intros p. unfold rel_of, file_dirs. rewrite fold_left_app.
  destruct (is_dot (file p) || is_dotdot (file p)); reflexivity.
Qed.

Lemma resolve_eq : forall at_ p,
  resolve_from at_ p = mkPath (fold_left move (dirs p ++ file_dirs p) at_) (file_of p).
Proof.
  intros at_ p. unfold resolve_from, file_dirs, file_of. rewrite fold_left_app.
  destruct (is_dot (file p) || is_dotdot (file p)); reflexivity.
Qed.

Lemma file_of_proper : forall p, proper (file_of p).
Proof.
  intros p. unfold file_of. destruct (seg_cases (file p)) as [->|[->|[H1 [H2 [E1 E2]]]]];
    try apply proper_nil. rewrite E1, E2. split; assumption.
Qed.

Lemma rel_of_proper : forall p, Forall proper (downs (rel_of p)).
Proof. intros p. rewrite rel_of_fold. apply fold_rel_proper_downs. Qed.

Lemma rel_path_file : forall r f, proper f ->
  file_dirs (rel_path r f) = [] /\ file_of (rel_path r f) = f.
Proof.
  intros r f H. unfold file_dirs, file_of. cbn [file rel_path].
  destruct (is_dot_proper _ H) as [-> ->]. split; reflexivity.
Qed.

Lemma normal_idem : forall p, normal (normal p) = normal p.
Proof.
  intros p. rewrite (normal_eq (normal p)), rel_of_fold, normal_eq.
  destruct (rel_path_file (rel_of p) (file_of p) (file_of_proper p)) as [-> ->].
  rewrite app_nil_r. cbn [dirs rel_path]. f_equal. rewrite (rel_of_fold p).
  rewrite fold_normal. reflexivity.
Qed.

Lemma normal_resolve : forall at_ p, resolve_from at_ (normal p) = resolve_from at_ p.
Proof.
  intros at_ p. rewrite !resolve_eq, normal_eq.
  destruct (rel_path_file (rel_of p) (file_of p) (file_of_proper p)) as [-> ->].
  rewrite app_nil_r. cbn [dirs rel_path]. f_equal. rewrite (rel_of_fold p). apply fold_normal_move.
Qed.

(** directories *)
Lemma as_dirs_fold : forall A (f : A -> str -> A) (p : path) a,
  (forall a, f a dot = a) ->
  fold_left f (as_dirs p) a
  = (if is_dot (file p) || is_dotdot (file p) then f (fold_left f (dirs p) a) (file p)
     else match file p with [] => fold_left f (dirs p) a | s => f (fold_left f (dirs p) a) s end).
Proof.
  intros A f p a H. unfold as_dirs. rewrite fold_left_app.
  destruct (file p) as [|c s]; [reflexivity|]. cbn [fold_left].
  destruct (is_dot (c :: s) || is_dotdot (c :: s)); reflexivity.
Qed.

(** the path of the directory [p] names *)
Definition dir_path (p : path) : path := mkPath (as_dirs p) [].

Lemma dir_rel : forall p, rel_of (dir_path p) = fold_left rel_move (as_dirs p) (mkRel 0 []).
Proof. intros p. rewrite rel_of_fold. cbn. rewrite app_nil_r. reflexivity. Qed.

Lemma as_dirs_resolve : forall at_ p,
  as_dirs (resolve_from at_ p) = fold_left move (as_dirs p) at_.
Proof.
  intros at_ p. rewrite as_dirs_fold by reflexivity. rewrite resolve_eq. unfold as_dirs, file_dirs, file_of.
  cbn [dirs file]. rewrite fold_left_app.
  destruct (seg_cases (file p)) as [E|[E|[H1 [H2 [E1 E2]]]]].
  - rewrite E. cbn. rewrite app_nil_r. reflexivity.
  - rewrite E. cbn. rewrite app_nil_r. reflexivity.
  - rewrite E1, E2. cbn [orb fold_left]. destruct (file p) as [|c s]; [apply app_nil_r|].
    unfold move at 2. rewrite E1, E2. reflexivity.
Qed.

Lemma below_rel : forall a b,
  normal (below a b) = rel_path (fold_left rel_move (dirs b ++ file_dirs b)
                                   (fold_left rel_move (as_dirs a) (mkRel 0 []))) (file_of b).
Proof.
  intros a b. rewrite normal_eq, rel_of_fold. unfold below, file_dirs, file_of. cbn [dirs file].
  rewrite !fold_left_app. reflexivity.
Qed.

Lemma below_resolve : forall at_ a b,
  resolve_from at_ (below a b) = resolve_from (fold_left move (as_dirs a) at_) b.
Proof.
  intros at_ a b. rewrite !resolve_eq. unfold below, file_dirs, file_of. cbn [dirs file].
  rewrite !fold_left_app. reflexivity.
Qed.

(** ** plainness *)
Lemma plain_dot : plain_seg dot.
Proof. split; [discriminate|]. repeat constructor. Qed.
Lemma plain_dotdot : plain_seg dotdot.
Proof. split; [discriminate|]. repeat constructor. Qed.

Lemma plain_rel_path : forall p, plain_path p -> Forall plain_seg (downs (rel_of p)) /\ plain (file_of p).
Proof.
  intros p [H1 H2]. split.
  - rewrite rel_of_fold. apply (fold_rel_good plain_seg); [constructor|].
    apply Forall_app. split.
    + eapply Forall_impl; [|exact H1]. auto.
    + unfold file_dirs. destruct (seg_cases (file p)) as [->|[->|[F1 [F2 [E1 E2]]]]].
      * constructor; [intros [? ?]; congruence|constructor].
      * constructor; [intros [? ?]; congruence|constructor].
      * rewrite E1, E2. constructor.
  - unfold file_of. destruct (is_dot _ || _); [constructor|exact H2].
Qed.

Lemma plain_normal : forall p, plain_path p -> plain_path (normal p).
Proof.
  intros p H. apply plain_rel_path in H. destruct H as [H1 H2]. rewrite normal_eq. split; cbn.
  - apply Forall_app. split; [|exact H1]. apply Forall_forall. intros x Hx. apply repeat_spec in Hx.
    subst x. apply plain_dotdot.
  - exact H2.
Qed.

Lemma clean_resolve : forall at_ p, Forall plain_seg at_ -> Forall proper at_ -> plain_path p ->
  clean_path (resolve_from at_ p).
Proof.
  intros at_ p H1 H2 [H3 H4]. rewrite resolve_eq.
  assert (G : forall P : str -> Prop, Forall (fun s => proper s -> P s) (dirs p) ->
            Forall (fun s => proper s -> P s) (dirs p ++ file_dirs p)).
  { intros P HP. apply Forall_app. split; [exact HP|]. unfold file_dirs.
    destruct (seg_cases (file p)) as [->|[->|[F1 [F2 [E1 E2]]]]].
    - constructor; [intros [? ?]; congruence|constructor].
    - constructor; [intros [? ?]; congruence|constructor].
    - rewrite E1, E2. constructor. }
  split; [split|split]; cbn [dirs file].
  - apply fold_move_good; [exact H1|]. apply G. eapply Forall_impl; [|exact H3]. auto.
  - unfold file_of. destruct (is_dot _ || _); [constructor|exact H4].
  - apply fold_move_good; [exact H2|]. apply G. apply Forall_forall. auto.
  - apply file_of_proper.
Qed.

Lemma resolve_clean : forall p, clean_path p -> resolve_from [] p = p.
Proof.
  intros [ds f] [_ [H1 H2]]. cbn in *. rewrite resolve_eq.
  destruct (is_dot_proper _ H2) as [E1 E2].
  unfold file_dirs, file_of. cbn [file dirs]. rewrite E1, E2. cbn [orb]. rewrite app_nil_r.
  rewrite fold_move_proper by exact H1. reflexivity.
Qed.

Lemma clean_dir : forall p, clean_path p -> clean_path (dir_path p).
Proof.
  intros [ds f] [[H1 H2] [H3 H4]]. cbn in *. unfold dir_path, as_dirs. cbn [dirs file].
  split; [split|split]; cbn [dirs file].
  - apply Forall_app. split; [exact H1|]. destruct f; [constructor|]. constructor; [|constructor].
    split; [discriminate|exact H2].
  - constructor.
  - apply Forall_app. split; [exact H3|]. destruct f; [constructor|]. constructor; [exact H4|constructor].
  - apply proper_nil.
Qed.

Lemma clean_seg : forall s, clean_path s -> Forall plain_seg (dirs s) /\ Forall proper (dirs s).
Proof. intros s [[H _] [H2 _]]. auto. Qed.

Lemma clean_plain : forall p, clean_path p -> plain_path p.
Proof. intros p [H _]. exact H. Qed.

(** ** dots in the text *)
Lemma is_dotdot_eq : forall s, is_dotdot s = true -> s = dotdot.
Proof. intros s H. apply str_eqb_eq. exact H. Qed.

Lemma dotdots_count : forall ds f,
  (dotdots ds + count_dotdot f <= count_dotdot (dirs_text ds ++ f))%nat.
Proof.
  induction ds as [|d ds IH]; intros f; [cbn; lia|].
  rewrite dirs_text_cons, <- !app_assoc. specialize (IH f).
  pose proof (count_app' d (lit "/" ++ dirs_text ds ++ f)).
  pose proof (count_app' (lit "/") (dirs_text ds ++ f)).
  assert ((if is_dotdot d then 1 else 0) <= count_dotdot d)%nat.
  { destruct (is_dotdot d) eqn:E; [|lia]. apply is_dotdot_eq in E. rewrite E. cbn. lia. }
  unfold dotdots in *. cbn [filter]. destruct (is_dotdot d); cbn [length]; lia.
Qed.

Lemma path_dotdots : forall p, (dotdots (dirs p ++ file_dirs p) <= count_dotdot (path_text p))%nat.
Proof.
  intros p. rewrite dotdots_app. pose proof (dotdots_count (dirs p) (file p)). unfold path_text.
  assert (dotdots (file_dirs p) <= count_dotdot (file p))%nat; [|lia].
  unfold file_dirs. destruct (seg_cases (file p)) as [->|[->|[F1 [F2 [E1 E2]]]]]; [cbn; lia..|].
  rewrite E1, E2. cbn. lia.
Qed.

(** ** segments occur in the text *)
Lemma substring_app_l : forall s a b, substring s a -> substring s (a ++ b).
Proof. intros s a b [x [y ->]]. exists x, (y ++ b). rewrite <- !app_assoc. reflexivity. Qed.
Lemma substring_app_r : forall s a b, substring s b -> substring s (a ++ b).
Proof. intros s a b [x [y ->]]. exists (a ++ x), y. rewrite <- app_assoc. reflexivity. Qed.
Lemma substring_refl : forall s, substring s s.
Proof. intros s. exists [], []. rewrite app_nil_r. reflexivity. Qed.

Lemma dirs_substring : forall d ds, In d ds -> substring d (dirs_text ds).
Proof.
  intros d ds H. apply in_split in H. destruct H as [a [b ->]].
  rewrite dirs_text_app, dirs_text_cons. apply substring_app_r. apply substring_app_l. apply substring_refl.
Qed.

(** what walking a path leaves comes from its text *)
Lemma rel_of_fresh : forall seg p, ~ substring seg (path_text p) ->
  Forall (fun d => d <> seg) (downs (rel_of p)).
Proof.
  intros seg p H. rewrite rel_of_fold. apply (fold_rel_good (fun d => d <> seg)); [constructor|].
  apply Forall_app. split.
  - apply Forall_forall. intros d Hd _ ->. apply H. unfold path_text. apply substring_app_l.
    apply dirs_substring. exact Hd.
  - unfold file_dirs. destruct (is_dot _ || _); [|constructor].
    constructor; [|constructor]. intros _ <-. apply H. unfold path_text. apply substring_app_r.
    apply substring_refl.
Qed.

Lemma file_of_fresh : forall seg p, seg <> [] -> ~ substring seg (path_text p) -> file_of p <> seg.
Proof.
  intros seg p N H. unfold file_of. destruct (is_dot _ || _); [congruence|].
  intros <-. apply H. unfold path_text. apply substring_app_r. apply substring_refl.
Qed.
