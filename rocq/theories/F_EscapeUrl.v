(** * The functions of src/util.rs on references with characters to escape *)
From Verif Require Import Base F_Base M_Util S_Url S_Escape F_Dec F_UrlText F_UrlPath F_UrlOps F_Url F_UrlProps F_Escape.

(** ** what the functions look at *)
Lemma escape_head : forall c s, exists x t, escape (c :: s) = x :: t
  /\ ((escaped_char c = false /\ x = c /\ t = escape s) \/ (escaped_char c = true /\ x = ch "%")).
Proof.
  intros c s. destruct (escaped_char c) eqn:E.
  - destruct (escaped_shape c E) as [a [b [t Es]]]. exists (ch "%"), (a :: b :: t ++ escape s). split; [|right; auto].
    unfold escape at 1. cbn [map concat]. rewrite E, Es. reflexivity.
  - exists c, (escape s). split; [apply escape_cons; exact E|left; auto].
Qed.

Lemma escaped_not_scheme : forall c, escaped_char c = true -> scheme_char c = false /\ N.eqb c c_colon = false /\ N.eqb c c_slash = false.
Proof.
  intros c H. apply escaped_cases in H. unfold scheme_char, c_colon, c_slash, char in *.
  destruct H as [->|[->|[->|[->|H]]]]; try (vm_compute; auto; fail).
  change (ch "+") with 43%N. change (ch "-") with 45%N. change (ch ".") with 46%N. change (ch ":") with 58%N. change (ch "/") with 47%N.
  rewrite !orb_false_iff, !andb_false_iff, !N.leb_gt, !N.eqb_neq. lia.
Qed.

Lemma head_slash : forall s, match escape s with d :: _ => N.eqb d c_slash | [] => false end
  = match s with d :: _ => N.eqb d c_slash | [] => false end.
Proof.
  destruct s as [|c s]; [reflexivity|]. destruct (escape_head c s) as [x [t [-> [[E [-> _]]|[E ->]]]]]; [reflexivity|].
  apply escaped_not_scheme in E. destruct E as [_ [_ ->]]. reflexivity.
Qed.

Lemma scheme_tail_escape : forall s, scheme_tail (escape s) = scheme_tail s.
Proof.
  induction s as [|c s IH]; [reflexivity|]. destruct (escape_head c s) as [x [t [-> [[E [-> ->]]|[E ->]]]]].
  - cbn [scheme_tail]. rewrite IH, head_slash. reflexivity.
  - apply escaped_not_scheme in E. destruct E as [E1 [E2 _]]. cbn [scheme_tail]. rewrite E1, E2. reflexivity.
Qed.

Lemma scheme_escape : forall s, absolute_scheme_match (escape s) = absolute_scheme_match s.
Proof.
  destruct s as [|c s]; [reflexivity|]. destruct (escape_head c s) as [x [t [-> [[E [-> ->]]|[E ->]]]]].
  - cbn [absolute_scheme_match]. rewrite scheme_tail_escape. reflexivity.
  - apply escaped_not_scheme in E. destruct E as [E1 _]. cbn [absolute_scheme_match]. rewrite E1. reflexivity.
Qed.

Lemma type_escape : forall s, 2 <= len s -> get_url_type (escape s) = get_url_type s.
Proof.
  intros s Hl. pose proof (scheme_escape s) as Es. pose proof (escape_len s) as Le.
  destruct s as [|c [|d s]]; [exfalso; cbn in Hl; lia..|]. unfold get_url_type.
  destruct (escape_head c (d :: s)) as [x [t [E1 H]]]. rewrite E1 in *.
  destruct t as [|y t]; [exfalso; unfold len in Le; cbn [List.length] in Le; lia|].
  rewrite Es. destruct H as [[E [-> Et]]|[E ->]].
  - destruct (N.eqb c c_slash); [|reflexivity]. pose proof (head_slash (d :: s)) as Hs. rewrite <- Et in Hs. rewrite Hs. reflexivity.
  - apply escaped_not_scheme in E. destruct E as [_ [_ ->]]. reflexivity.
Qed.

(** ** the base *)
Lemma escaped_not_dot : forall c, escaped_char c = true -> N.eqb c c_dot = false.
Proof.
  intros c H. apply escaped_cases in H. unfold c_dot, char in *. change (ch ".") with 46%N. apply N.eqb_neq. lia.
Qed.

Lemma count_no_dot : forall c s, N.eqb c c_dot = false -> count_dotdot (c :: s) = count_dotdot s.
Proof. intros c [|d s] H; [reflexivity|]. rewrite count_cons2, H. reflexivity. Qed.

Lemma count_skip : forall a s, (forall c, In c a -> N.eqb c c_dot = false) -> count_dotdot (a ++ s) = count_dotdot s.
Proof.
  induction a as [|c a IH]; intros s H; [reflexivity|]. cbn [app]. rewrite count_no_dot by (apply H; left; reflexivity).
  apply IH. intros x Hx. apply H. right. exact Hx.
Qed.

Lemma count_escape : forall s, count_dotdot (escape s) = count_dotdot s.
Proof.
  assert (G : forall n s, (List.length s <= n)%nat -> count_dotdot (escape s) = count_dotdot s).
  { induction n as [|n IH]; intros s Hl; [destruct s; [reflexivity|cbn in Hl; lia]|].
    destruct s as [|c s]; [reflexivity|]. cbn [List.length] in Hl. destruct (escaped_char c) eqn:E.
    - unfold escape. cbn [map concat]. rewrite E. fold (escape s).
      rewrite (count_no_dot c) by (apply escaped_not_dot; exact E). rewrite count_skip; [apply IH; lia|].
      intros x Hx. apply (escaped_in c) in Hx; [|exact E]. unfold c_dot. destruct Hx as [->|Hx]; [reflexivity|].
      destruct (N.eqb_spec x (ch ".")) as [->|]; [discriminate|reflexivity].
    - rewrite escape_cons by exact E. destruct (N.eqb c c_dot) eqn:Ec; [|rewrite !count_no_dot by exact Ec; apply IH; lia].
      destruct s as [|d s]; [reflexivity|]. cbn [List.length] in Hl.
      destruct (escape_head d s) as [x [t [E1 [[Ed [-> Et]]|[Ed ->]]]]].
      + rewrite E1, !count_cons2, Ec. cbn [andb]. destruct (N.eqb d c_dot); [rewrite Et; f_equal; apply IH; lia|].
        rewrite <- E1. apply IH. cbn [List.length]. lia.
      + rewrite E1, !count_cons2. rewrite (escaped_not_dot d Ed), !andb_false_r. rewrite <- E1. apply IH. cbn [List.length]. lia. }
  intros s. apply (G (List.length s)). apply le_n.
Qed.

(** a text without '%' that begins [escape s] begins [s] *)
Lemma prefix_escape : forall t s, (forall c, In c t -> c <> ch "%") -> is_prefix t (escape s) = true -> is_prefix t s = true.
Proof.
  induction t as [|c t IH]; intros s H P; [reflexivity|]. destruct s as [|d s]; [exact P|].
  destruct (escape_head d s) as [x [u [E1 [[Ed [-> Et]]|[Ed ->]]]]]; rewrite E1 in P; cbn [is_prefix] in *; apply andb_true_iff in P; destruct P as [P1 P2].
  - rewrite P1. cbn [andb]. apply IH; [intros y Hy; apply H; right; exact Hy|]. rewrite <- Et. exact P2.
  - exfalso. apply N.eqb_eq in P1. apply (H c); [left; reflexivity|exact P1].
Qed.

Lemma ident_escape : forall k, escape (ident k) = ident k.
Proof.
  intros k. apply escape_id. intros c Hc. apply text_fixed. apply (plain_chars (ident k)); [|exact Hc].
  destruct (ident_plain k) as [[_ H] _]. exact H.
Qed.

Lemma contains_escape : forall s k, contains (escape s) (ident k) = contains s (ident k).
Proof.
  intros s k. apply eq_true_iff_eq. rewrite !contains_iff. split.
  - intros [a [b E]]. revert a E. induction s as [|c s IH]; intros a E.
    + cbn in E. destruct a; discriminate.
    + unfold escape in E. cbn [map concat] in E. fold (escape s) in E.
      destruct (escaped_char c) eqn:Ec.
      * assert (G : forall e, (forall x, In x e -> x = ch "%" \/ upper_hex x = true) -> forall a, e ++ escape s = a ++ ident k ++ b ->
          exists a', escape s = a' ++ ident k ++ b).
        { induction e as [|x e IHe]; intros He a' E'; [exists a'; exact E'|]. destruct a' as [|y a'].
          - exfalso. unfold ident in E'. cbn [lit app] in E'. injection E' as Ex _.
            destruct (He x (or_introl eq_refl)) as [Hx|Hx]; subst x; discriminate.
          - cbn [app] in E'. injection E' as _ E'. apply (IHe (fun z Hz => He z (or_intror Hz)) a' E'). }
        destruct (G _ (fun x => escaped_in c x Ec) a E) as [a' E']. destruct (IH a' E') as [u [v ->]].
        exists (c :: u), v. reflexivity.
      * cbn [app] in E. destruct a as [|y a].
        -- exists []. cbn [app] in *.
           assert (P : is_prefix (ident k) (c :: s) = true).
           { apply (prefix_escape (ident k)).
             - intros x Hx ->. destruct (ident_plain k) as [[_ Hp] _]. unfold ident in Hx. destruct Hx as [Hx|Hx]; [discriminate|].
               pose proof (dec_str_digits (N.of_nat k)) as D. rewrite forallb_forall in D. specialize (D _ Hx). discriminate.
             - apply is_prefix_iff. exists b. rewrite escape_cons by exact Ec. exact E. }
           apply is_prefix_iff in P. destruct P as [v P]. exists v. exact P.
        -- cbn [app] in E. injection E as _ E. destruct (IH a E) as [u [v ->]]. exists (c :: u), v. reflexivity.
  - intros [a [b ->]]. exists (escape a), (escape b). rewrite !escape_app, ident_escape. reflexivity.
Qed.

Lemma base_escape : forall md s, len (escape s) <= 2147483645 -> build_safe_base md (escape s) = build_safe_base md s.
Proof.
  intros md s Hl. pose proof (escape_len s) as Le. unfold build_safe_base. rewrite count_escape.
  destruct (unique_segment (escape s) md Hl) as [k [E1 [E2 E3]]].
  destruct (unique_segment s md ltac:(lia)) as [k' [F1 [F2 F3]]].
  rewrite E1, F1. replace k' with k; [reflexivity|]. rewrite contains_escape in E2.
  destruct (Nat.lt_trichotomy k k') as [H|[H|H]]; [|exact H|].
  - rewrite (F3 k H) in E2. discriminate.
  - specialize (E3 k' H). rewrite contains_escape in E3. congruence.
Qed.

(** ** the functions *)
(** ** written paths *)
Definition escaped_path (p : path) : path := mkPath (map escape (dirs p)) (escape (file p)).

Lemma written_plain : forall s, written s -> plain (escape s).
Proof.
  induction 1 as [|c s [H|H] _ IH|a b s Ha Hb Hn _ IH].
  - constructor.
  - rewrite escape_cons by (apply text_fixed; unfold text_char; rewrite H; reflexivity). apply plain_cons; assumption.
  - unfold escape. cbn [map concat]. rewrite H. apply escaped_plain; assumption.
  - assert (G : forall c, hex_char c = true -> escaped_char c = false).
    { intros c Hc. apply text_fixed. unfold text_char. rewrite hex_plain by exact Hc. reflexivity. }
    rewrite !escape_cons by (try reflexivity; apply G; assumption). apply plain_escape; assumption.
Qed.

Lemma escape_dirs : forall ds, escape (dirs_text ds) = dirs_text (map escape ds).
Proof.
  induction ds as [|d ds IH]; [reflexivity|]. cbn [map]. rewrite !dirs_text_cons, !escape_app, IH. reflexivity.
Qed.

Lemma escape_path : forall p, escape (path_text p) = path_text (escaped_path p).
Proof. intros p. unfold path_text. rewrite escape_app, escape_dirs. reflexivity. Qed.

Lemma written_path_plain : forall p, written_path p -> plain_path (escaped_path p).
Proof.
  intros p [H1 [H2 _]]. split; cbn [escaped_path dirs file]; [|apply written_plain; exact H2].
  apply Forall_forall. intros d Hd. apply in_map_iff in Hd. destruct Hd as [x [<- Hx]]. rewrite Forall_forall in H1.
  destruct (H1 x Hx) as [N W]. split; [|apply written_plain; exact W]. intros E. apply escape_nil in E. contradiction.
Qed.

Lemma escape_dot : forall s, is_dot (escape s) = is_dot s.
Proof.
  intros s. unfold is_dot. apply eq_true_iff_eq. rewrite !str_eqb_eq. split; [|intros ->; reflexivity].
  destruct s as [|c s]; [discriminate|]. destruct (escape_head c s) as [x [t [-> [[E [-> ->]]|[E ->]]]]]; intros H; [|discriminate].
  injection H as -> H. apply escape_nil in H. subst s. reflexivity.
Qed.

Lemma escape_dotdot : forall s, is_dotdot (escape s) = is_dotdot s.
Proof.
  intros s. unfold is_dotdot. apply eq_true_iff_eq. rewrite !str_eqb_eq. split; [|intros ->; reflexivity].
  destruct s as [|c s]; [discriminate|]. destruct (escape_head c s) as [x [t [-> [[E [-> ->]]|[E ->]]]]]; intros H; [|discriminate].
  injection H as -> H. pose proof (escape_dot s) as D. unfold is_dot in D. change (ch "." :: []) with dot in H. rewrite H in D.
  rewrite str_eqb_refl in D. symmetry in D. apply str_eqb_eq in D. rewrite D. reflexivity.
Qed.

Definition escaped_rel (r : rel) : rel := mkRel (ups r) (map escape (downs r)).

Lemma map_removelast : forall A B (f : A -> B) l, map f (removelast l) = removelast (map f l).
Proof. intros A B f. induction l as [|x l IH]; [reflexivity|]. destruct l; [reflexivity|]. cbn [map removelast] in *. rewrite IH. reflexivity. Qed.

Lemma escape_rel_move : forall r s, rel_move (escaped_rel r) (escape s) = escaped_rel (rel_move r s).
Proof.
  intros [u d] s. unfold rel_move. rewrite escape_dot, escape_dotdot. destruct (is_dot s); [reflexivity|].
  destruct (is_dotdot s).
  - unfold escaped_rel. cbn [downs ups]. destruct d as [|x d]; [reflexivity|]. cbn [ups downs].
    rewrite map_removelast. reflexivity.
  - unfold escaped_rel. cbn [downs ups]. rewrite map_app. reflexivity.
Qed.

Lemma escape_rel_fold : forall ds r, fold_left rel_move (map escape ds) (escaped_rel r) = escaped_rel (fold_left rel_move ds r).
Proof. induction ds as [|d ds IH]; intros r; [reflexivity|]. cbn [map fold_left]. rewrite escape_rel_move. apply IH. Qed.

Lemma escape_rel_path : forall r f, escaped_path (rel_path r f) = rel_path (escaped_rel r) (escape f).
Proof. intros r f. unfold escaped_path, rel_path. cbn [dirs file]. rewrite map_app, map_repeat'. reflexivity. Qed.

Lemma escape_normal : forall p, normal (escaped_path p) = escaped_path (normal p).
Proof.
  intros p. unfold normal. cbn [escaped_path dirs file]. rewrite escape_dot, escape_dotdot.
  change (mkRel 0 []) with (escaped_rel (mkRel 0 [])) at 1 2. rewrite escape_rel_fold, escape_rel_move.
  destruct (is_dot (file p) || is_dotdot (file p)); rewrite escape_rel_path; reflexivity.
Qed.

Lemma escape_below : forall a b, below (escaped_path a) (escaped_path b) = escaped_path (below a b).
Proof.
  intros a b. unfold below, as_dirs. cbn [escaped_path dirs file]. unfold escaped_path. cbn [dirs file]. rewrite !map_app.
  f_equal. f_equal. f_equal. destruct (file a) as [|c s]; [reflexivity|].
  destruct (escape_head c s) as [x [t [E _]]]. cbn [map]. rewrite E. reflexivity.
Qed.

Section EscapeUrl.
  Context (md : mode) (U : UrlLib) (C : UrlContract U).

  Lemma base_escape_ok : forall s, len (escape s) <= 2147483645 -> exists base k seg u,
    build_safe_base md (escape s) = Ok base /\ build_safe_base md s = Ok base
    /\ ul_parse U base = Some u /\ clean_path (mkPath (repeat seg k) [])
    /\ shows U u host_origin (mkPath (repeat seg k) []) None None.
  Proof.
    intros s Hl. destruct (base_ok md U C (escape s) Hl) as [base [seg [k [u B]]]]. exists base, k, seg, u.
    pose proof (b_ok _ _ _ _ _ _ _ B) as E. split; [exact E|]. rewrite base_escape in E by exact Hl. split; [exact E|].
    split; [apply (b_parse _ _ _ _ _ _ _ B)|]. split; [apply (b_clean _ _ _ _ _ _ _ B)|apply (b_shows _ _ _ _ _ _ _ B)].
  Qed.

  Lemma handler_escape : forall cb s, escapable s -> safe_handler md U cb s = safe_handler md U cb (escape s).
  Proof.
    intros cb s [R [O [L1 L2]]]. unfold safe_handler. rewrite type_escape by exact L1.
    destruct (get_url_type s) as [t|p]; [|reflexivity]. cbn [bind].
    destruct (base_escape_ok s L2) as [base [k [seg [u [-> [-> [Ep [Cl S]]]]]]]]. cbn [bind]. rewrite Ep. cbn [unwrap_ok bind].
    rewrite (uc_join_escape U C u _ _ _ _ s host_plain Cl S R O). reflexivity.
  Qed.

  Lemma join_root_escape : forall root t, escapable root -> url_join md U root t = url_join md U (escape root) t.
  Proof.
    intros root t H. unfold url_join. rewrite type_escape by apply H. unfold ENSURE_DIRECTORY.
    rewrite <- (handler_escape (ensure_directory_cb U) root) by exact H. reflexivity.
  Qed.

  Lemma relative_escape : forall root t, escapable root -> escapable t ->
    len (escape root) + len (escape t) <= 2147483645 ->
    relative md U root t = relative md U (escape root) (escape t).
  Proof.
    intros root t Hr Ht Hl. unfold relative. unfold NORMALIZE. rewrite <- (handler_escape (fun u => u) t) by exact Ht.
    assert (E : replace_if_possible md U root t = replace_if_possible md U (escape root) (escape t)); [|rewrite E; reflexivity].
    destruct Hr as [R1 [O1 [L1 _]]], Ht as [R2 [O2 [L2 _]]]. unfold replace_if_possible. rewrite !type_escape by assumption.
    destruct (get_url_type root) as [a|p]; [|reflexivity]. cbn [bind].
    destruct (get_url_type t) as [b|p]; [|reflexivity]. cbn [bind].
    destruct (negb (url_type_eqb a b)); [reflexivity|]. rewrite <- escape_app.
    destruct (base_escape_ok (root ++ t)) as [base [k [seg [u [-> [-> [Ep [Cl S]]]]]]]]; [rewrite escape_app, len_app; exact Hl|].
    cbn [bind]. rewrite Ep. cbn [unwrap_ok bind].
    rewrite (uc_join_escape U C u _ _ _ _ root host_plain Cl S R1 O1), (uc_join_escape U C u _ _ _ _ t host_plain Cl S R2 O2).
    unfold compute_relative_url. rewrite (uc_parse_escape U C root R1 O1), (uc_parse_escape U C t R2 O2). reflexivity.
  Qed.

  Lemma slash_escape : forall s, match s with c :: d :: _ => N.eqb c c_slash && negb (N.eqb d c_slash) | _ => false end = true ->
    remove_first_slash (escape s) = escape (remove_first_slash s) /\ remove_first_slash s = tl s.
  Proof.
    intros [|c [|d s]] H; try discriminate. apply andb_true_iff in H. destruct H as [H _]. apply N.eqb_eq in H. subst c.
    rewrite escape_cons by reflexivity. split; reflexivity.
  Qed.

  Lemma source_escape : forall root s url, escapable s -> escapable (taken root s) ->
    match root with Some r => escapable r | None => True end ->
    match url with Some u => escapable u | None => True end ->
    compute_source_url md U root s url = compute_source_url md U (option_map escape root) (escape s) (option_map escape url).
  Proof.
    intros root s url Hs Ht Hr Hu. unfold compute_source_url.
    assert (E : (let* x := match root with None => Ok s | Some _ => let* t := get_url_type s in
                    Ok (if url_type_eqb t PathAbsolute then remove_first_slash s else s) end in NORMALIZE md U x)
              = (let* x := match option_map escape root with None => Ok (escape s) | Some _ => let* t := get_url_type (escape s) in
                    Ok (if url_type_eqb t PathAbsolute then remove_first_slash (escape s) else escape s) end in NORMALIZE md U x)).
    { destruct root as [r|]; cbn [option_map bind]; [|apply handler_escape; exact Hs].
      rewrite type_escape by apply Hs. destruct (get_url_type s) as [t|p] eqn:Et; [|reflexivity]. cbn [bind].
      unfold get_url_type in Et. unfold taken in Ht. change (ch "/") with c_slash in Ht. pose proof (slash_escape s) as Hsl.
      destruct s as [|c [|d s]]; [discriminate..|].
      destruct (N.eqb c c_slash) eqn:E1.
      - destruct (N.eqb d c_slash) eqn:E2; injection Et as <-; cbn [url_type_eqb andb negb] in *.
        + apply handler_escape. exact Hs.
        + destruct (Hsl eq_refl) as [E3 E4]. rewrite E3. rewrite E4. apply handler_escape. exact Ht.
      - destruct (absolute_scheme_match (c :: d :: s)); injection Et as <-; cbn [url_type_eqb]; apply handler_escape; exact Hs. }
    cbv zeta.
    assert (A : forall A B C (a : res A) (f : A -> res B) (g : B -> res C), (let* x := a in let* y := f x in g y) = (let* y := (let* x := a in f x) in g y)).
    { intros A B D [a|p] f g; reflexivity. }
    rewrite !(A _ _ _ _ (NORMALIZE md U)), E. clear A E. destruct (let* x := _ in NORMALIZE md U x) as [x|p]; [|reflexivity]. cbn [bind].
    assert (E2 : match root with Some r => url_join md U r x | None => Ok x end
               = match option_map escape root with Some r => url_join md U r x | None => Ok x end).
    { destruct root as [r|]; [apply join_root_escape; exact Hr|reflexivity]. }
    rewrite E2. destruct (match option_map escape root with Some r => _ | None => _ end) as [y|p]; [|reflexivity]. cbn [bind].
    destruct url as [u|]; [|reflexivity]. cbn [option_map]. unfold TRIM_FILENAME.
    rewrite <- (handler_escape (trim_filename_cb U) u) by exact Hu. reflexivity.
  Qed.

  Lemma escape_ends : forall s, no_outer_space (escape s).
  Proof.
    intros s. assert (G : forall x, In x (escape s) -> x <> 32%N).
    { intros x Hx ->. apply escape_fixed in Hx. discriminate. }
    split.
    - destruct (escape s) as [|x t]; [discriminate|]. apply G. left. reflexivity.
    - destruct (snoc_cases _ (escape s)) as [->|[l [x E]]]; [discriminate|]. rewrite E, last_last. apply G. rewrite E.
      apply in_or_app. right. left. reflexivity.
  Qed.

  Lemma escapable_escape : forall s, escapable s -> escapable (escape s).
  Proof.
    intros s [R [O [L1 L2]]]. pose proof (escape_len s). unfold escapable. rewrite escape_idem.
    split; [exact R|]. split; [apply escape_ends|]. split; lia.
  Qed.

  Lemma taken_escape : forall root s, taken (option_map escape root) (escape s) = escape (taken root s).
  Proof.
    intros [r|] s; [|reflexivity]. cbn [option_map]. unfold taken. destruct s as [|c [|d s]]; [reflexivity| |].
    - destruct (escape_head c []) as [x [t [E [[E1 [-> ->]]|[E1 ->]]]]]; rewrite E; [reflexivity|]. destruct t; reflexivity.
    - destruct (escape_head c (d :: s)) as [x [t [E [[E1 [-> Et]]|[E1 ->]]]]].
      + destruct (escape_head d s) as [y [u [E2 _]]]. pose proof (head_slash (d :: s)) as Hs. change (ch "/") with c_slash.
        rewrite E, Et. rewrite E2 in *. rewrite Hs. destruct (N.eqb c c_slash && negb (N.eqb d c_slash)).
        * rewrite E2. reflexivity.
        * rewrite E, Et. reflexivity.
      + apply escaped_not_scheme in E1. destruct E1 as [_ [_ E1]]. change (ch "/") with c_slash. rewrite E1. cbn [andb].
        rewrite E. destruct t; reflexivity.
  Qed.

  Lemma source_escape_name : forall root s url, escapable s -> escapable (taken root s) ->
    match root with Some r => escapable r | None => True end ->
    match url with Some u => escapable u | None => True end ->
    compute_source_url md U root s url = compute_source_url md U root (escape s) url.
  Proof.
    intros root s url Hs Ht Hr Hu. rewrite source_escape by assumption. symmetry. rewrite source_escape; try assumption.
    - rewrite escape_idem. reflexivity.
    - apply escapable_escape. exact Hs.
    - replace (taken root (escape s)) with (escape (taken root s)); [apply escapable_escape; exact Ht|].
      rewrite <- taken_escape. destruct root; reflexivity.
  Qed.

  Lemma written_escapable : forall p, written_path p -> 2 <= len (path_text p) -> len (escape (path_text p)) <= 2147483645 ->
    escapable (path_text p).
  Proof.
    intros p H L1 L2. pose proof (written_path_plain p H) as Hp. split; [|split; [apply H|split; assumption]].
    rewrite escape_path. replace (path_text (escaped_path p)) with (path_text (escaped_path p) ++ tail_text None None) by apply app_nil_r.
    apply reference_rel; [exact Hp|exact I|exact I|]. rewrite <- escape_path. intros E. apply escape_nil in E.
    rewrite E in L1. apply L1. reflexivity.
  Qed.

  Lemma written_taken : forall root p, written_path p -> taken root (path_text p) = path_text p.
  Proof.
    intros root p H. unfold taken. destruct root; [|reflexivity]. destruct (path_text p) as [|c [|d t]] eqn:E; try reflexivity.
    replace (N.eqb c (ch "/")) with false; [reflexivity|]. symmetry. apply N.eqb_neq. intros ->.
    assert (E2 : path_text (escaped_path p) ++ tail_text None None = ch "/" :: escape (d :: t)).
    { rewrite app_nil_r, <- escape_path, E. reflexivity. }
    apply path_first in E2; [apply E2; reflexivity|]. apply written_path_plain. exact H.
  Qed.

  Lemma source_written : forall p, written_path p -> 2 <= len (path_text p) -> len (escape (path_text p)) <= 2147483645 ->
    compute_source_url md U None (path_text p) None = Ok (escape (path_text (normal p))).
  Proof.
    intros p H L1 L2. pose proof (written_escapable p H L1 L2) as E. rewrite source_escape by (try exact I; exact E).
    cbn [option_map]. pose proof (escape_len (path_text p)). rewrite !escape_path in *.
    rewrite (source_plain md U C) by (try (apply written_path_plain; exact H); lia). rewrite escape_normal. reflexivity.
  Qed.

  Lemma root_written : forall r p, written_path r -> written_path p -> 2 <= len (path_text r) -> 2 <= len (path_text p) ->
    2 <= len (escape (path_text (normal p))) ->
    len (escape (path_text r)) + len (escape (path_text p)) <= 2147483643 ->
    compute_source_url md U (Some (path_text r)) (path_text p) None = Ok (escape (path_text (normal (below r p)))).
  Proof.
    intros r p Hr Hp L1 L2 L3 L. pose proof (escape_len (path_text r)). pose proof (escape_len (path_text p)).
    assert (Er : escapable (path_text r)) by (apply written_escapable; try assumption; lia).
    assert (Ep : escapable (path_text p)) by (apply written_escapable; try assumption; lia).
    rewrite source_escape by (try exact I; try assumption; rewrite written_taken; assumption). cbn [option_map].
    rewrite !escape_path in *. rewrite <- escape_normal in *.
    rewrite <- escape_below. apply (root_rel md U C (escaped_path r) (escaped_path p) false);
      try (apply written_path_plain; assumption); lia.
  Qed.
End EscapeUrl.
