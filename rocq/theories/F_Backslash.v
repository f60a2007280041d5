(** * C91: names with backslashes *)
From Verif Require Import Base F_Base M_ArraySet M_Mapping M_Util M_SourceMap M_Json M_MapLib M_Consumer
  S_Url S_Backslash S_MapLib S_Consumer F_Dec F_UrlText F_UrlPath F_UrlOps F_Url F_UrlSource F_UrlProps F_UrlRef F_EscapeUrl
  F_Consumer F_ConsumerProps.

(** ** what the functions look at *)
Lemma slashes_len : forall s, len (slashes s) = len s.
Proof. intros s. unfold slashes, len. rewrite map_length. reflexivity. Qed.

Lemma slashes_idem : forall s, slashes (slashes s) = slashes s.
Proof. intros s. apply slashes_id. apply slashes_no. Qed.

Lemma slashes_app : forall a b, slashes (a ++ b) = slashes a ++ slashes b.
Proof. intros. apply map_app. Qed.

Lemma slashes_cons : forall c s, slashes (c :: s) = (if N.eqb c 92 then ch "/" else c) :: slashes s.
Proof. reflexivity. Qed.

Lemma slash_dot : forall c, N.eqb (if N.eqb c 92 then ch "/" else c) c_dot = N.eqb c c_dot.
Proof. intros c. destruct (N.eqb_spec c 92) as [->|]; reflexivity. Qed.

Lemma count_slashes : forall s, count_dotdot (slashes s) = count_dotdot s.
Proof.
  assert (G : forall n s, (List.length s <= n)%nat -> count_dotdot (slashes s) = count_dotdot s).
  { induction n as [|n IH]; intros s Hl; [destruct s; [reflexivity|cbn in Hl; lia]|].
    destruct s as [|c [|d s]]; [reflexivity..|]. cbn [List.length] in Hl. rewrite !slashes_cons, !count_cons2, !slash_dot.
    destruct (N.eqb c c_dot && N.eqb d c_dot); [f_equal; apply IH; lia|]. rewrite <- slashes_cons. apply IH. cbn [List.length]. lia. }
  intros s. apply (G (List.length s)). apply le_n.
Qed.

Lemma prefix_slashes : forall t s, ~ In 92%N t -> ~ In c_slash t -> is_prefix t (slashes s) = is_prefix t s.
Proof.
  induction t as [|c t IH]; intros s H1 H2; [reflexivity|]. destruct s as [|d s]; [reflexivity|].
  rewrite slashes_cons. cbn [is_prefix]. rewrite IH.
  2:{ intros Hi. apply H1. right. exact Hi. }
  2:{ intros Hi. apply H2. right. exact Hi. }
  f_equal. destruct (N.eqb_spec d 92) as [->|]; [|reflexivity].
  rewrite (proj2 (N.eqb_neq c 92)) by (intros ->; apply H1; left; reflexivity).
  apply N.eqb_neq. intros ->. apply H2. left. reflexivity.
Qed.

Lemma contains_slashes : forall s t, ~ In 92%N t -> ~ In c_slash t -> contains (slashes s) t = contains s t.
Proof.
  induction s as [|c s IH]; intros t H1 H2.
  - reflexivity.
  - pose proof (prefix_slashes t (c :: s) H1 H2) as P. rewrite slashes_cons in *. cbn [contains]. rewrite P, IH by assumption. reflexivity.
Qed.

Lemma segment_no : forall z c, is_digit c = false -> c <> ch "p" -> ~ In c (lit "p" ++ dec_str z).
Proof.
  intros z c H N Hi. destruct Hi as [Hi|Hi]; [apply N; symmetry; exact Hi|].
  pose proof (dec_str_digits z) as D. rewrite forallb_forall in D. rewrite (D _ Hi) in H. discriminate.
Qed.

Lemma loop_slashes : forall md n s id,
  unique_segment_loop md n (lit "p") (slashes s) id = unique_segment_loop md n (lit "p") s id.
Proof.
  induction n as [|n IH]; intros s id; [reflexivity|]. cbn [unique_segment_loop].
  rewrite contains_slashes by (apply segment_no; [reflexivity|discriminate]).
  destruct (i32_add md id 1) as [i|p]; [|reflexivity]. cbn [bind]. rewrite IH. reflexivity.
Qed.

Lemma base_slashes : forall md s, build_safe_base md (slashes s) = build_safe_base md s.
Proof.
  intros md s. unfold build_safe_base, build_unique_segment. rewrite count_slashes, loop_slashes.
  unfold slashes at 1. rewrite map_length. reflexivity.
Qed.

(** ** kinds *)
Lemma reference_no_colon : forall s, path_reference (slashes s) -> ~ In (ch ":") s.
Proof.
  intros s R Hi. apply slashes_in in Hi. destruct Hi as [Hi|Hi]; [discriminate|]. revert Hi.
  apply path_reference_no; (exact R || reflexivity || discriminate).
Qed.

Lemma type_slashes : forall t, windows_name t -> get_url_type (slashes t) = get_url_type t.
Proof.
  intros t [R [_ [N1 N2]]]. pose proof (reference_no_colon t R) as C1.
  assert (C2 : ~ In (ch ":") (slashes t)) by (apply path_reference_no; (exact R || reflexivity || discriminate)).
  apply scheme_match_colon in C1, C2. destruct t as [|c [|d t]]; [reflexivity..|].
  rewrite !slashes_cons in *. unfold get_url_type. rewrite C1, C2.
  destruct (N.eqb_spec c 92) as [->|N3]; [exfalso; apply (N1 (d :: t)); reflexivity|].
  destruct (N.eqb_spec c c_slash) as [->|]; [|reflexivity].
  destruct (N.eqb_spec d 92) as [->|]; [exfalso; apply (N2 t); reflexivity|]. reflexivity.
Qed.

Lemma windows_slashes : forall t, windows_name t -> windows_name (slashes t).
Proof.
  intros t [R [B [N1 N2]]]. unfold windows_name. rewrite slashes_idem, slashes_len. repeat split; try assumption.
  - intros r E. apply (slashes_no t). rewrite E. left. reflexivity.
  - intros r E. apply (slashes_no t). rewrite E. right. left. reflexivity.
Qed.

(** without the '/' in front *)
Lemma windows_tail : forall c d t, windows_name (c :: d :: t) -> N.eqb c c_slash = true -> N.eqb d c_slash = false ->
  windows_name (d :: t).
Proof.
  intros c d t [R [B [N1 N2]]] Hc Hd. apply N.eqb_eq in Hc. subst c. apply N.eqb_neq in Hd.
  assert (H92 : d <> 92%N) by (intros ->; apply (N2 t); reflexivity).
  assert (E : slashes (c_slash :: d :: t) = c_slash :: d :: slashes t).
  { rewrite !slashes_cons. rewrite (proj2 (N.eqb_neq d 92)) by exact H92. reflexivity. }
  assert (E' : slashes (d :: t) = d :: slashes t).
  { rewrite !slashes_cons. rewrite (proj2 (N.eqb_neq d 92)) by exact H92. reflexivity. }
  rewrite E in R. split; [|split; [|split]].
  - rewrite E'. remember (c_slash :: d :: slashes t) as x eqn:Ep. destruct R as [p Hp N|p Hp|h p Hh Hp].
    + exfalso. apply (path_first p None None c_slash (d :: slashes t) Hp); [rewrite app_nil_r; exact Ep|reflexivity].
    + apply (f_equal (@tl char)) in Ep. change (path_text p = d :: slashes t) in Ep. rewrite <- Ep. apply path_reference_rel; [exact Hp|].
      rewrite Ep. discriminate.
    + exfalso. apply Hd. apply (f_equal (fun l => nth 1 l 0%N)) in Ep. symmetry. exact Ep.
  - rewrite len_cons in B. pose proof (len_nonneg _ (d :: t)). lia.
  - intros r Er. injection Er as Er _. contradiction.
  - intros r Er. injection Er as Er _. contradiction.
Qed.

Section Backslash.
  Context (md : mode) (U : UrlLib) (C : UrlContract U).

  Lemma handler_slashes : forall cb t, windows_name t -> safe_handler md U cb t = safe_handler md U cb (slashes t).
  Proof.
    intros cb t W. unfold safe_handler. rewrite type_slashes by exact W. rewrite base_slashes.
    destruct W as [R [B _]]. destruct (base_ok md U C t B) as [base [seg [k [u X]]]].
    rewrite (b_ok _ _ _ _ _ _ _ X). cbn [bind]. rewrite (b_parse _ _ _ _ _ _ _ X). cbn [bind unwrap_ok].
    rewrite (uc_join_slashes U C u _ _ _ _ t host_web (b_clean _ _ _ _ _ _ _ X) (b_shows _ _ _ _ _ _ _ X) R). reflexivity.
  Qed.

  Lemma source_slashes : forall root t url, windows_name t ->
    compute_source_url md U root t url = compute_source_url md U root (slashes t) url.
  Proof.
    intros root t url W. unfold compute_source_url.
    assert (E : (let* x := match root with None => Ok t | Some _ => let* y := get_url_type t in
                    Ok (if url_type_eqb y PathAbsolute then remove_first_slash t else t) end in NORMALIZE md U x)
              = (let* x := match root with None => Ok (slashes t) | Some _ => let* y := get_url_type (slashes t) in
                    Ok (if url_type_eqb y PathAbsolute then remove_first_slash (slashes t) else slashes t) end in NORMALIZE md U x)).
    { destruct root as [r|]; cbn [bind]; [|apply handler_slashes; exact W].
      rewrite type_slashes by exact W. destruct (get_url_type t) as [y|p] eqn:Et; [|reflexivity]. cbn [bind].
      unfold get_url_type in Et. destruct t as [|c [|d t]]; [discriminate..|].
      destruct (N.eqb c c_slash) eqn:E1.
      - destruct (N.eqb d c_slash) eqn:E2; injection Et as <-; cbn [url_type_eqb].
        + apply handler_slashes. exact W.
        + pose proof (windows_tail c d t W E1 E2) as W'. apply N.eqb_eq in E1. subst c.
          rewrite slashes_cons. change (if N.eqb c_slash 92 then ch "/" else c_slash) with c_slash. cbn [remove_first_slash].
          rewrite N.eqb_refl. apply handler_slashes. exact W'.
      - destruct (absolute_scheme_match (c :: d :: t)); injection Et as <-; cbn [url_type_eqb]; apply handler_slashes; exact W. }
    cbv zeta.
    assert (A : forall A B C (a : res A) (f : A -> res B) (g : B -> res C), (let* x := a in let* y := f x in g y) = (let* y := (let* x := a in f x) in g y)).
    { intros A B D [a|p] f g; reflexivity. }
    rewrite !(A _ _ _ _ (NORMALIZE md U)), E. reflexivity.
  Qed.

  Lemma relative_slashes : forall root t, windows_name t -> len root + len t <= 2147483645 ->
    relative md U root t = relative md U root (slashes t).
  Proof.
    intros root t W B. unfold relative. unfold NORMALIZE. rewrite <- (handler_slashes (fun u => u) t) by exact W.
    assert (E : replace_if_possible md U root t = replace_if_possible md U root (slashes t)); [|rewrite E; reflexivity].
    unfold replace_if_possible. rewrite type_slashes by exact W.
    destruct (get_url_type root) as [a|p]; [|reflexivity]. cbn [bind].
    destruct (get_url_type t) as [b|p]; [|reflexivity]. cbn [bind].
    destruct (negb (url_type_eqb a b)); [reflexivity|].
    assert (Eb : build_safe_base md (root ++ slashes t) = build_safe_base md (root ++ t)).
    { rewrite <- (base_slashes md (root ++ t)), <- (base_slashes md (root ++ slashes t)), !slashes_app, slashes_idem. reflexivity. }
    rewrite Eb. destruct W as [R _].
    destruct (base_ok md U C (root ++ t)) as [base [seg [k [u X]]]]; [rewrite len_app; exact B|].
    rewrite (b_ok _ _ _ _ _ _ _ X). cbn [bind]. rewrite (b_parse _ _ _ _ _ _ _ X). cbn [bind unwrap_ok].
    rewrite (uc_join_slashes U C u _ _ _ _ t host_web (b_clean _ _ _ _ _ _ _ X) (b_shows _ _ _ _ _ _ _ X) R).
    destruct (unwrap_ok (ul_join U u root)) as [ru|p]; [|reflexivity]. cbn [bind].
    destruct (unwrap_ok (ul_join U u (slashes t))) as [tu|p]; [|reflexivity]. cbn [bind].
    destruct (ul_join U tu []); [|reflexivity]. destruct (_ || _ || _ || _ || _); [reflexivity|].
    unfold compute_relative_url. rewrite (uc_parse_fail U C t) by (apply reference_no_colon; exact R).
    rewrite (uc_parse_fail U C (slashes t)); [reflexivity|]. apply path_reference_no; (exact R || reflexivity || discriminate).
  Qed.

  (** ** a backslash in front *)
  Lemma substring_slashes : forall seg s, ~ In 92%N seg -> ~ In c_slash seg -> substring seg (slashes s) -> substring seg s.
  Proof. intros seg s H1 H2 H. apply contains_iff. rewrite <- contains_slashes by assumption. apply contains_iff. exact H. Qed.

  Lemma resolve_fresh : forall seg p, ~ substring seg (path_text p) -> Forall (fun d => d <> seg) (dirs (resolve_from [] p)).
  Proof.
    intros seg p H. rewrite resolve_eq. cbn [dirs]. apply fold_move_good; [constructor|]. apply Forall_app. split.
    - apply Forall_forall. intros d Hd _ ->. apply H. unfold path_text. apply substring_app_l. apply dirs_substring. exact Hd.
    - unfold file_dirs. destruct (is_dot _ || _); [|constructor]. constructor; [|constructor]. intros _ <-. apply H. unfold path_text.
      apply substring_app_r. apply substring_refl.
  Qed.

  Lemma share_reference : forall h p, match h with Some h => plain_host h | None => True end -> plain_path p -> path_reference (share h p).
  Proof. intros [h|] p Hh Hp; [apply path_reference_net|apply path_reference_abs]; assumption. Qed.

  Lemma share_sub : forall h p x, substring x (path_text p) -> substring x (share h p).
  Proof.
    intros h p x H. assert (A : substring x (abs_text p)) by (apply substring_app_r; exact H).
    destruct h as [h|]; [|exact A]. unfold share, net_text. apply substring_app_r. apply substring_app_r. rewrite app_nil_r. exact A.
  Qed.

  Lemma type_backslash : forall r, path_reference (slashes (92%N :: r)) -> r <> [] -> get_url_type (92%N :: r) = Ok PathRelative.
  Proof.
    intros r R N. destruct r as [|d r]; [contradiction|]. unfold get_url_type. change (N.eqb 92 c_slash) with false. cbn iota.
    rewrite scheme_match_colon by (apply reference_no_colon; exact R). reflexivity.
  Qed.

  Lemma climbed_plain : forall k p, plain_path p -> plain_path (climbed k p).
  Proof.
    intros k p Hp. pose proof (clean_plain _ (clean_resolve [] p (Forall_nil _) (Forall_nil _) Hp)) as [H1 H2].
    split; [|exact H2]. cbn [climbed dirs]. apply Forall_app. split; [|exact H1].
    apply Forall_forall. intros x Hx. apply repeat_spec in Hx. subst x. apply plain_dotdot.
  Qed.

  Lemma NORMALIZE_backslash : forall r h p k, slashes (92%N :: r) = share h p ->
    match h with Some h => plain_host h | None => True end -> plain_path p -> r <> [] ->
    len (92%N :: r) <= 2147483645 -> max_dotdots (92%N :: r) k ->
    NORMALIZE md U (92%N :: r) = Ok (path_text (climbed k p)).
  Proof.
    intros r h p k E Hh Hp Hn L Hk. pose proof (share_reference h p Hh Hp) as R.
    unfold NORMALIZE, safe_handler. rewrite type_backslash by (try assumption; rewrite E; exact R). cbn [bind].
    destruct (base_ok md U C (92%N :: r) L) as [base [seg [n [u B]]]].
    assert (n = k) as ->.
    { rewrite (b_count _ _ _ _ _ _ _ B). eapply max_dotdots_fun; [apply count_max|exact Hk]. }
    rewrite (b_ok _ _ _ _ _ _ _ B). cbn [bind]. rewrite (b_parse _ _ _ _ _ _ _ B). cbn [bind unwrap_ok].
    pose proof (b_clean _ _ _ _ _ _ _ B) as Cb. pose proof (b_shows _ _ _ _ _ _ _ B) as Sb.
    rewrite (uc_join_slashes U C u host_origin _ None None _ host_web Cb Sb) by (rewrite E; exact R). rewrite E.
    set (q := resolve_from [] p).
    pose proof (clean_resolve [] p (Forall_nil _) (Forall_nil _) Hp) as Cq. fold q in Cq.
    assert (J : exists u' o, plain_origin o /\ ul_join U u (share h p) = Some u' /\ shows U u' o q None None).
    { destruct h as [h|].
      - destruct (join_host_net U C u _ None None h p None None Cb Sb Hh Hp I I) as [u' [E1 S1]].
        exists u', (net_origin (o_scheme host_origin) h). split; [apply (net_plain host_origin); [apply host_plain|exact Hh]|]. split; [exact E1|exact S1].
      - destruct (uc_join_abs U C u host_origin _ None None p None None host_plain Cb Sb Hp I I) as [u' [E1 S1]].
        exists u', host_origin. cbn [tail_text app] in E1. rewrite !app_nil_r in E1. split; [apply host_plain|]. split; [exact E1|exact S1]. }
    destruct J as [u' [o [Po [-> S]]]]. cbn [bind unwrap_ok]. rewrite (shows_string _ _ _ _ _ _ S).
    destruct (parse_clean U C o q None None Po Cq I I) as [tu [Et St]].
    unfold compute_relative_url. rewrite (b_parse _ _ _ _ _ _ _ B), Et. cbn [bind unwrap_ok]. f_equal.
    assert (Fr : ~ substring seg (path_text p)).
    { intros H. apply (b_fresh _ _ _ _ _ _ _ B). apply substring_slashes.
      - destruct (b_plain _ _ _ _ _ _ _ B) as [_ Ps]. apply plain_no; [exact Ps|reflexivity].
      - destruct (b_plain _ _ _ _ _ _ _ B) as [_ Ps]. apply plain_no_slash. exact Ps.
      - rewrite E. apply share_sub. exact H. }
    assert (Ea : absr seg k (mkRel k (dirs q)) = dirs q) by (unfold absr; cbn [ups downs]; rewrite Nat.sub_diag; reflexivity).
    pose proof (relative_path_ok md U _ base seg k u (mkRel k (dirs q)) (file q) tu o None None B) as G. rewrite Ea in G.
    cbn [ups downs glue] in G. rewrite !app_nil_r in G. rewrite G; clear G.
    - reflexivity.
    - apply le_n.
    - apply resolve_fresh. exact Fr.
    - left. unfold q. rewrite resolve_eq. cbn [file]. apply file_of_fresh; [|exact Fr]. apply (b_plain _ _ _ _ _ _ _ B).
    - destruct q. apply clean_plain. exact Cq.
    - destruct q. exact St.
  Qed.

  Section Leading.
    Context (r : str) (h : option str) (p : path) (k : nat).
    Context (E : slashes (92%N :: r) = share h p) (Hh : match h with Some h => plain_host h | None => True end)
            (Hp : plain_path p) (Hn : r <> []) (L : len (92%N :: r) <= 2147483645) (Hk : max_dotdots (92%N :: r) k).

    Lemma leading_source : compute_source_url md U None (92%N :: r) None = Ok (path_text (climbed k p)).
    Proof. rewrite source_none. eapply NORMALIZE_backslash; eassumption. Qed.

    Lemma leading_in_root : forall root, compute_source_url md U (Some root) (92%N :: r) None = url_join md U root (path_text (climbed k p)).
    Proof.
      intros root. rewrite (source_root_type md U root _ PathRelative).
      - rewrite (NORMALIZE_backslash r h p k) by assumption. reflexivity.
      - apply type_backslash; [|exact Hn]. rewrite E. apply share_reference; assumption.
      - discriminate.
    Qed.

    Lemma leading_below_rel : forall a, plain_path a -> 2 <= len (path_text a) -> 2 <= len (path_text (climbed k p)) ->
      len (path_text a) + len (path_text (climbed k p)) <= 2147483644 ->
      compute_source_url md U (Some (path_text a)) (92%N :: r) None = Ok (path_text (normal (below a (climbed k p)))).
    Proof. intros a Ha L1 L2 L3. rewrite leading_in_root. apply (join_rr md U C); try assumption. apply climbed_plain. exact Hp. Qed.

    Lemma leading_below_abs : forall a q f, plain_path a -> plain_opt q -> plain_opt f ->
      1 <= len (path_text a ++ tail_text q f) -> len (abs_text a ++ tail_text q f) <= 2147483645 -> 2 <= len (path_text (climbed k p)) ->
      compute_source_url md U (Some (abs_text a ++ tail_text q f)) (92%N :: r) None = Ok (abs_text (resolve_from [] (below a (climbed k p)))).
    Proof. intros a q f Ha Hq Hf L1 L2 L3. rewrite leading_in_root. apply (join_ar md U C); try assumption. apply climbed_plain. exact Hp. Qed.

    Lemma leading_below_url : forall o a q f, plain_origin o -> plain_path a -> plain_opt q -> plain_opt f ->
      len (url_text o a q f) <= 2147483645 -> 2 <= len (path_text (climbed k p)) ->
      compute_source_url md U (Some (url_text o a q f)) (92%N :: r) None
      = Ok (url_text o (resolve_from [] (below a (climbed k p))) None None).
    Proof. intros o a q f Ho Ha Hq Hf L1 L2. rewrite leading_in_root. apply (join_ur md U C); try assumption. apply climbed_plain. exact Hp. Qed.
  End Leading.

  (** ** consumers *)
  Lemma lookup_slashes : forall (L : MapLib) c0 qs c t, opened md L U c0 -> asked md L U c0 qs = Ok c ->
    len (bc_get_sources L c0) < 2^31 -> windows_name t ->
    answer (bc_find_source_index md L U c t) = answer (bc_find_source_index md L U c (slashes t)).
  Proof.
    intros L c0 qs c t Ho H Hl W.
    destruct (source_lookup_stable md L U c0 qs c t Ho H Hl) as [_ [E1 _]].
    destruct (source_lookup_stable md L U c0 qs c (slashes t) Ho H Hl) as [_ [E2 _]]. rewrite E1, E2.
    unfold source_lookup, index_of_source. rewrite (source_slashes None t) by exact W.
    rewrite (source_slashes (smj_source_root (bc_source_map c0)) t) by exact W. reflexivity.
  Qed.

  Lemma windows_source : forall t p, windows_name t -> slashes t = path_text p -> plain_path p -> 2 <= len t ->
    compute_source_url md U None t None = Ok (path_text (normal p)).
  Proof.
    intros t p W E Hp Lt. rewrite source_slashes by exact W. destruct W as [_ [B _]].
    pose proof (slashes_len t) as El. rewrite E in *. apply (source_plain md U C); [exact Hp|]. lia.
  Qed.

  Lemma windows_below : forall t p r, windows_name t -> slashes t = path_text p -> plain_path p -> plain_path r -> 2 <= len t ->
    2 <= len (path_text r) -> 2 <= len (path_text (normal p)) -> len (path_text r) + len t <= 2147483643 ->
    compute_source_url md U (Some (path_text r)) t None = Ok (path_text (normal (below r p))).
  Proof.
    intros t p r W E Hp Hr Lt L1 L2 L3. rewrite source_slashes by exact W.
    pose proof (slashes_len t) as El. rewrite E in *. apply (root_rel md U C r p false); try assumption; lia.
  Qed.
End Backslash.
