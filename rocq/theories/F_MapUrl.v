(** * C92: relative map URLs *)
From Verif Require Import Base F_Base M_Util S_Url S_Refs S_MapUrl F_Dec F_UrlText F_UrlPath F_UrlOps F_Url F_UrlSource F_UrlProps F_Refs.

Lemma internal_unique : forall s a b, internal_name s a -> internal_name s b -> a = b.
Proof.
  intros s a b [t [n [D [-> [N M]]]]] [t' [n' [D' [-> [N' M']]]]].
  assert (n = n') as <-.
  { destruct (Z.lt_trichotomy n n') as [H|[H|H]]; [|exact H|].
    - exfalso. apply N. apply (M' t n D H).
    - exfalso. apply N'. apply (M t' n' D' H). }
  rewrite (decimal_text _ _ _ D D'). reflexivity.
Qed.

Lemma internal_exists : forall s, len s <= 2147483645 -> exists a, internal_name s a.
Proof.
  intros s L. destruct (segment_ok Debug s L) as [t [n [D [_ [N M]]]]]. exists (lit "p" ++ t), t, n. auto.
Qed.

Lemma internal_one : forall s, len s <= 2147483645 -> exists a, forall b, internal_name s b <-> b = a.
Proof.
  intros s L. destruct (internal_exists s L) as [a Ha]. exists a. intros b. split.
  - intros Hb. exact (internal_unique s b a Hb Ha).
  - intros ->. exact Ha.
Qed.

(** ** the relative path from the base to a directory *)
Section MapUrl.
  Context (md : mode) (U : UrlLib) (C : UrlContract U).

  Lemma base_named : forall input seg, len input <= 2147483645 -> internal_name input seg ->
    exists base k u, base_of md U input base seg k u.
  Proof.
    intros input seg B I.
    destruct (segment_ok md input B) as [t [n [D [E [N M]]]]].
    assert (seg = lit "p" ++ t) as -> by (apply (internal_unique input); [exact I|exists t, n; auto]).
    destruct (unique_segment input md B) as [j [E1 [E2 _]]]. destruct (ident_plain j) as [P1 P2].
    assert (Et : lit "p" ++ t = ident j) by congruence. set (k := count_dotdot input). rewrite Et in *.
    pose proof (clean_repeat (ident j) k P1 P2) as Cl.
    destruct (parse_clean U C host_origin (mkPath (repeat (ident j) k) []) None None host_plain Cl Logic.I Logic.I)
      as [u [Ep S]].
    exists (url_text host_origin (mkPath (repeat (ident j) k) []) None None), k, u.
    constructor; try assumption; try reflexivity.
    unfold build_safe_base. rewrite E. cbn [bind]. f_equal.
    unfold url_text, abs_text, path_text, tail_text. cbn [dirs file]. rewrite !app_nil_r.
    fold k. unfold dirs_text. rewrite map_repeat'. reflexivity.
  Qed.

  Lemma strip_single : forall (g seg : str) n,
    strip_common [g] (repeat seg n)
    = if str_eqb g seg then match n with O => ([g], []) | S k => ([], repeat seg k) end else ([g], repeat seg n).
  Proof.
    intros g seg n. destruct n as [|n]; cbn [repeat strip_common]; [destruct (str_eqb g seg); reflexivity|].
    destruct (str_eqb g seg); [|reflexivity]. destruct n; reflexivity.
  Qed.

  Lemma strip_nil : forall a b : list str, strip_common ([] :: a) ([] :: b) = strip_common a b.
  Proof. reflexivity. Qed.

  Lemma join_dotdots : forall k, join_str (lit "/") (repeat dotdot (S k)) = path_text (mkPath (repeat dotdot k) dotdot).
  Proof. intros k. rewrite repeat_snoc, join_dirs. reflexivity. Qed.

  Lemma relative_run : forall input base seg k u g q fr,
    base_of md U input base seg k u -> plain g -> proper g -> plain_opt q -> plain_opt fr ->
    compute_relative_url U base (url_text host_origin (mkPath [] g) q fr)
    = Ok (path_text (if str_eqb g seg then
                       match k with
                       | O => mkPath [] (g ++ glue q ++ glue fr)
                       | S O => mkPath [] (glue q ++ glue fr)
                       | S (S n) => mkPath (repeat dotdot n) (dotdot ++ glue q ++ glue fr)
                       end
                     else mkPath (repeat dotdot k) (g ++ glue q ++ glue fr))).
  Proof.
    intros input base seg k u g q fr B P1 P2 Hq Hf.
    assert (Cl : clean_path (mkPath [] g)) by (split; [split|split]; cbn [dirs file]; auto).
    destruct (parse_clean U C host_origin _ q fr host_plain Cl Hq Hf) as [tu [E S]].
    unfold compute_relative_url. rewrite (b_parse _ _ _ _ _ _ _ B), E. cbn [unwrap_ok bind]. f_equal.
    unfold relative_path_of.
    destruct (b_shows _ _ _ _ _ _ _ B) as [_ [-> _]]. destruct S as [_ [-> [-> [-> _]]]].
    rewrite !no_slash_abs by (apply clean_plain; first [exact Cl|apply (b_clean _ _ _ _ _ _ _ B)]).
    cbn [dirs file]. rewrite pop_empty_snoc. cbn [app]. rewrite strip_nil, strip_single.
    destruct (str_eqb g seg); [destruct k as [|[|k]]|].
    - destruct q as [q|], fr as [fr|]; cbn [glue map app join_str path_text dirs file dirs_text concat];
        rewrite ?app_nil_r, <- ?app_assoc; reflexivity.
    - destruct q as [q|], fr as [fr|]; cbn [repeat glue map app join_str path_text dirs file dirs_text concat];
        rewrite ?app_nil_r, <- ?app_assoc; reflexivity.
    - rewrite map_repeat', app_nil_r. change (lit "..") with dotdot. rewrite join_dotdots. unfold path_text. cbn [dirs file].
      destruct q as [q|], fr as [fr|]; cbn [glue]; rewrite ?app_nil_r, <- ?app_assoc; reflexivity.
    - rewrite map_repeat'. change (lit "..") with dotdot. rewrite join_dirs. unfold path_text. cbn [dirs file].
      destruct q as [q|], fr as [fr|]; cbn [glue]; rewrite ?app_nil_r, <- ?app_assoc; reflexivity.
  Qed.

  Lemma TRIM_any : forall m q fr n seg, plain_path m -> path_text m <> [] -> plain_opt q -> plain_opt fr ->
    let url := path_text m ++ tail_text q fr in
    2 <= len url <= 2147483645 -> max_dotdots url n -> internal_name url seg ->
    TRIM_FILENAME md U url = Ok (path_text (map_directory n seg m (glue q ++ glue fr))).
  Proof.
    intros m q fr n seg Hm Ht Hq Hf url L Hn Hi. unfold TRIM_FILENAME, safe_handler, url.
    rewrite type_rel_path by (try assumption; apply L). cbn [bind].
    destruct (base_named url seg ltac:(lia) Hi) as [base [k [u B]]].
    fold url. rewrite (b_ok _ _ _ _ _ _ _ B). cbn [bind]. rewrite (b_parse _ _ _ _ _ _ _ B). cbn [bind unwrap_ok].
    assert (n = k) as <- by (rewrite (b_count _ _ _ _ _ _ _ B); apply (max_dotdots_fun url); [exact Hn|apply count_max]).
    destruct (join_base md U C m q fr base seg n u Hm Ht Hq Hf B) as [u' [E S]].
    fold url in E. rewrite E. cbn [bind unwrap_ok].
    destruct (plain_rel_path m Hm) as [Q1 Q2].
    pose proof (absr_clean md U _ _ _ _ _ _ _ B Q1 (rel_of_proper m) Q2 (file_of_proper m)) as Cl.
    destruct (acts_trim_web U C u' host_origin _ q fr host_web Cl S) as [Cl' S'].
    rewrite (shows_string _ _ _ _ _ _ S'). unfold trim_path in *. cbn [dirs] in *.
    destruct Cl' as [[_ P1] [_ P2]]. cbn [file] in P1, P2.
    rewrite (relative_run _ _ _ _ _ _ q fr B P1 P2 Hq Hf).
    unfold map_directory. rewrite resolve_base; [reflexivity|].
    rewrite (b_count _ _ _ _ _ _ _ B). apply ups_count.
  Qed.

  Lemma directory_plain : forall n seg m t, plain_seg seg -> plain_path m -> plain t -> plain_path (map_directory n seg m t).
  Proof.
    intros n seg m t Hs Hm Ht.
    assert (G : Forall plain_seg (dirs (resolve_from (repeat seg n) m))).
    { rewrite resolve_eq. cbn [dirs]. apply fold_move_good.
      - apply Forall_forall. intros x Hx. apply repeat_spec in Hx. subst x. exact Hs.
      - destruct Hm as [M1 M2]. apply Forall_app. split; [eapply Forall_impl; [|exact M1]; auto|].
        unfold file_dirs. destruct (seg_cases (file m)) as [->|[->|[_ [_ [E1 E2]]]]].
        + constructor; [|constructor]. intros _. apply plain_dot.
        + constructor; [|constructor]. intros _. apply plain_dotdot.
        + rewrite E1, E2. constructor. }
    apply plain_concat in G.
    assert (R : forall k, Forall plain_seg (repeat dotdot k)).
    { intros k. apply Forall_forall. intros x Hx. apply repeat_spec in Hx. subst x. apply plain_dotdot. }
    assert (Q : forall k x, plain x -> plain_path (mkPath (repeat dotdot k) (x ++ t))).
    { intros k x Hx. split; [apply R|apply plain_app; assumption]. }
    unfold map_directory. destruct (str_eqb _ seg); [destruct n as [|[|n]]|].
    - apply (Q O). exact G.
    - apply (Q O []). constructor.
    - apply Q. apply plain_dotdot.
    - apply Q. exact G.
  Qed.

  Lemma internal_plain : forall s seg, internal_name s seg -> plain_seg seg /\ proper seg.
  Proof.
    intros s seg [t [n [D [-> _]]]].
    assert (exists i, t = dec_str i) as [i ->].
    { exists (Z.to_N n). assert (0 <= n) by (clear -D; induction D; lia).
      apply (decimal_text _ _ n D). pose proof (dec_str_decimal (Z.to_N n)) as G. rewrite Z2N.id in G by lia. exact G. }
    pose proof (ident_plain (N.to_nat i)) as G. unfold ident in G. rewrite N2Nat.id in G. exact G.
  Qed.

  (** ** what becomes of a source *)
  Lemma map_url_any : forall sr src s m q fr n seg,
    compute_source_url md U sr src None = Ok (ref_text s) -> plain_ref s ->
    plain_path m -> path_text m <> [] -> plain_opt q -> plain_opt fr ->
    let url := path_text m ++ tail_text q fr in
    let dir := map_directory n seg m (glue q ++ glue fr) in
    2 <= len url <= 2147483645 -> max_dotdots url n -> internal_name url seg ->
    len (path_text dir) + len (ref_text s) <= 2147483644 ->
    compute_source_url md U sr src (Some url)
    = if Z_lt_dec (len (path_text dir)) 2 then Panic PUnwrapNone
      else Ok (given_text (resolved (RRel dir None None) s)).
  Proof.
    intros sr src s m q fr n seg E Hs Hm Ht Hq Hf url dir L Hn Hi B.
    rewrite source_map, E. cbn [bind]. unfold url.
    rewrite (TRIM_any m q fr n seg Hm Ht Hq Hf L Hn Hi). cbn [bind]. fold dir.
    destruct (Z_lt_dec _ 2) as [D|D]; [apply short_join_root; exact D|].
    assert (Pd : plain_path dir).
    { apply directory_plain; [apply (internal_plain url); exact Hi|exact Hm|].
      apply plain_app; [destruct q|destruct fr]; try constructor; assumption. }
    assert (Et : ref_text (RRel dir None None) = path_text dir) by (cbn; apply app_nil_r).
    rewrite <- Et. apply (join_refs md U C).
    - split; [|rewrite Et; lia]. split; [exact Pd|]. split; [exact I|]. split; [exact I|].
      intros N. rewrite N in D. apply D. reflexivity.
    - exact Hs.
    - left. cbn. apply proper_nil.
    - rewrite Et. exact B.
  Qed.

  (** ** which relative map URLs work *)
  Lemma leads_rel : forall m u ds, leads m u ds -> rel_of m = mkRel u ds.
  Proof.
    intros m u ds [E P]. rewrite normal_eq in E. cbn [rel_path dirs] in E.
    apply (f_equal (fun l => fold_left rel_move l (mkRel 0 []))) in E. rewrite !fold_left_app, !fold_rel_dotdots in E.
    rewrite !fold_rel_proper in E by (apply rel_of_proper || exact P). cbn [ups downs app Nat.add] in E.
    destruct (rel_of m). exact E.
  Qed.

  Lemma len_repeat_seg : forall (seg : str) k, len (concat (repeat seg k)) = Z.of_nat k * len seg.
  Proof. intros seg k. induction k as [|k IH]; [reflexivity|]. cbn [repeat concat]. rewrite len_app, IH. lia. Qed.

  Lemma internal_long : forall s seg, internal_name s seg -> 2 <= len seg.
  Proof.
    intros s seg [t [n [D [-> _]]]]. rewrite len_app. change (len (lit "p")) with 1.
    assert (1 <= len t); [|lia]. destruct D; [reflexivity|]. rewrite len_app. pose proof (len_nonneg _ t).
    change (len [(48 + Z.to_N d)%N]) with 1. lia.
  Qed.

  Lemma net_app : forall a b, net (a ++ b) = net a + net b.
  Proof. induction a as [|x a IH]; intros b; [reflexivity|]. cbn [app net fold_right] in *. specialize (IH b). unfold net in IH. rewrite IH. unfold net. lia. Qed.

  Lemma net_ups : forall k, net (repeat dotdot k) = - Z.of_nat k.
  Proof. induction k as [|k IH]; [reflexivity|]. cbn [repeat net fold_right]. unfold net in IH. rewrite IH. change (net_seg dotdot) with (-1). lia. Qed.

  Lemma dirs_file : forall ds, as_dirs (mkPath ds []) = ds.
  Proof. intros ds. unfold as_dirs. cbn [dirs file]. apply app_nil_r. Qed.

  Lemma verdict_dots : forall sr src s m n seg u ds,
    compute_source_url md U sr src None = Ok (path_text s) -> plain_path s -> 2 <= len (path_text s) ->
    plain_path m -> leads m u ds ->
    let url := path_text m in
    2 <= len url <= 2147483645 -> max_dotdots url n -> internal_name url seg ->
    len (path_text (map_directory n seg m [])) + len (path_text s) <= 2147483644 ->
    let right := path_text (normal (below (mkPath (dirs (normal m)) []) s)) in
    let panics := n = O /\ len (concat ds) < 2
                  \/ n = 1%nat /\ (u = O /\ ds = [] \/ u = 1%nat /\ concat ds = seg) in
    let works := n = u /\ len ds <= 1 \/ n = S u /\ ds = [] in
    let r := compute_source_url md U sr src (Some url) in
    (panics -> r = Panic PUnwrapNone)
    /\ (~ panics -> works -> r = Ok right)
    /\ (~ panics -> ~ works -> exists t, r = Ok t /\ t <> right).
  Proof.
    intros sr src s m n seg u ds E Hs Ls Hm Hl url L Hn Hi B right panics works r.
    pose proof (leads_rel m u ds Hl) as R. pose proof Hl as [Hd Hp].
    destruct (plain_rel_path m Hm) as [Q1 _]. rewrite R in Q1. cbn [downs] in Q1.
    destruct (internal_plain url seg Hi) as [Sp Spr]. pose proof (internal_long url seg Hi) as Sl.
    assert (Un : (u <= n)%nat).
    { pose proof (ups_count m []) as G. rewrite R, app_nil_r in G. cbn [ups] in G.
      rewrite (max_dotdots_fun _ _ _ Hn (count_max url)). exact G. }
    assert (Fr : Forall (fun d => d <> seg) ds).
    { pose proof (rel_of_fresh seg m) as G. rewrite R in G. apply G. destruct Hi as [t [k [_ [-> [N _]]]]]. exact N. }
    assert (Rn : concat (dirs (resolve_from (repeat seg n) m)) = concat (repeat seg (n - u)) ++ concat ds).
    { rewrite resolve_base by (rewrite R; exact Un). rewrite R. unfold absr. cbn [dirs ups downs]. apply concat_app. }
    assert (Emp : concat ds = [] -> ds = []).
    { intros Ec. destruct ds as [|d l]; [reflexivity|]. inv Q1. destruct H1 as [N _]. destruct d; [exfalso; apply N; reflexivity|discriminate]. }
    set (run := concat (dirs (resolve_from (repeat seg n) m))) in *.
    assert (Rl : len run = Z.of_nat (n - u) * len seg + len (concat ds)) by (rewrite Rn, len_app, len_repeat_seg; reflexivity).
    assert (Big : concat ds = seg -> 2 <= len ds).
    { intros Ec. destruct ds as [|d [|e l]].
      - rewrite <- Ec in Sl. cbn in Sl. lia.
      - exfalso. apply (Forall_inv Fr). cbn in Ec. rewrite app_nil_r in Ec. exact Ec.
      - rewrite !len_cons. pose proof (len_nonneg _ l). lia. }
    assert (F1 : run = seg <-> (n = S u /\ ds = []) \/ (n = u /\ concat ds = seg)).
    { split.
      - intros Er. pose proof (len_nonneg _ (concat ds)) as N. rewrite Er in Rl.
        destruct (n - u)%nat as [|[|k]] eqn:Ek.
        + right. split; [lia|]. rewrite Rn in Er. exact Er.
        + left. split; [lia|]. apply Emp. rewrite Rn in Er. cbn [repeat concat] in Er. rewrite app_nil_r in Er.
          apply (f_equal (@len _)) in Er. rewrite len_app in Er. destruct (concat ds); [reflexivity|].
          rewrite len_cons in Er. pose proof (len_nonneg _ l). lia.
        + exfalso. nia.
      - intros [[-> ->]|[-> Ec]]; rewrite Rn.
        + replace (S u - u)%nat with 1%nat by lia. cbn. rewrite !app_nil_r. reflexivity.
        + rewrite Nat.sub_diag. exact Ec. }
    pose proof (map_url_any sr src (RRel s None None) m None None n seg) as M.
    assert (Es : ref_text (RRel s None None) = path_text s) by (cbn; apply app_nil_r).
    cbn zeta in M. rewrite Es in M. cbn [tail_text glue app] in M. rewrite !app_nil_r in M. fold url in M.
    specialize (M E).
    assert (Ps : plain_ref (RRel s None None)).
    { split; [|rewrite Es; exact Ls]. split; [exact Hs|]. split; [exact I|]. split; [exact I|]. apply len_nonempty. lia. }
    specialize (M Ps Hm ltac:(apply len_nonempty; lia) I I L Hn Hi B). fold r in M.
    cbn [resolved given_text glue app] in M. rewrite app_nil_r in M.
    set (dir := map_directory n seg m []) in *.
    assert (Pd : plain_path dir) by (apply directory_plain; [exact Sp|exact Hm|constructor]).
    assert (Pm : plain_path (mkPath (dirs (normal m)) [])).
    { destruct (plain_normal m Hm) as [G _]. split; [exact G|constructor]. }
    (* same directory, or another depth *)
    assert (Same : as_dirs dir = dirs (normal m) -> path_text (normal (below dir s)) = right).
    { intros Ed. unfold right. do 2 f_equal. apply below_ext. rewrite dirs_file. exact Ed. }
    assert (Diff : net (as_dirs dir) <> len ds - Z.of_nat u -> path_text (normal (below dir s)) <> right).
    { intros Nn Eq. apply Nn. unfold right in Eq. apply depth_text in Eq; [|apply below_plain; assumption..].
      rewrite !depth_below, dirs_file, Hd, (net_app (repeat dotdot u) ds), net_ups, (net_proper ds Hp) in Eq. lia. }
    assert (Dd : dir = if str_eqb run seg then
        match n with O => mkPath [] (run ++ []) | S O => mkPath [] [] | S (S k) => mkPath (repeat dotdot k) (dotdot ++ []) end
      else mkPath (repeat dotdot n) (run ++ [])) by reflexivity.
    rewrite !app_nil_r in Dd.
    destruct (str_eqb run seg) eqn:Er.
    - apply str_eqb_eq in Er. pose proof (proj1 F1 Er) as Fc.
      destruct n as [|[|n]].
      + destruct Fc as [[Fc _]|[<- Fc]]; [discriminate|]. pose proof (Big Fc) as Bg.
        assert (Lr : 2 <= len run) by (rewrite Er; exact Sl).
        assert (Ld : len (path_text dir) = len run) by (rewrite Dd; reflexivity).
        rewrite Ld in M. destruct (Z_lt_dec (len run) 2) as [X|_]; [lia|].
        assert (NP : ~ panics).
        { intros [[_ X]|[X _]]; [|discriminate]. rewrite Fc in X. lia. }
        split; [intros X; contradiction|]. split.
        * intros _ [[_ X]|[X _]]; [lia|discriminate].
        * intros _ _. eexists. split; [exact M|]. apply Diff. rewrite Dd. unfold as_dirs. cbn [dirs file app].
          rewrite Er. destruct seg as [|c seg]; [cbn in Sl; lia|]. rewrite net_proper by (constructor; [exact Spr|constructor]).
          change (len [c :: seg]) with 1. lia.
      + assert (P : panics).
        { right. split; [reflexivity|]. destruct Fc as [[Fc ->]|[<- Fc]]; [left|right]; split; auto. lia. }
        rewrite Dd in M. change (len (path_text (mkPath [] []))) with 0 in M. destruct (Z_lt_dec 0 2) as [_|X]; [|lia].
        split; [intros _; exact M|]. split; intros X; contradiction.
      + assert (Ad : as_dirs dir = repeat dotdot (S n)) by (rewrite Dd, repeat_snoc; reflexivity).
        assert (Ld : 2 <= len (path_text dir)).
        { rewrite Dd. unfold path_text. cbn [dirs file]. rewrite len_app, len_dotdots. change (len dotdot) with 2. lia. }
        destruct (Z_lt_dec _ 2) as [X|_]; [lia|].
        assert (NP : ~ panics) by (intros [[X _]|[X _]]; discriminate).
        split; [intros X; contradiction|]. split.
        * intros _ W. etransitivity; [exact M|]. f_equal. apply Same. rewrite Ad, Hd.
          destruct W as [[Wn W]|[Wn ->]].
          -- exfalso. destruct Fc as [[Fc _]|[_ Fc]]; [lia|]. specialize (Big Fc). lia.
          -- injection Wn as Wn. rewrite app_nil_r, <- Wn. reflexivity.
        * intros _ NW. eexists. split; [exact M|]. apply Diff. rewrite Ad, net_ups.
          destruct Fc as [Fc|[<- Fc]]; [exfalso; apply NW; right; exact Fc|]. specialize (Big Fc). lia.
    - assert (Nr : run <> seg) by (intros X; rewrite X, str_eqb_refl in Er; discriminate).
      assert (Ld : len (path_text dir) = 3 * Z.of_nat n + len run).
      { rewrite Dd. unfold path_text. cbn [dirs file]. rewrite len_app, len_dotdots. reflexivity. }
      rewrite Ld in M. pose proof (len_nonneg _ run) as N0.
      assert (NP : 2 <= 3 * Z.of_nat n + len run -> ~ panics).
      { intros G [[-> X]|[-> [[-> ->]|[-> X]]]].
        - assert (u = O) as -> by lia. cbn [Nat.sub] in Rl. lia.
        - apply Nr. apply (proj2 F1). left. auto.
        - apply Nr. apply (proj2 F1). right. auto. }
      destruct (Z_lt_dec _ 2) as [X|X].
      + assert (n = O) as -> by lia. assert (u = O) as -> by lia. cbn [Nat.sub] in Rl.
        assert (P : panics) by (left; split; [reflexivity|lia]).
        split; [intros _; exact M|]. split; intros Y; contradiction.
      + specialize (NP ltac:(lia)).
        assert (Ad : as_dirs dir = repeat dotdot n ++ match run with [] => [] | f => [f] end)
          by (rewrite Dd; unfold as_dirs; cbn [dirs file]; destruct run; reflexivity).
        assert (Pr : proper run).
        { rewrite Rn, <- concat_app. apply proper_concat; apply Forall_app; split; try assumption;
            apply Forall_forall; intros x Hx; apply repeat_spec in Hx; subst x; assumption. }
        assert (Nd : net (as_dirs dir) = - Z.of_nat n + match run with [] => 0 | _ => 1 end).
        { rewrite Ad, net_app, net_ups. destruct run; [reflexivity|]. rewrite net_proper by (constructor; [exact Pr|constructor]). reflexivity. }
        split; [intros Y; contradiction|]. split.
        * intros _ W. etransitivity; [exact M|]. f_equal. apply Same. rewrite Ad, Hd. destruct W as [[-> W]|W].
          -- rewrite Nat.sub_diag in Rn. cbn [repeat concat app] in Rn. rewrite Rn. f_equal.
             destruct ds as [|d [|e l]]; [reflexivity| |rewrite !len_cons in W; pose proof (len_nonneg _ l); lia].
             cbn. rewrite app_nil_r. inv Q1. destruct H1 as [N _]. destruct d; [exfalso; apply N; reflexivity|reflexivity].
          -- exfalso. apply Nr. apply (proj2 F1). left. exact W.
        * intros _ NW. eexists. split; [exact M|]. apply Diff. rewrite Nd. intros Eq. apply NW.
          pose proof (len_nonneg _ ds) as N1.
          assert (Z.of_nat n - Z.of_nat u + len ds <= 1) as Le by (destruct run; lia).
          destruct (Nat.eq_dec n u) as [->|Ne]; [left; split; [reflexivity|lia]|].
          right. split; [lia|]. destruct ds; [reflexivity|]. rewrite len_cons in *. pose proof (len_nonneg _ ds). lia.
  Qed.
End MapUrl.
