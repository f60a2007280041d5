(** * The functions of src/util.rs on plain paths and URLs *)
From Verif Require Import Base F_Base M_Util S_Url F_Dec F_UrlText F_UrlPath.

(** ** shape of the texts *)
Lemma path_text_chars : forall p c, plain_path p -> In c (path_text p) -> text_char c = true \/ c = c_slash.
Proof.
  intros [ds f] c [H1 H2] Hi. cbn [dirs file] in *. unfold path_text in Hi. cbn [dirs file] in Hi. apply in_app_or in Hi.
  destruct Hi as [Hi|Hi].
  - induction H1 as [|d ds [_ Hd] _ IH]; [destruct Hi|]. rewrite dirs_text_cons in Hi.
    apply in_app_or in Hi. destruct Hi as [Hi|Hi].
    + left. apply (plain_chars d); assumption.
    + cbn [lit app In] in Hi. destruct Hi as [<-|Hi]; [right; reflexivity|auto].
  - left. apply (plain_chars f); assumption.
Qed.

Lemma tail_text_chars : forall q f c, plain_opt q -> plain_opt f -> In c (tail_text q f) ->
  text_char c = true \/ c = ch "?" \/ c = ch "#".
Proof.
  intros q f c Hq Hf Hi. unfold tail_text in Hi. apply in_app_or in Hi.
  destruct Hi as [Hi|Hi]; [destruct q as [s|]|destruct f as [s|]]; cbn [In lit app] in Hi;
    try contradiction; cbn in Hq, Hf.
  - destruct Hi as [<-|Hi]; [auto|]. left. apply (plain_chars s); assumption.
  - destruct Hi as [<-|Hi]; [auto|]. left. apply (plain_chars s); assumption.
Qed.

Lemma path_no_colon : forall p q f, plain_path p -> plain_opt q -> plain_opt f ->
  ~ In (ch ":") (path_text p ++ tail_text q f).
Proof.
  intros p q f Hp Hq Hf Hi. apply in_app_or in Hi. destruct Hi as [Hi|Hi].
  - apply (path_text_chars p) in Hi; [|exact Hp]. destruct Hi as [H|H]; discriminate.
  - apply tail_text_chars in Hi; [|assumption..]. destruct Hi as [H|[H|H]]; discriminate.
Qed.

(** the first character is not a slash *)
Lemma path_first : forall p q f c s, plain_path p -> path_text p ++ tail_text q f = c :: s -> c <> c_slash.
Proof.
  intros [ds fi] q f c s [H1 H2] E. unfold path_text in E. cbn [dirs file] in *.
  destruct ds as [|d ds].
  - cbn in E. destruct fi as [|x fi].
    + cbn in E. unfold tail_text in E. destruct q; [inv E; discriminate|].
      destruct f; [inv E; discriminate|discriminate].
    + inv E. inv H2; [intros ->|]; discriminate.
  - inv H1. destruct H3 as [Hn Hp]. destruct d as [|x d]; [exfalso; apply Hn; reflexivity|].
    rewrite dirs_text_cons in E. inv E. inv Hp; [intros ->|]; discriminate.
Qed.

Lemma scheme_match_colon : forall s, ~ In (ch ":") s -> absolute_scheme_match s = false.
Proof.
  intros s H.
  assert (G : forall s, ~ In (ch ":") s -> scheme_tail s = false).
  { clear. induction s as [|c s IH]; intros H; [reflexivity|]. cbn [scheme_tail].
    destruct (scheme_char c); [apply IH; intros Hi; apply H; right; exact Hi|].
    destruct (N.eqb_spec c c_colon) as [->|]; [exfalso; apply H; left; reflexivity|reflexivity]. }
  destruct s as [|c s]; [reflexivity|]. cbn [absolute_scheme_match].
  rewrite G by (intros Hi; apply H; right; exact Hi). apply andb_false_r.
Qed.

Lemma type_rel : forall s, 2 <= len s -> (forall c t, s = c :: t -> c <> c_slash) -> ~ In (ch ":") s ->
  get_url_type s = Ok PathRelative.
Proof.
  intros s L F N. unfold get_url_type. rewrite scheme_match_colon by exact N.
  destruct s as [|a [|b s]]; [cbn in L; lia..|].
  destruct (N.eqb_spec a c_slash) as [->|]; [exfalso; apply (F c_slash (b :: s)); reflexivity|reflexivity].
Qed.

Lemma type_rel_path : forall p q f, plain_path p -> plain_opt q -> plain_opt f ->
  2 <= len (path_text p ++ tail_text q f) ->
  get_url_type (path_text p ++ tail_text q f) = Ok PathRelative.
Proof.
  intros p q f Hp Hq Hf L. apply type_rel; [exact L| |apply path_no_colon; assumption].
  intros c t E. apply (path_first p q f c t Hp E).
Qed.

Lemma type_abs_path : forall p q f, plain_path p -> plain_opt q -> plain_opt f ->
  1 <= len (path_text p ++ tail_text q f) ->
  get_url_type (abs_text p ++ tail_text q f) = Ok PathAbsolute.
Proof.
  intros p q f Hp Hq Hf L. unfold abs_text. rewrite <- app_assoc.
  destruct (path_text p ++ tail_text q f) as [|c s] eqn:E; [cbn in L; lia|].
  pose proof (path_first p q f c s Hp E) as Hc. cbn [lit app get_url_type].
  change (N.eqb (N_of_ascii "/") c_slash) with true. cbn iota.
  destruct (N.eqb_spec c c_slash); [contradiction|reflexivity].
Qed.

Lemma type_short : forall s, len s < 2 -> get_url_type s = Panic PUnwrapNone.
Proof. intros [|a [|b s]] H; try reflexivity. unfold len in H. cbn [length] in H. lia. Qed.

Lemma special_plain : forall o, special_origin o -> plain_origin o.
Proof. intros o H. left. exact H. Qed.
Lemma web_special : forall o, web_origin o -> special_origin o.
Proof. intros o H. left. exact H. Qed.
Lemma web_plain : forall o, web_origin o -> plain_origin o.
Proof. intros o H. left. left. exact H. Qed.

(** the characters of schemes *)
Lemma other_scheme_chars : forall s, other_scheme s ->
  s <> [] /\ Forall (fun c => scheme_char c = true /\ c <> ch "/" /\ c <> ch ":" /\ (c < 128)%N /\ c <> 32%N /\ c <> 34%N /\ c <> 60%N /\ c <> 62%N) s.
Proof.
  intros s [[c [t [-> [Hc Ht]]]] _]. split; [discriminate|].
  assert (L : forall c, lower c = true -> scheme_char c = true /\ c <> ch "/" /\ c <> ch ":" /\ (c < 128)%N /\ c <> 32%N /\ c <> 34%N /\ c <> 60%N /\ c <> 62%N).
  { intros d Hd. unfold lower in Hd. unfold scheme_char. rewrite Hd, orb_true_r. split; [reflexivity|].
    apply andb_true_iff in Hd. rewrite !N.leb_le in Hd. unfold char, ch in *. cbn. lia. }
  constructor; [apply L; exact Hc|]. eapply Forall_impl; [|exact Ht]. intros d [Hd|[Hd|Hd]]; [apply L; exact Hd| |].
  - unfold scheme_char. replace ((48 <=? d) && (d <=? 57))%N with true.
    2:{ symmetry. apply andb_true_iff. rewrite !N.leb_le. unfold char in *. lia. }
    rewrite !orb_true_r. split; [reflexivity|]. unfold char, ch in *. cbn. lia.
  - cbn in Hd. repeat (destruct Hd as [<-|Hd]; [repeat split; discriminate|]). destruct Hd.
Qed.

Lemma scheme_tail_ok : forall s rest, Forall (fun c => scheme_char c = true) s ->
  scheme_tail (s ++ lit "://" ++ rest) = true.
Proof.
  intros s rest H. induction H as [|c s Hc H IH]; [reflexivity|]. cbn [app scheme_tail]. rewrite Hc. exact IH.
Qed.

Lemma type_url : forall o rest, plain_origin o -> get_url_type (origin_text o ++ rest) = Ok Absolute.
Proof.
  intros o rest [[[Hs _]|[Hs _]]|[Hs _]]; unfold origin_text.
  - destruct Hs as [-> | ->]; reflexivity.
  - rewrite Hs. reflexivity.
  - destruct (other_scheme_chars _ Hs) as [Hn Hc]. rewrite <- app_assoc. rewrite <- (app_assoc (lit "://")).
    set (r := (_ ++ rest)). clearbody r. destruct (o_scheme o) as [|c s]; [contradiction|]. inv Hc. destruct H1 as [H1 [H3 _]].
    assert (E : absolute_scheme_match ((c :: s) ++ lit "://" ++ r) = true).
    { cbn [app absolute_scheme_match]. rewrite H1. apply scheme_tail_ok. eapply Forall_impl; [|exact H2]. intros d Hd. apply Hd. }
    remember ((c :: s) ++ lit "://" ++ r) as w eqn:Ew. destruct w as [|a [|b w]]; [discriminate|destruct s; discriminate|].
    assert (a = c) as -> by (cbn in Ew; congruence). cbn [get_url_type].
    destruct (N.eqb_spec c c_slash); [contradiction|]. rewrite E. reflexivity.
Qed.

(** ** the contract at work *)
Lemma map_repeat' : forall A B (g : A -> B) (a : A) n, map g (repeat a n) = repeat (g a) n.
Proof. induction n; cbn; congruence. Qed.

Section Ops.
  Context (md : mode) (U : UrlLib) (C : UrlContract U).

  (** no login and no port *)
  Lemma net_web : forall s h, s = lit "http" \/ s = lit "https" -> plain_host h -> web_origin (mkOrigin s h).
  Proof. intros s h Hs Hh. split; [exact Hs|]. split; [exact Hh|]. split; [split; [constructor|exact I]|exact I]. Qed.

  Lemma host_names : forall h, plain_host h -> Forall (fun c => name_char c = true) h.
  Proof.
    intros h Hh. destruct Hh as [ls [Hn [Hl ->]]].
    assert (G : forall l, In l ls -> Forall (fun c => name_char c = true) l).
    { intros l Hi. rewrite Forall_forall in Hl. destruct (Hl l Hi) as [_ H]. eapply Forall_impl; [|exact H].
      intros c Hc. unfold lower in Hc. unfold name_char. rewrite Hc, !orb_true_r. reflexivity. }
    apply Forall_app. split.
    - apply Forall_forall. intros c Hi. apply in_concat in Hi. destruct Hi as [x [Hx Hc]].
      apply in_map_iff in Hx. destruct Hx as [l [<- Hl']]. apply in_app_or in Hc. destruct Hc as [Hc|[<-|[]]]; [|reflexivity].
      assert (Hi : In l ls).
      { clear -Hl'. induction ls as [|a ls IH]; [destruct Hl'|]. destruct ls; [destruct Hl'|].
        cbn [removelast] in Hl'. destruct Hl' as [->|H]; [left; reflexivity|right; auto]. }
      specialize (G l Hi). rewrite Forall_forall in G. auto.
    - apply G. destruct (snoc_cases _ ls) as [->|[l [x ->]]]; [exfalso; apply Hn; reflexivity|].
      rewrite last_last. apply in_or_app. right. left. reflexivity.
  Qed.

  Lemma file_host_names : forall h, file_host h -> Forall (fun c => name_char c = true) h.
  Proof. intros h [->|[H _]]; [constructor|apply host_names; exact H]. Qed.

  (** another host under the same scheme *)
  Lemma net_plain : forall o h, plain_origin o -> plain_host h -> plain_origin (net_origin (o_scheme o) h).
  Proof.
    intros o h Ho Hh. unfold net_origin. destruct (str_eqb (o_scheme o) (lit "file") && str_eqb h (lit "localhost")) eqn:E.
    - apply andb_true_iff in E. rewrite !str_eqb_eq in E. destruct E as [E _].
      left. right. split; [exact E|]. repeat (split; [reflexivity|]). left. reflexivity.
    - destruct Ho as [[[Hs _]|[Hs _]]|[Hs _]]; [left; left; apply net_web; assumption| |].
      { left. right. split; [exact Hs|]. repeat (split; [reflexivity|]). right. split; [exact Hh|].
        intros E'. cbn in E'. subst h. rewrite Hs in E. discriminate E. }
      right. cbn [mkOrigin o_scheme o_user o_pass o_port o_host].
    repeat (split; [exact Hs || reflexivity|]). apply host_names. exact Hh.
  Qed.

  Lemma http_web : forall h, plain_host h -> web_origin (mkOrigin (lit "http") h).
  Proof. intros h Hh. apply net_web; [left; reflexivity|exact Hh]. Qed.

  Lemma http_plain : forall h, plain_host h -> plain_origin (mkOrigin (lit "http") h).
  Proof. intros h Hh. apply web_plain, http_web. exact Hh. Qed.

  Lemma origin_plain_text : forall s h, origin_text (mkOrigin s h) = s ++ lit "://" ++ h.
  Proof. intros s h. unfold origin_text. cbn [mkOrigin o_scheme login_text o_user o_host port_text o_port app]. rewrite app_nil_r. reflexivity. Qed.

  Lemma skip_protocol : forall n p q f,
    skipn (List.length PROTOCOL) (url_text (mkOrigin (lit "http") n) p q f) = net_text n p q f.
  Proof. intros. unfold url_text. rewrite origin_plain_text. reflexivity. Qed.

  Lemma host_web : web_origin host_origin.
  Proof.
    apply http_web. exists [lit "host"]. split; [discriminate|]. split; [|reflexivity].
    repeat constructor; discriminate.
  Qed.

  Lemma host_plain : plain_origin host_origin.
  Proof. apply web_plain, host_web. Qed.

  Lemma join_host_net : forall u b bq bf h p q f, clean_path b -> shows U u host_origin b bq bf ->
    plain_host h -> plain_path p -> plain_opt q -> plain_opt f ->
    exists u', ul_join U u (net_text h p q f) = Some u'
      /\ shows U u' (mkOrigin (o_scheme host_origin) h) (resolve_from [] p) q f.
  Proof.
    intros u b bq bf h p q f Hb S Hh. apply (uc_join_net U C u host_origin b bq bf); try assumption; apply host_plain.
  Qed.

  (** a clean URL can be parsed back *)
  Lemma parse_clean : forall o p q f, plain_origin o -> clean_path p -> plain_opt q -> plain_opt f ->
    exists u, ul_parse U (url_text o p q f) = Some u /\ shows U u o p q f.
  Proof.
    intros o p q f Ho Hp Hq Hf.
    destruct (uc_parse U C o p q f Ho (clean_plain _ Hp) Hq Hf) as [u [E S]].
    rewrite resolve_clean in S by exact Hp. eauto.
  Qed.

  Lemma shows_string : forall u o p q f, shows U u o p q f -> ul_to_string U u = url_text o p q f.
  Proof. intros u o p q f S. apply S. Qed.

  (** ** the base URL *)
  Record base_of (input base seg : str) (k : nat) (u : ul_t U) : Prop := mkBase {
    b_ok : build_safe_base md input = Ok base;
    b_fresh : ~ substring seg input;
    b_plain : plain_seg seg;
    b_proper : proper seg;
    b_count : k = count_dotdot input;
    b_text : base = url_text host_origin (mkPath (repeat seg k) []) None None;
    b_clean : clean_path (mkPath (repeat seg k) []);
    b_parse : ul_parse U base = Some u;
    b_shows : shows U u host_origin (mkPath (repeat seg k) []) None None }.

  Lemma ident_plain : forall k, plain_seg (ident k) /\ proper (ident k).
  Proof.
    intros k. unfold ident. split; [split|].
    - discriminate.
    - apply plain_all. constructor; [reflexivity|]. pose proof (dec_str_digits (N.of_nat k)) as H.
      rewrite forallb_forall in H. apply Forall_forall. intros c Hc. specialize (H c Hc).
      unfold M_Json.is_digit in H. unfold plain_char, name_char. rewrite H.
      rewrite !orb_true_r. reflexivity.
    - split; discriminate.
  Qed.

  Lemma clean_repeat : forall seg k, plain_seg seg -> proper seg -> clean_path (mkPath (repeat seg k) []).
  Proof.
    intros seg k H1 H2. split; [split|split]; cbn.
    - apply Forall_forall. intros x Hx. apply repeat_spec in Hx. subst. exact H1.
    - constructor.
    - apply Forall_forall. intros x Hx. apply repeat_spec in Hx. subst. exact H2.
    - apply proper_nil.
  Qed.

  Lemma base_ok : forall input, len input <= 2147483645 ->
    exists base seg k u, base_of input base seg k u.
  Proof.
    intros input B. destruct (unique_segment input md B) as [j [E1 [E2 _]]].
    destruct (ident_plain j) as [P1 P2].
    set (k := count_dotdot input).
    pose proof (clean_repeat (ident j) k P1 P2) as Cl.
    destruct (parse_clean host_origin (mkPath (repeat (ident j) k) []) None None host_plain Cl I I)
      as [u [Ep S]].
    exists (url_text host_origin (mkPath (repeat (ident j) k) []) None None), (ident j), k, u.
    constructor; try assumption; try reflexivity.
    - unfold build_safe_base. rewrite E1. cbn [bind]. f_equal.
      unfold url_text, abs_text, path_text, tail_text. cbn [dirs file]. rewrite !app_nil_r.
      fold k. unfold dirs_text. rewrite map_repeat'. reflexivity.
    - intros Hs. apply contains_iff in Hs. congruence.
  Qed.

  (** ** compute_relative_url *)
  Lemma strip_repeat : forall seg n m t, 
    match t with x :: _ => x <> seg \/ m = O | [] => True end ->
    strip_common (repeat seg n ++ t) (repeat seg (n + m)) = (t, repeat seg m).
  Proof.
    induction n as [|n IH]; intros m t H.
    - cbn [repeat app Nat.add]. destruct t as [|x t]; [destruct m; reflexivity|].
      destruct m; [reflexivity|]. cbn [repeat strip_common].
      destruct H as [H|H]; [|discriminate].
      rewrite (proj2 (str_eqb_neq x seg) H). reflexivity.
    - cbn [repeat app Nat.add strip_common]. rewrite str_eqb_refl. apply IH. exact H.
  Qed.

  Lemma no_slash_abs : forall p, plain_path p -> split_char c_slash (abs_text p) = [] :: dirs p ++ [file p].
  Proof.
    intros p [H1 H2]. unfold abs_text, path_text. apply split_abs.
    - apply plain_segs_no_slash. exact H1.
    - apply plain_no_slash. exact H2.
  Qed.

  Lemma pop_empty_snoc : forall l, pop_empty_back ([] :: l ++ [[]]) = [] :: l.
  Proof.
    intros l. unfold pop_empty_back. change ([] :: l ++ [[]]) with (([] :: l) ++ [[]]).
    rewrite rev_app_distr. cbn [rev app]. rewrite rev_app_distr. rewrite rev_involutive. reflexivity.
  Qed.

  Lemma relative_path_ok : forall input base seg k u r f tu o q fr,
    base_of input base seg k u ->
    (ups r <= k)%nat -> Forall (fun d => d <> seg) (downs r) -> (f <> seg \/ ups r = O) ->
    plain_path (mkPath (absr seg k r) f) ->
    shows U tu o (mkPath (absr seg k r) f) q fr ->
    relative_path_of U u tu = path_text (rel_path r f) ++ glue q ++ glue fr.
  Proof.
    intros input base seg k u r f tu o q fr B Hk Hd Hf Hp S.
    unfold relative_path_of.
    destruct (b_shows _ _ _ _ _ B) as [_ [-> _]].
    destruct S as [_ [-> [-> [-> _]]]].
    rewrite !no_slash_abs by (try exact Hp; apply clean_plain; apply (b_clean _ _ _ _ _ B)).
    cbn [dirs file]. rewrite pop_empty_snoc. cbn [strip_common].
    change (str_eqb [] []) with true. cbn iota.
    unfold absr. rewrite <- app_assoc.
    replace (repeat seg k) with (repeat seg ((k - ups r) + ups r)) by (f_equal; lia).
    rewrite strip_repeat.
    - rewrite map_repeat'. change (lit "..") with dotdot. rewrite app_assoc, join_dirs.
      unfold path_text, rel_path. cbn [dirs file]. rewrite <- !app_assoc.
      destruct q as [q|], fr as [fr|]; cbn [glue]; rewrite ?app_nil_r, <- ?app_assoc; reflexivity.
    - destruct (downs r) as [|x d]; cbn [app]; [exact Hf|].
      inv Hd. left. assumption.
  Qed.

  Lemma absr_clean : forall input base seg k u r f, base_of input base seg k u ->
    Forall plain_seg (downs r) -> Forall proper (downs r) -> plain f -> proper f ->
    clean_path (mkPath (absr seg k r) f).
  Proof.
    intros input base seg k u r f B H1 H2 H3 H4.
    assert (R : forall P : str -> Prop, P seg -> Forall P (repeat seg (k - ups r))).
    { intros P Hp. apply Forall_forall. intros x Hx. apply repeat_spec in Hx. subst. exact Hp. }
    split; [split|split]; cbn [dirs file]; unfold absr.
    - apply Forall_app. split; [apply R; apply (b_plain _ _ _ _ _ B)|exact H1].
    - exact H3.
    - apply Forall_app. split; [apply R; apply (b_proper _ _ _ _ _ B)|exact H2].
    - exact H4.
  Qed.

  Lemma relative_ok : forall input base seg k u r f q fr,
    base_of input base seg k u ->
    (ups r <= k)%nat -> Forall (fun d => d <> seg) (downs r) -> (f <> seg \/ ups r = O) ->
    Forall plain_seg (downs r) -> Forall proper (downs r) -> plain f -> proper f ->
    plain_opt q -> plain_opt fr ->
    compute_relative_url U base (url_text host_origin (mkPath (absr seg k r) f) q fr)
    = Ok (path_text (rel_path r f) ++ glue q ++ glue fr).
  Proof.
    intros input base seg k u r f q fr B Hk Hd Hf P1 P2 P3 P4 Hq Hfr.
    pose proof (absr_clean _ _ _ _ _ r f B P1 P2 P3 P4) as Cl.
    destruct (parse_clean host_origin _ q fr host_plain Cl Hq Hfr) as [tu [E S]].
    unfold compute_relative_url. rewrite (b_parse _ _ _ _ _ B), E. cbn [unwrap_ok bind]. f_equal.
    eapply relative_path_ok; eauto. apply clean_plain. exact Cl.
  Qed.

  (** ** joining a relative path to the base *)
  Lemma fresh_path : forall seg p t, ~ substring seg (path_text p ++ t) -> ~ substring seg (path_text p).
  Proof. intros seg p t H S. apply H. apply substring_app_l. exact S. Qed.

  Lemma ups_count : forall p t, (ups (rel_of p) <= count_dotdot (path_text p ++ t))%nat.
  Proof.
    intros p t. rewrite rel_of_fold.
    pose proof (ups_fold (dirs p ++ file_dirs p) (mkRel 0 [])). cbn [ups] in *.
    pose proof (path_dotdots p). pose proof (count_app' (path_text p) t). lia.
  Qed.

  Lemma absr_start : forall seg k, repeat seg k = absr seg k (mkRel 0 []).
  Proof. intros. unfold absr. cbn [ups downs]. rewrite Nat.sub_0_r, app_nil_r. reflexivity. Qed.

  Lemma resolve_base : forall seg k p, (ups (rel_of p) <= k)%nat ->
    resolve_from (repeat seg k) p = mkPath (absr seg k (rel_of p)) (file_of p).
  Proof.
    intros seg k p H. rewrite resolve_eq, absr_start, abs_fold, <- rel_of_fold; [reflexivity|].
    rewrite <- rel_of_fold. exact H.
  Qed.

  Lemma join_base : forall p q f base seg k u,
    plain_path p -> path_text p <> [] -> plain_opt q -> plain_opt f ->
    base_of (path_text p ++ tail_text q f) base seg k u ->
    exists u', ul_join U u (path_text p ++ tail_text q f) = Some u'
      /\ shows U u' host_origin (mkPath (absr seg k (rel_of p)) (file_of p)) q f.
  Proof.
    intros p q f base seg k u Hp Hn Hq Hf B.
    destruct (uc_join_rel U C u host_origin _ None None p q f host_plain (b_clean _ _ _ _ _ B)
                (b_shows _ _ _ _ _ B) Hp Hn Hq Hf) as [u' [E S]].
    exists u'. split; [exact E|]. cbn [dirs] in S. rewrite resolve_base in S; [exact S|].
    rewrite (b_count _ _ _ _ _ B). apply ups_count.
  Qed.

  (** ** callbacks *)
  Definition acts (P : origin -> Prop) (cb : ul_t U -> ul_t U) (h : path -> path) : Prop :=
    forall u o p q f, P o -> clean_path p -> shows U u o p q f ->
      clean_path (h p) /\ shows U (cb u) o (h p) q f.

  Lemma acts_id : acts plain_origin (fun u => u) (fun p => p).
  Proof. intros u o p q f Ho Hp S. auto. Qed.

  Lemma acts_web : forall cb h, acts plain_origin cb h -> acts web_origin cb h.
  Proof. intros cb h H u o p q f Ho. apply H. apply web_plain. exact Ho. Qed.

  Lemma trailing_yes : forall s, replace_trailing_slash (s ++ lit "/") = s ++ lit "/".
  Proof.
    intros s. unfold replace_trailing_slash. rewrite rev_app_distr. cbn [rev lit app].
    change (N.eqb (N_of_ascii "/") c_slash) with true. cbn iota. rewrite rev_involutive. reflexivity.
  Qed.

  Lemma trailing_no : forall s c, c <> c_slash -> replace_trailing_slash (s ++ [c]) = (s ++ [c]) ++ lit "/".
  Proof.
    intros s c H. unfold replace_trailing_slash. rewrite rev_app_distr. cbn [rev app].
    destruct (N.eqb_spec c c_slash); [contradiction|reflexivity].
  Qed.

  Lemma replace_slash : forall p, plain_path p -> replace_trailing_slash (abs_text p) = abs_text (dir_path p).
  Proof.
    intros [ds f] [H1 H2]. cbn [dirs file] in H1, H2. unfold abs_text, path_text, dir_path, as_dirs.
    cbn [dirs file].
    destruct (snoc_cases _ f) as [->|[f' [c ->]]].
    - rewrite !app_nil_r. destruct (snoc_cases _ ds) as [->|[ds' [d ->]]].
      + reflexivity.
      + rewrite dirs_text_app. unfold dirs_text at 2 4. cbn [map concat]. rewrite app_nil_r, !app_assoc.
        apply trailing_yes.
    - assert (Hc : c <> c_slash).
      { intros ->. apply (plain_no_slash _ H2). apply in_or_app. right. left. reflexivity. }
      rewrite dirs_text_app. unfold dirs_text at 3. cbn [map concat]. rewrite !app_nil_r, !app_assoc.
      rewrite trailing_no by exact Hc. rewrite <- !app_assoc. f_equal. f_equal.
      destruct f'; cbn [app map concat]; rewrite ?app_nil_r, <- ?app_assoc; reflexivity.
  Qed.

  Lemma acts_ensure : acts plain_origin (ensure_directory_cb U) dir_path.
  Proof.
    intros u o p q f Ho Hp S. split; [apply clean_dir; exact Hp|].
    unfold ensure_directory_cb. destruct S as [S1 [S2 S3]]. rewrite S2.
    rewrite replace_slash by (apply clean_plain; exact Hp).
    eapply (uc_set_path U C); [exact Ho|exact Hp| |apply clean_dir; exact Hp].
    split; [exact S1|]. split; [exact S2|exact S3].
  Qed.

  (** ** the handlers *)
  Lemma handler_rel : forall cb h p q f r' f',
    acts web_origin cb h ->
    plain_path p -> path_text p <> [] -> plain_opt q -> plain_opt f ->
    2 <= len (path_text p ++ tail_text q f) <= 2147483645 ->
    let k := count_dotdot (path_text p ++ tail_text q f) in
    (forall seg, proper seg -> h (mkPath (absr seg k (rel_of p)) (file_of p)) = mkPath (absr seg k r') f') ->
    (ups r' <= k)%nat ->
    (forall seg, seg <> [] -> ~ substring seg (path_text p) ->
       Forall (fun d => d <> seg) (downs r') /\ (f' <> seg \/ ups r' = O)) ->
    Forall plain_seg (downs r') -> Forall proper (downs r') -> plain f' -> proper f' ->
    safe_handler md U cb (path_text p ++ tail_text q f)
    = Ok (path_text (rel_path r' f') ++ glue q ++ glue f).
  Proof.
    intros cb h p q f r' f' Hcb Hp Hn Hq Hf L k0 Hh Hu Hfr P1 P2 P3 P4.
    unfold safe_handler. rewrite type_rel_path by (try assumption; lia). cbn [bind].
    destruct (base_ok (path_text p ++ tail_text q f) ltac:(lia)) as [base [seg [k [u B]]]].
    rewrite (b_ok _ _ _ _ _ B). cbn [bind]. rewrite (b_parse _ _ _ _ _ B). cbn [bind unwrap_ok].
    destruct (join_base p q f base seg k u Hp Hn Hq Hf B) as [u' [E S]].
    rewrite E. cbn [bind unwrap_ok].
    destruct (plain_rel_path p Hp) as [Q1 Q2].
    destruct (Hcb u' host_origin _ q f host_web
      (absr_clean _ _ _ _ _ _ _ B Q1 (rel_of_proper p) Q2 (file_of_proper p)) S) as [Cl S'].
    pose proof (b_count _ _ _ _ _ B) as Ek. fold k0 in Ek. rewrite Ek in *.
    rewrite (shows_string _ _ _ _ _ S'). rewrite Hh by apply (b_proper _ _ _ _ _ B).
    destruct (Hfr seg) as [F1 F2].
    { apply (b_plain _ _ _ _ _ B). }
    { eapply fresh_path. apply (b_fresh _ _ _ _ _ B). }
    apply (relative_ok _ base seg k0 u r' f' q f B); assumption.
  Qed.

  Lemma handler_abs : forall cb h p q f,
    acts web_origin cb h -> plain_path p -> plain_opt q -> plain_opt f ->
    1 <= len (path_text p ++ tail_text q f) -> len (abs_text p ++ tail_text q f) <= 2147483645 ->
    safe_handler md U cb (abs_text p ++ tail_text q f)
    = Ok (abs_text (h (resolve_from [] p)) ++ tail_text q f).
  Proof.
    intros cb h p q f Hcb Hp Hq Hf L L2.
    unfold safe_handler. rewrite type_abs_path by assumption. cbn [bind].
    destruct (base_ok (abs_text p ++ tail_text q f) L2) as [base [seg [k [u B]]]].
    rewrite (b_ok _ _ _ _ _ B). cbn [bind]. rewrite (b_parse _ _ _ _ _ B). cbn [bind unwrap_ok].
    destruct (uc_join_abs U C u host_origin _ None None p q f host_plain (b_clean _ _ _ _ _ B)
                (b_shows _ _ _ _ _ B) Hp Hq Hf) as [u' [E S]].
    rewrite E. cbn [bind unwrap_ok].
    destruct (Hcb u' host_origin _ q f host_web (clean_resolve [] p (Forall_nil _) (Forall_nil _) Hp) S)
      as [Cl S'].
    rewrite (shows_string _ _ _ _ _ S'). reflexivity.
  Qed.

  Lemma handler_shown : forall cb o p p' q f,
    (forall u, shows U u o (resolve_from [] p) q f -> shows U (cb u) o p' q f) ->
    plain_origin o -> plain_path p -> plain_opt q -> plain_opt f ->
    len (url_text o p q f) <= 2147483645 ->
    safe_handler md U cb (url_text o p q f) = Ok (url_text o p' q f).
  Proof.
    intros cb o p p' q f Hcb Ho Hp Hq Hf L2.
    unfold safe_handler. unfold url_text at 1. rewrite type_url by assumption. cbn [bind].
    destruct (base_ok (url_text o p q f) L2) as [base [seg [k [u B]]]].
    rewrite (b_ok _ _ _ _ _ B). cbn [bind]. rewrite (b_parse _ _ _ _ _ B). cbn [bind unwrap_ok].
    destruct (uc_join_url U C u host_origin _ None None o p q f host_plain (b_clean _ _ _ _ _ B)
                (b_shows _ _ _ _ _ B) Ho Hp Hq Hf) as [u' [E S]].
    rewrite E. cbn [bind unwrap_ok].
    rewrite (shows_string _ _ _ _ _ (Hcb u' S)). reflexivity.
  Qed.

  Lemma handler_url : forall P cb h o p q f,
    acts P cb h -> P o -> plain_origin o -> plain_path p -> plain_opt q -> plain_opt f ->
    len (url_text o p q f) <= 2147483645 ->
    safe_handler md U cb (url_text o p q f) = Ok (url_text o (h (resolve_from [] p)) q f).
  Proof.
    intros P cb h o p q f Hcb HP Ho Hp Hq Hf L2. apply handler_shown; try assumption.
    intros u S. exact (proj2 (Hcb u o _ q f HP (clean_resolve [] p (Forall_nil _) (Forall_nil _) Hp) S)).
  Qed.

  Lemma type_net : forall h p q f, get_url_type (net_text h p q f) = Ok SchemeRelative.
  Proof. reflexivity. Qed.

  Lemma handler_net : forall cb h n p q f,
    acts web_origin cb h -> plain_host n -> plain_path p -> plain_opt q -> plain_opt f ->
    len (net_text n p q f) <= 2147483645 ->
    safe_handler md U cb (net_text n p q f) = Ok (net_text n (h (resolve_from [] p)) q f).
  Proof.
    intros cb h n p q f Hcb Hn Hp Hq Hf L2.
    unfold safe_handler. rewrite type_net. cbn [bind].
    destruct (base_ok (net_text n p q f) L2) as [base [seg [k [u B]]]].
    rewrite (b_ok _ _ _ _ _ B). cbn [bind]. rewrite (b_parse _ _ _ _ _ B). cbn [bind unwrap_ok].
    destruct (join_host_net u _ None None n p q f (b_clean _ _ _ _ _ B)
                (b_shows _ _ _ _ _ B) Hn Hp Hq Hf) as [u' [E S]].
    rewrite E. cbn [bind unwrap_ok].
    assert (Ho : web_origin (mkOrigin (o_scheme host_origin) n)) by (apply http_web; exact Hn).
    destruct (Hcb u' _ _ q f Ho (clean_resolve [] p (Forall_nil _) (Forall_nil _) Hp) S)
      as [Cl S'].
    rewrite (shows_string _ _ _ _ _ S'). f_equal. apply skip_protocol.
  Qed.

  (** ** NORMALIZE *)
  Lemma NORMALIZE_rel : forall p q f, plain_path p -> path_text p <> [] -> plain_opt q -> plain_opt f ->
    2 <= len (path_text p ++ tail_text q f) <= 2147483645 ->
    NORMALIZE md U (path_text p ++ tail_text q f)
    = Ok (path_text (normal p) ++ glue q ++ glue f).
  Proof.
    intros p q f Hp Hn Hq Hf L. rewrite normal_eq. unfold NORMALIZE.
    destruct (plain_rel_path p Hp) as [Q1 Q2].
    apply (handler_rel _ (fun p => p)); auto using acts_web, acts_id, rel_of_proper, file_of_proper, ups_count.
    intros seg N F. split; [apply rel_of_fresh; exact F|left; apply file_of_fresh; assumption].
  Qed.

  Lemma NORMALIZE_abs : forall p q f, plain_path p -> plain_opt q -> plain_opt f ->
    1 <= len (path_text p ++ tail_text q f) -> len (abs_text p ++ tail_text q f) <= 2147483645 ->
    NORMALIZE md U (abs_text p ++ tail_text q f) = Ok (abs_text (resolve_from [] p) ++ tail_text q f).
  Proof. intros. apply (handler_abs _ (fun p => p)); auto using acts_web, acts_id. Qed.

  Lemma NORMALIZE_url : forall o p q f, plain_origin o -> plain_path p -> plain_opt q -> plain_opt f ->
    len (url_text o p q f) <= 2147483645 ->
    NORMALIZE md U (url_text o p q f) = Ok (url_text o (resolve_from [] p) q f).
  Proof. intros. apply (handler_url plain_origin _ (fun p => p)); auto using acts_web, acts_id. Qed.

  Lemma NORMALIZE_net : forall n p q f, plain_host n -> plain_path p -> plain_opt q -> plain_opt f ->
    len (net_text n p q f) <= 2147483645 ->
    NORMALIZE md U (net_text n p q f) = Ok (net_text n (resolve_from [] p) q f).
  Proof. intros. apply (handler_net _ (fun p => p)); auto using acts_web, acts_id. Qed.

  (** ** ENSURE_DIRECTORY *)
  Definition dir_rel_of (p : path) : rel := fold_left rel_move (as_dirs p) (mkRel 0 []).

  Lemma dir_rel_cases : forall p, dir_rel_of p = match file_of p with [] => rel_of p
                                   | f => mkRel (ups (rel_of p)) (downs (rel_of p) ++ [f]) end.
  Proof.
    intros p. unfold dir_rel_of. rewrite as_dirs_fold by reflexivity. unfold rel_of, file_of.
    destruct (seg_cases (file p)) as [E|[E|[H1 [H2 [E1 E2]]]]].
    - rewrite E. reflexivity.
    - rewrite E. reflexivity.
    - rewrite E1, E2. cbn [orb]. destruct (file p) as [|c s]; [reflexivity|].
      rewrite rel_move_proper by (split; assumption). reflexivity.
  Qed.

  Lemma dir_rel_facts : forall p, plain_path p ->
    Forall plain_seg (downs (dir_rel_of p)) /\ Forall proper (downs (dir_rel_of p))
    /\ ups (dir_rel_of p) = ups (rel_of p)
    /\ (forall seg, seg <> [] -> ~ substring seg (path_text p) -> Forall (fun d => d <> seg) (downs (dir_rel_of p))).
  Proof.
    intros p Hp. destruct (plain_rel_path p Hp) as [Q1 Q2]. rewrite dir_rel_cases.
    pose proof (rel_of_proper p) as Q3. pose proof (file_of_proper p) as Q4.
    assert (Q5 : forall seg, seg <> [] -> ~ substring seg (path_text p) ->
      Forall (fun d => d <> seg) (downs (rel_of p)) /\ file_of p <> seg).
    { intros seg N F. split; [apply rel_of_fresh; exact F|apply file_of_fresh; assumption]. }
    destruct (file_of p) as [|c s] eqn:E.
    - repeat split; auto. intros seg N F. apply Q5; assumption.
    - cbn [ups downs]. split; [|split; [|split; [reflexivity|]]].
      + apply Forall_app. split; [exact Q1|]. constructor; [|constructor]. split; [discriminate|exact Q2].
      + apply Forall_app. split; [exact Q3|]. constructor; [exact Q4|constructor].
      + intros seg N F. destruct (Q5 seg N F). apply Forall_app. split; [assumption|].
        constructor; [assumption|constructor].
  Qed.

  Lemma ENSURE_rel : forall p, plain_path p -> 2 <= len (path_text p) <= 2147483645 ->
    ENSURE_DIRECTORY md U (path_text p) = Ok (path_text (rel_path (dir_rel_of p) [])).
  Proof.
    intros p Hp L. pose proof (dir_rel_facts p Hp) as [F1 [F2 [F3 F4]]].
    pose proof (handler_rel (ensure_directory_cb U) dir_path p None None (dir_rel_of p) []) as H.
    cbn [tail_text glue app] in H. rewrite !app_nil_r in H. apply H; auto using acts_web, acts_ensure, proper_nil.
    - intros E. rewrite E in L. cbn in L. lia.
    - exact I.
    - exact I.
    - intros seg Hs. rewrite dir_rel_cases. unfold dir_path, as_dirs. cbn [dirs file].
      destruct (file_of p); cbn [ups downs]; unfold absr; cbn [ups downs]; [rewrite app_nil_r; reflexivity|].
      rewrite app_assoc. reflexivity.
    - rewrite F3. pose proof (ups_count p []) as G. rewrite app_nil_r in G. exact G.
    - constructor.
  Qed.

  Lemma ENSURE_abs : forall p q f, plain_path p -> plain_opt q -> plain_opt f ->
    1 <= len (path_text p ++ tail_text q f) -> len (abs_text p ++ tail_text q f) <= 2147483645 ->
    ENSURE_DIRECTORY md U (abs_text p ++ tail_text q f)
    = Ok (abs_text (dir_path (resolve_from [] p)) ++ tail_text q f).
  Proof. intros. apply (handler_abs _ dir_path); auto using acts_web, acts_ensure. Qed.

  Lemma ENSURE_net : forall n p q f, plain_host n -> plain_path p -> plain_opt q -> plain_opt f ->
    len (net_text n p q f) <= 2147483645 ->
    ENSURE_DIRECTORY md U (net_text n p q f) = Ok (net_text n (dir_path (resolve_from [] p)) q f).
  Proof. intros. apply (handler_net _ dir_path); auto using acts_web, acts_ensure. Qed.

  Lemma ENSURE_url : forall o p q f, plain_origin o -> plain_path p -> plain_opt q -> plain_opt f ->
    len (url_text o p q f) <= 2147483645 ->
    ENSURE_DIRECTORY md U (url_text o p q f) = Ok (url_text o (dir_path (resolve_from [] p)) q f).
  Proof. intros. apply (handler_url plain_origin _ dir_path); auto using acts_web, acts_ensure. Qed.
End Ops.
