(** * A small URL library meeting the contract

    It shows that the contract can be met and serves for the examples.  It
    treats all schemes like http, but for backslashes and in file URLs for drives
    and "localhost". *)
From Verif Require Import Base F_Base M_Util M_Json S_Json F_JsonText S_Url F_UrlText F_UrlPath F_UrlOps F_Escape.

(** before and after the first [c] *)
Fixpoint cut (c : char) (s : str) : str * option str :=
  match s with
  | [] => ([], None)
  | x :: s' => if N.eqb x c then ([], Some s')
               else let '(a, b) := cut c s' in (x :: a, b)
  end.

Record rurl := mkRurl { r_origin : origin; r_path : str; r_query : option str; r_fragment : option str }.

(** [t] is the text after the first '/' *)
Definition path_of (t : str) : path :=
  let segs := split_char c_slash t in mkPath (removelast segs) (last segs []).

Definition cut_tail (s : str) : str * option str * option str :=
  let '(a, f) := cut (ch "#") s in
  let '(b, q) := cut (ch "?") a in (b, q, f).

Definition is_file (s : str) : bool := str_eqb s (lit "file").
Definition ref_host (scheme h : str) : str := if is_file scheme && str_eqb h (lit "localhost") then [] else h.

(** "user:password@host:port" *)
Definition ref_origin (scheme s : str) : origin :=
  let '(login, rest) := cut (ch "@") s in
  let '(login, rest) := match rest with Some r => (login, r) | None => ([], s) end in
  let '(user, pass) := cut (ch ":") login in
  let '(host, port) := cut (ch ":") rest in
  mkLogin scheme user pass (ref_host scheme host) port.

(** resolution that does not leave a drive *)
Definition is_drive (s : str) : bool :=
  match s with
  | [c; d] => (((65 <=? c) && (c <=? 90)) || ((97 <=? c) && (c <=? 122)))%N && N.eqb d (ch ":")
  | _ => false
  end.
Definition ref_walk (scheme : str) (at_ : list str) (p : path) : path :=
  match at_, dirs p with
  | d :: at', _ => if is_file scheme && is_drive d then on_drive d (resolve_from at' p) else resolve_from at_ p
  | [], d :: ds => if is_file scheme && is_drive d then on_drive d (resolve_from [] (mkPath ds (file p))) else resolve_from [] p
  | [], [] => resolve_from [] p
  end.

(** "host/path?query#fragment"; a '[' is refused *)
Definition ref_authority (scheme s : str) : option rurl :=
  let '(b, q, f) := cut_tail s in
  let '(h, t) := cut c_slash b in
  let t := match t with Some t => t | None => [] end in
  if existsb (N.eqb (ch "[")) h then None
  else Some (mkRurl (ref_origin scheme h) (path_text (ref_walk scheme [] (path_of t))) q f).

(** with "//", with "/" only, without *)
Inductive ref_url :=
| RAuth (u : rurl)
| RRooted (scheme path : str) (q f : option str)
| ROpaque (scheme text : str) (q f : option str).

Definition ref_scheme (s : str) : option (str * str) :=
  let '(scheme, rest) := cut (ch ":") s in
  match rest with
  | Some rest => if forallb scheme_char scheme then Some (map to_lower scheme, rest) else None
  | None => None
  end.

Definition ref_after (scheme rest : str) : option ref_url :=
  if is_prefix (lit "//") rest then option_map RAuth (ref_authority scheme (skipn 2 rest)) else
  let '(b, q, f) := cut_tail rest in
  Some (if is_prefix (lit "/") b
        then RRooted scheme (path_text (resolve_from [] (path_of (skipn 1 b)))) q f
        else ROpaque scheme b q f).

Definition ref_parse (s : str) : option ref_url :=
  match ref_scheme s with Some (scheme, rest) => ref_after scheme rest | None => None end.

Definition ref_join (u : ref_url) (s : str) : option ref_url :=
  match ref_scheme s, u with
  | Some (scheme, rest), _ => ref_after scheme rest
  | None, RAuth u =>
      if is_prefix (lit "//") s then option_map RAuth (ref_authority (o_scheme (r_origin u)) (skipn 2 s)) else
      let '(b, q, f) := cut_tail s in
      Some (RAuth
        match b with
        | [] => mkRurl (r_origin u) (r_path u)
                       (match q with Some q => Some q | None => r_query u end) f
        | c :: b' =>
            let walk := ref_walk (o_scheme (r_origin u)) in
            let p := if N.eqb c c_slash then walk [] (path_of b')
                     else walk (dirs (path_of (r_path u))) (path_of b) in
            mkRurl (r_origin u) (path_text p) q f
        end)
  | None, _ => None
  end.

(** below http and https a backslash before the query is a slash *)
Fixpoint slashed (s : str) : str :=
  match s with
  | [] => []
  | c :: s' => if N.eqb c (ch "?") || N.eqb c (ch "#") then s
               else (if N.eqb c 92 then ch "/" else c) :: slashed s'
  end.
Definition ref_slashed (u : ref_url) (s : str) : str :=
  match u, ref_scheme s with
  | RAuth u, None =>
      if str_eqb (o_scheme (r_origin u)) (lit "http") || str_eqb (o_scheme (r_origin u)) (lit "https") then slashed s else s
  | _, _ => s
  end.

Definition ref_set_path (u : ref_url) (s : str) : ref_url :=
  let t := match s with
           | c :: s' => if N.eqb c c_slash then s' else s
           | [] => []
           end in
  match u with
  | RAuth u => RAuth (mkRurl (r_origin u) (path_text (ref_walk (o_scheme (r_origin u)) [] (path_of t))) (r_query u) (r_fragment u))
  | RRooted _ _ _ _ => u
  | ROpaque x _ q f => ROpaque x s q f
  end.

Definition ref_to_string (u : ref_url) : str :=
  match u with
  | RAuth u => origin_text (r_origin u) ++ lit "/" ++ r_path u ++ tail_text (r_query u) (r_fragment u)
  | RRooted s p q f => opaque_url s (lit "/" ++ p) q f
  | ROpaque s t q f => opaque_url s t q f
  end.

Definition ref_origin_of (u : ref_url) : origin :=
  match u with RAuth u => r_origin u | RRooted s _ _ _ | ROpaque s _ _ _ => mkOrigin s [] end.
Definition ref_path (u : ref_url) : str :=
  match u with RAuth u => lit "/" ++ r_path u | RRooted _ p _ _ => lit "/" ++ p | ROpaque _ t _ _ => t end.
Definition ref_query (u : ref_url) : option str :=
  match u with RAuth u => r_query u | RRooted _ _ q _ | ROpaque _ _ q _ => q end.
Definition ref_fragment (u : ref_url) : option str :=
  match u with RAuth u => r_fragment u | RRooted _ _ _ f | ROpaque _ _ _ f => f end.

Definition RefUrl : UrlLib :=
  mkUrlLib ref_url (fun s => ref_parse (escape s)) (fun u s => ref_join u (ref_slashed u (escape s))) ref_path ref_set_path ref_query ref_fragment
    (fun u => o_scheme (ref_origin_of u)) (fun u => o_user (ref_origin_of u)) (fun u => o_pass (ref_origin_of u))
    (fun u => match o_host (ref_origin_of u) with [] => None | h => Some h end)
    (fun u => option_map digits_val (o_port (ref_origin_of u))) ref_to_string.

(** ** cutting *)
Lemma cut_none : forall c s, ~ In c s -> cut c s = (s, None).
Proof.
  induction s as [|x s IH]; intros H; [reflexivity|]. cbn [cut].
  destruct (N.eqb_spec x c) as [->|]; [exfalso; apply H; left; reflexivity|].
  rewrite IH by (intros Hi; apply H; right; exact Hi). reflexivity.
Qed.

Lemma cut_some : forall c a b, ~ In c a -> cut c (a ++ c :: b) = (a, Some b).
Proof.
  induction a as [|x a IH]; intros b H; cbn [cut app]; [rewrite N.eqb_refl; reflexivity|].
  destruct (N.eqb_spec x c) as [->|]; [exfalso; apply H; left; reflexivity|].
  rewrite IH by (intros Hi; apply H; right; exact Hi). reflexivity.
Qed.

Lemma cut_tail_ok : forall b q f, ~ In (ch "?") b -> ~ In (ch "#") b -> plain_opt q -> plain_opt f ->
  cut_tail (b ++ tail_text q f) = (b, q, f).
Proof.
  intros b q f H1 H2 Hq Hf. unfold cut_tail, tail_text.
  assert (Hq' : ~ In (ch "#") (b ++ match q with Some q => lit "?" ++ q | None => [] end)).
  { intros Hi. apply in_app_or in Hi. destruct Hi as [Hi|Hi]; [contradiction|].
    destruct q as [q|]; [|destruct Hi]. cbn [lit app In] in Hi. destruct Hi as [Hi|Hi]; [discriminate|].
    revert Hi. apply plain_no; [exact Hq|reflexivity]. }
  rewrite app_assoc. destruct f as [f|].
  - change (lit "#" ++ f) with (ch "#" :: f). rewrite cut_some by exact Hq'.
    destruct q as [q|].
    + change (lit "?" ++ q) with (ch "?" :: q). rewrite cut_some by exact H1. reflexivity.
    + rewrite app_nil_r, cut_none by exact H1. reflexivity.
  - rewrite app_nil_r, cut_none by exact Hq'.
    destruct q as [q|].
    + change (lit "?" ++ q) with (ch "?" :: q). rewrite cut_some by exact H1. reflexivity.
    + rewrite app_nil_r, cut_none by exact H1. reflexivity.
Qed.

Lemma path_of_text : forall p, plain_path p -> path_of (path_text p) = p.
Proof.
  intros [ds f] [H1 H2]. cbn [dirs file] in *. unfold path_of, path_text. cbn [dirs file].
  rewrite split_dirs by (try (apply plain_segs_no_slash; assumption); apply plain_no_slash; assumption).
  rewrite removelast_snoc, last_last. reflexivity.
Qed.

Lemma path_no : forall p c, plain_path p -> text_char c = false -> c <> c_slash -> ~ In c (path_text p).
Proof. intros p c Hp H1 H2 Hi. destruct (path_text_chars p c Hp Hi); congruence. Qed.

Lemma abs_no : forall p c, plain_path p -> text_char c = false -> c <> c_slash -> ~ In c (abs_text p).
Proof.
  intros p c Hp H1 H2 Hi. unfold abs_text in Hi. cbn [lit app In] in Hi. destruct Hi as [Hi|Hi].
  - apply H2. symmetry. exact Hi.
  - revert Hi. apply path_no; assumption.
Qed.

Lemma decimal_digits_val : forall t n, decimal t n -> digits_val t = n.
Proof. intros t n H. apply decimal_iff in H. destruct H as [H _]. apply digits_iff in H. apply H. Qed.

Lemma ref_host_ok : forall o, plain_origin o -> ref_host (o_scheme o) (o_host o) = o_host o.
Proof.
  intros o Ho. unfold ref_host. destruct (is_file (o_scheme o) && _) eqn:E; [|reflexivity]. exfalso.
  apply andb_true_iff in E. unfold is_file in E. rewrite !str_eqb_eq in E. destruct E as [E1 E2].
  destruct Ho as [[[[H|H] _]|[_ [_ [_ [_ H]]]]]|[[_ H] _]]; [rewrite H in E1; discriminate E1..| |].
  - rewrite E2 in H. destruct H as [H|[_ H]]; [discriminate H|apply H; reflexivity].
  - apply H. rewrite E1. cbn. auto 10.
Qed.

Lemma ref_origin_ok : forall o, plain_origin o -> ref_origin (o_scheme o) (authority o) = o.
Proof.
  intros o Ho. pose proof (ref_host_ok o Ho) as RH.
  destruct Ho as [[[Hs [Hh [[L1 L2] Hp]]]|[_ [U1 [U2 [U3 U4]]]]]|[_ [U1 [U2 [U3 U4]]]]]; unfold ref_origin, authority, login_text.
  2:{ apply file_host_names in U4. unfold port_text. rewrite U1, U3. cbn [app]. rewrite app_nil_r. rewrite cut_none by (apply name_no; [exact U4|reflexivity]).
      cbn [cut]. rewrite cut_none by (apply name_no; [exact U4|reflexivity]).
      rewrite RH. destruct o as [s u p h t]. cbn in U1, U2, U3. subst. reflexivity. }
  2:{ unfold port_text. rewrite U1, U3. cbn [app]. rewrite app_nil_r. rewrite cut_none by (apply name_no; [exact U4|reflexivity]).
      cbn [cut]. rewrite cut_none by (apply name_no; [exact U4|reflexivity]).
      rewrite RH. destruct o as [s u p h t]. cbn in U1, U2, U3. subst. reflexivity. }
  assert (HA : ~ In (ch "@") (o_host o ++ port_text o)).
  { intros Hi. apply in_app_or in Hi. destruct Hi as [Hi|Hi]; revert Hi.
    - apply host_no; [exact Hh|reflexivity|discriminate].
    - apply port_no; [exact Hp|discriminate|]. unfold char; intros [G1 G2]; vm_compute in G2; apply G2; reflexivity. }
  assert (HC : forall u p, (let '(host, port) := cut (ch ":") (o_host o ++ port_text o) in
               mkLogin (o_scheme o) u p (ref_host (o_scheme o) host) port) = mkLogin (o_scheme o) u p (o_host o) (o_port o)).
  { intros u p. unfold port_text. destruct (o_port o) as [t|].
    - change (lit ":" ++ t) with (ch ":" :: t).
      rewrite cut_some by (apply host_no; [exact Hh|reflexivity|discriminate]). rewrite RH. reflexivity.
    - rewrite app_nil_r, cut_none by (apply host_no; [exact Hh|reflexivity|discriminate]). rewrite RH. reflexivity. }
  destruct (o_user o) as [|a user] eqn:Eu.
  - cbn [app]. rewrite cut_none by exact HA. cbn [cut]. rewrite HC.
    destruct o as [s u p h t]. cbn [o_scheme o_user o_pass o_host o_port] in *. subst u.
    destruct p as [p|]; [exfalso; destruct L2 as [L2 _]; apply L2; reflexivity|reflexivity].
  - assert (NU : forall c, name_char c = false -> ~ In c (a :: user)) by (intros c Nc; apply name_no; assumption).
    set (pass := match o_pass o with Some p => lit ":" ++ p | None => [] end) in *.
    assert (NP : ~ In (ch "@") ((a :: user) ++ pass)).
    { intros Hi. apply in_app_or in Hi. destruct Hi as [Hi|Hi]; [revert Hi; apply NU; reflexivity|].
      unfold pass in Hi. destruct (o_pass o) as [p|]; [|destruct Hi]. destruct Hi as [Hi|Hi]; [discriminate|].
      revert Hi. apply name_no; [apply L2|reflexivity]. }
    replace (((a :: user) ++ pass ++ lit "@") ++ o_host o ++ port_text o)
      with (((a :: user) ++ pass) ++ ch "@" :: (o_host o ++ port_text o)).
    2:{ rewrite <- !app_assoc. reflexivity. }
    rewrite cut_some by exact NP. unfold pass.
    destruct o as [s u p h t]. cbn [o_scheme o_user o_pass o_host o_port] in *. subst u.
    destruct p as [p|].
    + change (lit ":" ++ p) with (ch ":" :: p). rewrite cut_some by (apply NU; reflexivity). apply HC.
    + rewrite app_nil_r, cut_none by (apply NU; reflexivity). apply HC.
Qed.

(** ** paths *)
Lemma plain_not_drive : forall s, plain_seg s -> is_drive s = false.
Proof.
  intros s [_ H]. destruct s as [|c [|d [|x s]]]; try reflexivity. cbn [is_drive].
  destruct (N.eqb_spec d (ch ":")) as [->|]; [|apply andb_false_r]. exfalso.
  assert (Hi : In (ch ":") [c; ch ":"]) by (right; left; reflexivity). revert Hi. apply plain_no; [exact H|reflexivity].
Qed.

Lemma walk_plain : forall s at_ p, Forall plain_seg at_ -> plain_path p -> ref_walk s at_ p = resolve_from at_ p.
Proof.
  intros s at_ p Ha [Hp _]. unfold ref_walk. destruct at_ as [|d at_].
  - destruct (dirs p) as [|d ds] eqn:E; [reflexivity|]. rewrite plain_not_drive by (inv Hp; assumption). rewrite andb_false_r. reflexivity.
  - rewrite plain_not_drive by (inv Ha; assumption). rewrite andb_false_r. reflexivity.
Qed.

Lemma drive_is : forall d, drive d -> is_drive d = true.
Proof.
  intros d [c [H ->]]. cbn [is_drive]. change (N.eqb (ch ":") (ch ":")) with true. rewrite andb_true_r, orb_true_iff, !andb_true_iff, !N.leb_le. exact H.
Qed.

Lemma walk_drive : forall d p, drive d -> ref_walk (lit "file") [] (on_drive d p) = on_drive d (resolve_from [] p).
Proof. intros d [ds f] H. unfold ref_walk, on_drive at 1. cbn [dirs]. rewrite drive_is by exact H. reflexivity. Qed.

Lemma walk_drive_rel : forall d ds p, drive d -> ref_walk (lit "file") (d :: ds) p = on_drive d (resolve_from ds p).
Proof. intros d ds p H. unfold ref_walk. rewrite drive_is by exact H. reflexivity. Qed.

Lemma drive_no_slash : forall d, drive d -> ~ In c_slash d.
Proof. intros d [c [H ->]] [Hi|[Hi|[]]]; [|discriminate]. subst c. unfold c_slash, char in H. cbn in H. lia. Qed.

Lemma path_of_drive : forall d p, drive d -> plain_path p -> path_of (path_text (on_drive d p)) = on_drive d p.
Proof.
  intros d [ds f] Hd [H1 H2]. cbn [dirs file] in *. unfold path_of, path_text, on_drive. cbn [dirs file].
  rewrite split_dirs.
  - change (d :: ds ++ [f]) with ((d :: ds) ++ [f]). rewrite removelast_snoc, last_last. reflexivity.
  - constructor; [apply drive_no_slash; exact Hd|apply plain_segs_no_slash; exact H1].
  - apply plain_no_slash. exact H2.
Qed.

Lemma no_bracket : forall o, plain_origin o -> existsb (N.eqb (ch "[")) (authority o) = false.
Proof.
  intros o Ho. destruct (existsb _ _) eqn:E; [|reflexivity]. apply existsb_exists in E. destruct E as [x [Hi Hx]].
  apply N.eqb_eq in Hx. subst x. exfalso. revert Hi. apply authority_no; [exact Ho|reflexivity|discriminate|discriminate].
Qed.

Lemma authority_ok : forall o p q f, plain_origin o -> plain_path p -> plain_opt q -> plain_opt f ->
  ref_authority (o_scheme o) (authority o ++ abs_text p ++ tail_text q f)
  = Some (mkRurl o (path_text (resolve_from [] p)) q f).
Proof.
  intros o p q f Ho Hp Hq Hf. unfold ref_authority. rewrite app_assoc.
  rewrite cut_tail_ok; try assumption.
  - unfold abs_text. change (lit "/" ++ path_text p) with (c_slash :: path_text p).
    rewrite cut_some by (apply authority_no; [exact Ho|reflexivity|discriminate|discriminate]).
    rewrite no_bracket by exact Ho.
    rewrite path_of_text, walk_plain by (try exact Hp; constructor). rewrite ref_origin_ok by exact Ho. reflexivity.
  - intros Hi. apply in_app_or in Hi. destruct Hi as [Hi|Hi]; revert Hi;
      [apply authority_no; [exact Ho|reflexivity|discriminate|discriminate]|apply abs_no; [exact Hp|reflexivity|discriminate]].
  - intros Hi. apply in_app_or in Hi. destruct Hi as [Hi|Hi]; revert Hi;
      [apply authority_no; [exact Ho|reflexivity|discriminate|discriminate]|apply abs_no; [exact Hp|reflexivity|discriminate]].
Qed.

(** "//host/path" *)
Lemma net_ok : forall s h p q f, plain_host h -> plain_path p -> plain_opt q -> plain_opt f ->
  ref_authority s (h ++ abs_text p ++ tail_text q f)
  = Some (mkRurl (net_origin s h) (path_text (resolve_from [] p)) q f).
Proof.
  intros s h p q f Hh Hp Hq Hf. unfold ref_authority.
  assert (HH : forall c, lower c = false -> c <> ch "." -> ~ In c h) by (intros; apply host_no; assumption).
  assert (HT : forall c, lower c = false -> c <> ch "." -> text_char c = false -> c <> c_slash -> ~ In c (h ++ abs_text p)).
  { intros c H1 H2 H3 H4 Hi. apply in_app_or in Hi. destruct Hi as [Hi|Hi]; revert Hi; [apply HH|apply abs_no]; assumption. }
  rewrite app_assoc, cut_tail_ok; try assumption; try (apply HT; (reflexivity || discriminate)).
  unfold abs_text. change (lit "/" ++ path_text p) with (c_slash :: path_text p).
  rewrite cut_some by (apply HH; (reflexivity || discriminate)).
  replace (existsb (N.eqb (ch "[")) h) with false.
  2:{ symmetry. destruct (existsb (N.eqb (ch "[")) h) eqn:E; [|reflexivity]. apply existsb_exists in E. destruct E as [x [Hi Hx]].
      apply N.eqb_eq in Hx. subst x. exfalso. revert Hi. apply HH; (reflexivity || discriminate). }
  rewrite path_of_text, walk_plain by (try exact Hp; constructor).
  unfold ref_origin. rewrite cut_none by (apply HH; (reflexivity || discriminate)). cbn [cut].
  rewrite cut_none by (apply HH; (reflexivity || discriminate)). reflexivity.
Qed.

Lemma ref_shows : forall u o p q f, plain_origin o ->
  r_origin u = o -> r_path u = path_text p -> r_query u = q -> r_fragment u = f ->
  shows RefUrl (RAuth u) o p q f.
Proof.
  intros [o' t q0 f0] o p q f Ho E1 E3 E4 E5. cbn in E1, E3, E4, E5. subst.
  repeat (split; [reflexivity|]). cbn [ul_port RefUrl ref_origin_of r_origin]. destruct Ho as [[[_ [_ [_ Hp]]]|[_ [_ [_ [-> _]]]]]|[_ [_ [_ [-> _]]]]]; [|reflexivity..]. unfold plain_port in Hp.
  destruct (o_port o) as [t|]; [|reflexivity]. destruct Hp as [n [D _]]. exists n. split; [exact D|].
  cbn [option_map]. rewrite (decimal_digits_val _ _ D). reflexivity.
Qed.

Lemma shows_ref : forall u o p q f, shows RefUrl u o p q f -> u = RAuth (mkRurl o (path_text p) q f).
Proof.
  intros [[o' t q0 f0]|s t q0 f0|s t q0 f0] o p q f [E0 [E1 [E2 [E3 [E4 [E5 [E6 [E7 _]]]]]]]];
    cbn [ul_path ul_query ul_fragment ul_scheme ul_username ul_password ul_host RefUrl ref_path ref_query ref_fragment ref_origin_of
         r_origin r_path r_query r_fragment o_scheme o_user o_pass o_host mkOrigin] in E1, E2, E3, E4, E5, E6, E7;
    cbn [ul_to_string RefUrl ref_to_string r_origin r_path r_query r_fragment] in E0; subst q0 f0.
  - unfold abs_text in E1. cbn [lit app] in E1. injection E1 as E1. subst t.
    assert (E8 : o_host o' = o_host o) by (destruct (o_host o'), (o_host o); congruence). clear E7. rename E8 into E7.
    unfold url_text in E0.
    assert (Eo : origin_text o' = origin_text o).
    { apply (app_inv_tail (abs_text p ++ tail_text q f)). unfold abs_text at 1. rewrite <- app_assoc. exact E0. }
    unfold origin_text, login_text in Eo. rewrite E4, E5, E6, E7 in Eo. do 4 apply app_inv_head in Eo.
    unfold port_text in Eo. destruct o' as [a1 a2 a3 a4 a5], o as [b1 b2 b3 b4 b5]. cbn in *.
    destruct a5 as [x|], b5 as [y|]; try discriminate; congruence.
  - exfalso. rewrite E1 in E0. apply (f_equal (fun l => len l)) in E0. unfold opaque_url, url_text, origin_text in E0.
    rewrite !len_app in E0. rewrite E4 in E0. change (len (lit ":")) with 1 in E0. change (len (lit "://")) with 3 in E0.
    pose proof (len_nonneg _ (login_text o)). pose proof (len_nonneg _ (o_host o)). pose proof (len_nonneg _ (port_text o)). lia.
  - exfalso. rewrite E1 in E0. apply (f_equal (fun l => len l)) in E0. unfold opaque_url, url_text, origin_text in E0.
    rewrite !len_app in E0. rewrite E4 in E0. change (len (lit ":")) with 1 in E0. change (len (lit "://")) with 3 in E0.
    pose proof (len_nonneg _ (login_text o)). pose proof (len_nonneg _ (o_host o)). pose proof (len_nonneg _ (port_text o)). lia.
Qed.

Lemma lower_id : forall s, Forall (fun c => ~ (65 <= c <= 90)%N) s -> map to_lower s = s.
Proof.
  intros s H. induction H as [|c s Hc H IH]; [reflexivity|]. cbn [map]. rewrite IH. f_equal. unfold to_lower.
  destruct (N.leb_spec 65 c), (N.leb_spec c 90); cbn [andb]; unfold char in *; try reflexivity; lia.
Qed.

Lemma other_lower : forall s, other_scheme s -> map to_lower s = s.
Proof.
  intros s [[c [t [-> [Hc Ht]]]] _]. apply lower_id.
  assert (L : forall c, lower c = true -> ~ (65 <= c <= 90)%N).
  { intros d Hd. unfold lower in Hd. apply andb_true_iff in Hd. rewrite !N.leb_le in Hd. unfold char in *. lia. }
  constructor; [apply L; exact Hc|]. eapply Forall_impl; [|exact Ht]. intros d [Hd|[Hd|Hd]]; [apply L; exact Hd| |].
  - unfold char in *. lia.
  - cbn in Hd. repeat (destruct Hd as [<-|Hd]; [intros [A B]; vm_compute in A, B; try (apply A; reflexivity); apply B; reflexivity|]). destruct Hd.
Qed.

Lemma scheme_plain : forall o, plain_origin o ->
  Forall (fun c => scheme_char c = true /\ c <> ch ":") (o_scheme o) /\ map to_lower (o_scheme o) = o_scheme o.
Proof.
  intros o [[[[E|E] _]|[E _]]|[Hs _]]; try (rewrite E; split; [repeat constructor; discriminate|reflexivity]).
  split; [|apply other_lower; exact Hs].
  destruct (other_scheme_chars _ Hs) as [_ F]. eapply Forall_impl; [|exact F]. intros c Hc. split; apply Hc.
Qed.

Lemma ref_scheme_ok : forall s rest, Forall (fun c => scheme_char c = true /\ c <> ch ":") s ->
  ref_scheme (s ++ lit ":" ++ rest) = Some (map to_lower s, rest).
Proof.
  intros s rest F. unfold ref_scheme. change (lit ":" ++ rest) with (ch ":" :: rest).
  rewrite cut_some by (intros Hi; rewrite Forall_forall in F; apply (F _ Hi); reflexivity).
  replace (forallb scheme_char s) with true; [reflexivity|].
  symmetry. apply forallb_forall. intros c Hc. rewrite Forall_forall in F. apply F. exact Hc.
Qed.

Lemma plain_scheme : forall o rest, plain_origin o ->
  ref_scheme (o_scheme o ++ lit "://" ++ rest) = Some (o_scheme o, lit "//" ++ rest).
Proof.
  intros o rest Ho. destruct (scheme_plain o Ho) as [F E].
  change (lit "://" ++ rest) with (lit ":" ++ lit "//" ++ rest). rewrite ref_scheme_ok, E by exact F. reflexivity.
Qed.

Lemma url_scheme : forall o p q f, plain_origin o -> plain_path p -> plain_opt q -> plain_opt f ->
  exists rest, ref_scheme (url_text o p q f) = Some (o_scheme o, rest)
    /\ ref_after (o_scheme o) rest = Some (RAuth (mkRurl o (path_text (resolve_from [] p)) q f)).
Proof.
  intros o p q f Ho Hp Hq Hf. pose proof (authority_ok o p q f Ho Hp Hq Hf) as A.
  assert (E : url_text o p q f = o_scheme o ++ lit "://" ++ authority o ++ abs_text p ++ tail_text q f).
  { unfold url_text, origin_text, authority. rewrite <- !app_assoc. reflexivity. }
  rewrite E, plain_scheme by exact Ho. eexists. split; [reflexivity|]. unfold ref_after.
  change (is_prefix (lit "//") _) with true. cbn iota. change (skipn 2 _) with (authority o ++ abs_text p ++ tail_text q f).
  rewrite A. reflexivity.
Qed.

(** ** drives *)
Lemma on_drive_text : forall d p, path_text (on_drive d p) = d ++ lit "/" ++ path_text p.
Proof. intros d p. unfold path_text, on_drive, dirs_text. cbn [dirs file map concat]. rewrite <- !app_assoc. reflexivity. Qed.

Lemma drive_char : forall d c, drive d -> In c d -> c = ch ":" \/ name_char c = true.
Proof.
  intros d c [x [H ->]] [Hi|[Hi|[]]]; [|left; symmetry; exact Hi]. subst x. right. unfold name_char.
  rewrite <- !N.leb_le in H. destruct H as [[-> ->]|[-> ->]]; [|rewrite !orb_true_r]; reflexivity.
Qed.

Lemma drive_no : forall d p c, drive d -> plain_path p -> text_char c = false -> c <> c_slash -> c <> ch ":" ->
  ~ In c (abs_text (on_drive d p)).
Proof.
  intros d p c Hd Hp T S N Hi. unfold abs_text in Hi. rewrite on_drive_text in Hi. cbn [lit app] in Hi. destruct Hi as [Hi|Hi]; [apply S; symmetry; exact Hi|].
  apply in_app_or in Hi. destruct Hi as [Hi|[Hi|Hi]]; [|apply S; symmetry; exact Hi|revert Hi; apply path_no; assumption].
  destruct (drive_char d c Hd Hi) as [E|E]; [contradiction|]. unfold text_char, plain_char in T. rewrite E in T. discriminate T.
Qed.

Lemma drive_after : forall d p q f, drive d -> plain_path p -> plain_opt q -> plain_opt f ->
  exists rest, ref_scheme (url_text file_root (on_drive d p) q f) = Some (lit "file", rest)
    /\ ref_after (lit "file") rest = Some (RAuth (mkRurl file_root (path_text (on_drive d (resolve_from [] p))) q f)).
Proof.
  intros d p q f Hd Hp Hq Hf. exists (lit "//" ++ abs_text (on_drive d p) ++ tail_text q f). split; [reflexivity|].
  unfold ref_after. change (is_prefix (lit "//") _) with true. cbn iota. change (skipn 2 _) with (abs_text (on_drive d p) ++ tail_text q f).
  unfold ref_authority. rewrite cut_tail_ok by (try assumption; apply drive_no; try assumption; (reflexivity || discriminate)).
  unfold abs_text. change (cut c_slash (lit "/" ++ path_text (on_drive d p))) with (@nil char, Some (path_text (on_drive d p))).
  cbn [existsb]. rewrite path_of_drive, walk_drive by assumption. reflexivity.
Qed.

Lemma drive_escape : forall d p q f, drive d -> plain_path p -> plain_opt q -> plain_opt f ->
  escape (url_text file_root (on_drive d p) q f) = url_text file_root (on_drive d p) q f.
Proof.
  intros d p q f Hd Hp Hq Hf. apply escape_id. intros c Hc. unfold url_text in Hc.
  apply in_app_or in Hc. destruct Hc as [Hc|Hc]; [cbn in Hc; repeat (destruct Hc as [<-|Hc]; [reflexivity|]); destruct Hc|].
  apply in_app_or in Hc. destruct Hc as [Hc|Hc].
  - destruct (text_char c) eqn:T; [apply text_fixed; exact T|].
    destruct (N.eq_dec c c_slash) as [->|N1]; [reflexivity|]. destruct (N.eq_dec c (ch ":")) as [->|N2]; [reflexivity|].
    exfalso. revert Hc. apply drive_no; assumption.
  - destruct (tail_text_chars q f c Hq Hf Hc) as [H|[-> | ->]]; [apply text_fixed; exact H|reflexivity..].
Qed.

Lemma file_root_plain : plain_origin file_root.
Proof. left. right. split; [reflexivity|]. repeat (split; [reflexivity|]). left. reflexivity. Qed.

Lemma no_scheme : forall s, ~ In (ch ":") s -> ref_scheme s = None.
Proof. intros s H. unfold ref_scheme. rewrite cut_none by exact H. reflexivity. Qed.

Lemma tail_no_colon : forall q f, plain_opt q -> plain_opt f -> ~ In (ch ":") (tail_text q f).
Proof.
  intros q f Hq Hf Hi. apply tail_text_chars in Hi; [|assumption..]. destruct Hi as [H|[H|H]]; discriminate.
Qed.

Lemma bare_scheme : forall o q f, plain_origin o -> plain_opt q -> plain_opt f ->
  exists rest, ref_scheme (origin_text o ++ tail_text q f) = Some (o_scheme o, rest)
    /\ ref_after (o_scheme o) rest = Some (RAuth (mkRurl o [] q f)).
Proof.
  intros o q f Ho Hq Hf. assert (A : ref_authority (o_scheme o) (authority o ++ tail_text q f) = Some (mkRurl o [] q f)).
  { unfold ref_authority.
    rewrite cut_tail_ok; try assumption;
      [|apply authority_no; [exact Ho|reflexivity|discriminate|discriminate]..].
    rewrite cut_none by (apply authority_no; [exact Ho|reflexivity|discriminate|discriminate]).
    rewrite no_bracket, ref_origin_ok by exact Ho. reflexivity. }
  unfold origin_text. fold (authority o). rewrite <- !app_assoc, plain_scheme by exact Ho. eexists. split; [reflexivity|]. unfold ref_after.
  change (is_prefix (lit "//") _) with true. cbn iota. change (skipn 2 _) with (authority o ++ tail_text q f).
  rewrite A. reflexivity.
Qed.

Lemma origin_scheme : forall o, plain_origin o ->
  exists rest, ref_scheme (origin_text o) = Some (o_scheme o, rest)
    /\ ref_after (o_scheme o) rest = Some (RAuth (mkRurl o [] None None)).
Proof. intros o Ho. pose proof (bare_scheme o None None Ho I I) as H. cbn [tail_text app] in H. rewrite app_nil_r in H. exact H. Qed.

Lemma bare_escape : forall o q f, plain_origin o -> plain_opt q -> plain_opt f ->
  escape (origin_text o ++ tail_text q f) = origin_text o ++ tail_text q f.
Proof.
  intros o q f Ho Hq Hf. apply escape_id. intros c Hc. apply (reference_fixed (url_text o (mkPath [] []) q f)).
  - apply reference_url; [exact Ho|split; constructor|exact Hq|exact Hf].
  - unfold url_text. apply in_app_or in Hc. apply in_or_app. destruct Hc as [Hc|Hc]; [left; exact Hc|].
    right. apply in_or_app. right. exact Hc.
Qed.

(** ** URLs without "//" *)
Lemma any_scheme_chars : forall s, any_scheme s -> Forall (fun c => scheme_char c = true /\ c <> ch ":") s.
Proof.
  intros s H. destruct (other_scheme_chars _ H) as [_ F]. rewrite Forall_forall in F. apply Forall_forall. intros c Hc.
  destruct (F (to_lower c) (in_map _ _ _ Hc)) as [F1 [F2 [F3 _]]]. unfold to_lower in *.
  destruct (N.leb_spec 65 c), (N.leb_spec c 90); cbn [andb] in *; try (split; assumption).
  split; [|unfold ch; cbn; unfold char in *; lia]. unfold scheme_char.
  replace ((65 <=? c) && (c <=? 90))%N with true; [reflexivity|]. symmetry. apply andb_true_iff. rewrite !N.leb_le. auto.
Qed.

Lemma opaque_in : forall t c, opaque_text t \/ t = [] -> In c t -> opaque_char c = true.
Proof. intros t c [[_ [_ F]]| ->] Hi; [|contradiction]. rewrite Forall_forall in F. auto. Qed.

Lemma opaque_fixed : forall c, opaque_char c = true -> escaped_char c = false.
Proof.
  intros c H. destruct (escaped_char c) eqn:E; [|reflexivity]. exfalso. apply escaped_cases in E.
  destruct E as [->|[->|[->|[->|E]]]]; try discriminate H. unfold opaque_char in H. rewrite !andb_true_iff, !N.leb_le in H.
  unfold char in *. lia.
Qed.

Lemma scheme_fixed : forall c, scheme_char c = true -> escaped_char c = false.
Proof.
  intros c H. destruct (escaped_char c) eqn:E; [|reflexivity]. exfalso. apply escaped_cases in E. unfold scheme_char in H. unfold char in *.
  destruct E as [->|[->|[->|[->|E]]]]; try discriminate H.
  rewrite !orb_true_iff, !andb_true_iff, !N.leb_le, !N.eqb_eq in H. cbn in H. lia.
Qed.

Lemma opaque_escape : forall s t q f, any_scheme s -> (forall c, In c t -> escaped_char c = false) -> plain_opt q -> plain_opt f ->
  escape (opaque_url s t q f) = opaque_url s t q f.
Proof.
  intros s t q f Hs Ht Hq Hf. apply escape_id. intros c Hc. unfold opaque_url in Hc.
  pose proof (any_scheme_chars s Hs) as F. rewrite Forall_forall in F.
  apply in_app_or in Hc. destruct Hc as [Hc|Hc]; [apply scheme_fixed, F; exact Hc|].
  apply in_app_or in Hc. destruct Hc as [[<-|[]]|Hc]; [reflexivity|].
  apply in_app_or in Hc. destruct Hc as [Hc|Hc]; [apply Ht; exact Hc|].
  destruct (tail_text_chars q f c Hq Hf Hc) as [H|[-> | ->]]; [apply text_fixed; exact H|reflexivity..].
Qed.

Lemma opaque_after : forall s t q f, opaque_text t \/ t = [] -> plain_opt q -> plain_opt f ->
  ref_after s (t ++ tail_text q f) = Some (ROpaque s t q f).
Proof.
  intros s t q f Ht Hq Hf. unfold ref_after. assert (Hc : forall c, opaque_char c = false -> ~ In c t).
  { intros c Hc Hi. apply (opaque_in t c Ht) in Hi. congruence. }
  destruct Ht as [[Hn [Hh F]]| ->].
  2:{ rewrite cut_tail_ok by (try assumption; apply Hc; reflexivity). destruct q, f; reflexivity. }
  destruct t as [|c t]; [contradiction|]. cbn [hd] in Hh.
  rewrite cut_tail_ok by (try assumption; apply Hc; reflexivity).
  cbn [app lit is_prefix]. change (N_of_ascii "/") with (ch "/"). destruct (N.eqb_spec (ch "/") c) as [E|]; [exfalso; apply Hh; symmetry; exact E|].
  reflexivity.
Qed.

Lemma rooted_after : forall s p q f, plain_path p -> plain_opt q -> plain_opt f ->
  ref_after s (abs_text p ++ tail_text q f) = Some (RRooted s (path_text (resolve_from [] p)) q f).
Proof.
  intros s p q f Hp Hq Hf. unfold ref_after.
  assert (Pf : is_prefix (lit "//") (abs_text p ++ tail_text q f) = false).
  { destruct (is_prefix _ _) eqn:E; [|reflexivity]. apply is_prefix_iff in E. destruct E as [t E].
    unfold abs_text in E. rewrite <- app_assoc in E. cbn [lit app] in E. injection E as E.
    exfalso. apply (path_first p q f _ _ Hp E). reflexivity. }
  rewrite Pf. rewrite cut_tail_ok by (try assumption; (apply abs_no; [exact Hp|reflexivity|discriminate])).
  change (is_prefix (lit "/") (abs_text p)) with true. cbn iota. change (skipn 1 (abs_text p)) with (path_text p).
  rewrite path_of_text by exact Hp. reflexivity.
Qed.

(** ** Backslashes *)
Lemma slashed_id : forall s, ~ In 92%N s -> slashed s = s.
Proof.
  induction s as [|c s IH]; intros H; [reflexivity|]. cbn [slashed]. destruct (_ || _); [reflexivity|].
  destruct (N.eqb_spec c 92) as [->|]; [exfalso; apply H; left; reflexivity|].
  rewrite IH; [reflexivity|]. intros Hi. apply H. right. exact Hi.
Qed.

Lemma slashed_all : forall s, ~ In (ch "?") s -> ~ In (ch "#") s -> slashed s = slashes s.
Proof.
  induction s as [|c s IH]; intros H1 H2; [reflexivity|]. cbn [slashed slashes map]. fold (slashes s).
  rewrite (proj2 (N.eqb_neq c (ch "?"))) by (intros ->; apply H1; left; reflexivity).
  rewrite (proj2 (N.eqb_neq c (ch "#"))) by (intros ->; apply H2; left; reflexivity). cbn [orb].
  rewrite IH; [reflexivity| |]; intros Hi; [apply H1|apply H2]; right; exact Hi.
Qed.

Lemma ref_slashed_id : forall u s, ~ In 92%N s -> ref_slashed u s = s.
Proof.
  intros u s H. unfold ref_slashed. destruct u as [u| |]; try reflexivity. destruct (ref_scheme s); [reflexivity|].
  destruct (_ || _); [apply slashed_id; exact H|reflexivity].
Qed.

Lemma ref_slashed_scheme : forall u s x, ref_scheme s = Some x -> ref_slashed u s = s.
Proof. intros u s x H. unfold ref_slashed. destruct u; rewrite ?H; reflexivity. Qed.

Lemma slashes_in : forall s c, In c s -> c = 92%N \/ In c (slashes s).
Proof.
  intros s c H. destruct (N.eqb_spec c 92) as [|N]; [left; assumption|]. right. apply in_map_iff. exists c.
  split; [|exact H]. rewrite (proj2 (N.eqb_neq c 92)) by exact N. reflexivity.
Qed.

Lemma slashes_no : forall s, ~ In 92%N (slashes s).
Proof.
  intros s H. apply in_map_iff in H. destruct H as [c [E _]]. destruct (N.eqb_spec c 92); [discriminate E|contradiction].
Qed.

Lemma slashes_id : forall s, ~ In 92%N s -> slashes s = s.
Proof.
  induction s as [|c s IH]; intros H; [reflexivity|]. cbn [slashes map]. fold (slashes s).
  rewrite (proj2 (N.eqb_neq c 92)) by (intros ->; apply H; left; reflexivity).
  rewrite IH; [reflexivity|]. intros Hi. apply H. right. exact Hi.
Qed.

Lemma path_reference_reference : forall s, path_reference s -> reference s.
Proof.
  intros s [p Hp N|p Hp|h p Hh Hp].
  - replace (path_text p) with (path_text p ++ tail_text None None) by apply app_nil_r. apply reference_rel; try exact I; assumption.
  - replace (abs_text p) with (abs_text p ++ tail_text None None) by apply app_nil_r. apply reference_abs; try exact I; assumption.
  - apply reference_net; try exact I; assumption.
Qed.

Lemma path_reference_no : forall s c, path_reference s -> text_char c = false -> c <> c_slash -> lower c = false -> c <> ch "." -> ~ In c s.
Proof.
  intros s c [p Hp N|p Hp|h p Hh Hp] T S M D.
  - apply path_no; assumption.
  - apply abs_no; assumption.
  - unfold net_text. intros Hi. apply in_app_or in Hi. destruct Hi as [[Hi|[Hi|[]]]|Hi]; [apply S; symmetry; exact Hi..|].
    apply in_app_or in Hi. destruct Hi as [Hi|Hi]; [revert Hi; apply host_no; assumption|].
    rewrite app_nil_r in Hi. revert Hi. apply abs_no; assumption.
Qed.

Lemma reference_no_backslash : forall s, reference s -> ~ In 92%N s.
Proof.
  intros s R. assert (A : forall p, plain_path p -> ~ In 92%N (abs_text p)) by (intros p Hp; apply abs_no; [exact Hp|reflexivity|discriminate]).
  assert (T : forall q f, plain_opt q -> plain_opt f -> ~ In 92%N (tail_text q f)).
  { intros q f Hq Hf Hi. apply tail_text_chars in Hi; [|assumption..]. destruct Hi as [H|[H|H]]; discriminate. }
  destruct R as [p q f Hp Hq Hf N|p q f Hp Hq Hf|h p q f Hh Hp Hq Hf|o p q f Ho Hp Hq Hf]; intros Hi.
  - apply in_app_or in Hi. destruct Hi as [Hi|Hi]; [|exact (T q f Hq Hf Hi)].
    revert Hi. apply path_no; [exact Hp|reflexivity|discriminate].
  - apply in_app_or in Hi. destruct Hi as [Hi|Hi]; [exact (A p Hp Hi)|exact (T q f Hq Hf Hi)].
  - unfold net_text in Hi. apply in_app_or in Hi. destruct Hi as [[Hi|[Hi|[]]]|Hi]; [discriminate..|].
    apply in_app_or in Hi. destruct Hi as [Hi|Hi]; [revert Hi; apply host_no; [exact Hh|reflexivity|discriminate]|].
    apply in_app_or in Hi. destruct Hi as [Hi|Hi]; [exact (A p Hp Hi)|exact (T q f Hq Hf Hi)].
  - replace (url_text o p q f) with (o_scheme o ++ lit "://" ++ authority o ++ abs_text p ++ tail_text q f) in Hi
      by (unfold url_text, origin_text, authority; rewrite <- !app_assoc; reflexivity).
    apply in_app_or in Hi. destruct Hi as [Hi|Hi].
    + destruct (scheme_plain o Ho) as [F _]. rewrite Forall_forall in F. destruct (F _ Hi) as [E _]. discriminate.
    + apply in_app_or in Hi. destruct Hi as [[Hi|[Hi|[Hi|[]]]]|Hi]; [discriminate..|].
      apply in_app_or in Hi. destruct Hi as [Hi|Hi]; [revert Hi; apply authority_no; [exact Ho|reflexivity|discriminate|discriminate]|].
      apply in_app_or in Hi. destruct Hi as [Hi|Hi]; [exact (A p Hp Hi)|exact (T q f Hq Hf Hi)].
Qed.

Theorem RefUrl_ok : UrlContract RefUrl.
Proof.
  constructor.
  - intros o p q f Ho Hp Hq Hf. cbn [ul_parse RefUrl]. rewrite (reference_escape _ (reference_url o p q f Ho Hp Hq Hf)). unfold ref_parse.
    destruct (url_scheme o p q f Ho Hp Hq Hf) as [rest [-> ->]]. eexists. split; [reflexivity|]. apply ref_shows; try reflexivity; assumption.
  - intros o Ho%web_plain. cbn [ul_parse RefUrl]. rewrite origin_escape by exact Ho. unfold ref_parse.
    destruct (origin_scheme o Ho) as [rest [-> ->]]. eexists. split; [reflexivity|]. apply ref_shows; try reflexivity; assumption.
  - intros s H. cbn [ul_parse RefUrl]. unfold ref_parse. rewrite no_scheme; [reflexivity|]. intros Hi. apply H. revert Hi. apply outside_in. repeat split; discriminate.
  - intros u o b bq bf p q f Ho Hb S Hp Hn Hq Hf. apply shows_ref in S. subst u.
    cbn [ul_join RefUrl]. rewrite (reference_escape _ (reference_rel p q f Hp Hq Hf Hn)).
    rewrite ref_slashed_id by (apply (reference_no_backslash _ (reference_rel p q f Hp Hq Hf Hn))). unfold ref_join.
    rewrite no_scheme by (apply path_no_colon; assumption).
    pose proof (path_first p q f) as PF.
    rewrite cut_tail_ok by (try assumption; (apply path_no; [exact Hp|reflexivity|discriminate])).
    destruct (path_text p) as [|c s] eqn:E; [exfalso; apply Hn; reflexivity|].
    assert (Hc : c <> c_slash) by (apply (PF c (s ++ tail_text q f) Hp); reflexivity).
    replace (is_prefix (lit "//") ((c :: s) ++ tail_text q f)) with false.
    2:{ cbn [lit app is_prefix]. destruct (N.eqb_spec (N_of_ascii "/") c) as [<-|]; [exfalso; apply Hc|]; reflexivity. }
    cbn iota. destruct (N.eqb_spec c c_slash) as [|_]; [contradiction|]. cbn [r_path r_origin].
    rewrite <- E, !path_of_text by (try assumption; apply clean_plain; exact Hb).
    rewrite walk_plain by (try exact Hp; apply Hb).
    eexists. split; [reflexivity|]. apply ref_shows; try reflexivity; assumption.
  - intros u o b bq bf Ho Hb S. apply shows_ref in S. subst u.
    cbn [ul_join RefUrl]. rewrite ref_slashed_id by (intros []). eexists. split; [reflexivity|]. apply ref_shows; try reflexivity; assumption.
  - intros u o b bq bf p q f Ho Hb S Hp Hq Hf. apply shows_ref in S. subst u.
    cbn [ul_join RefUrl]. rewrite (reference_escape _ (reference_abs p q f Hp Hq Hf)).
    rewrite ref_slashed_id by (apply (reference_no_backslash _ (reference_abs p q f Hp Hq Hf))). unfold ref_join.
    rewrite no_scheme.
    2:{ intros Hi. apply in_app_or in Hi. destruct Hi as [Hi|Hi]; revert Hi;
        [apply abs_no; [exact Hp|reflexivity|discriminate]|apply tail_no_colon; assumption]. }
    rewrite cut_tail_ok by (try assumption; (apply abs_no; [exact Hp|reflexivity|discriminate])).
    assert (Pf : is_prefix (lit "//") (abs_text p ++ tail_text q f) = false).
    { destruct (is_prefix _ _) eqn:E; [|reflexivity]. apply is_prefix_iff in E. destruct E as [t E].
      unfold abs_text in E. rewrite <- app_assoc in E. cbn [lit app] in E. injection E as E.
      exfalso. apply (path_first p q f _ _ Hp E). reflexivity. }
    rewrite Pf. unfold abs_text. cbn [lit app]. change (N.eqb (N_of_ascii "/") c_slash) with true. cbn iota.
    rewrite path_of_text, walk_plain by (try exact Hp; constructor).
    eexists. split; [reflexivity|]. apply ref_shows; try reflexivity; assumption.
  - intros u o b bq bf o' p q f Ho Hb S Ho' Hp Hq Hf. cbn [ul_join RefUrl].
    rewrite (reference_escape _ (reference_url o' p q f Ho' Hp Hq Hf)).
    destruct (url_scheme o' p q f Ho' Hp Hq Hf) as [rest [E1 E2]]. rewrite (ref_slashed_scheme _ _ _ E1). unfold ref_join. rewrite E1, E2. eexists. split; [reflexivity|]. apply ref_shows; try reflexivity; assumption.
  - intros u o b bq bf o' q f Ho Hb S Ho' Hq Hf. cbn [ul_join RefUrl].
    rewrite bare_escape by assumption. destruct (bare_scheme o' q f Ho' Hq Hf) as [rest [E1 E2]].
    rewrite (ref_slashed_scheme _ _ _ E1). unfold ref_join. rewrite E1, E2. eexists. split; [reflexivity|].
    split; [right; reflexivity|]. cbn [ul_set_path RefUrl ref_set_path lit r_origin r_query r_fragment].
    change (N.eqb (N_of_ascii "/") c_slash) with true. cbn iota.
    apply ref_shows; try reflexivity; try assumption.
  - intros u o b bq bf h p q f Ho Hb S Hh Hp Hq Hf. apply shows_ref in S. subst u.
    cbn [ul_join RefUrl]. rewrite (reference_escape _ (reference_net h p q f Hh Hp Hq Hf)).
    rewrite ref_slashed_id by (apply (reference_no_backslash _ (reference_net h p q f Hh Hp Hq Hf))). unfold ref_join, net_text.
    rewrite no_scheme.
    2:{ intros Hi. cbn [lit app In] in Hi. destruct Hi as [Hi|[Hi|Hi]]; [discriminate..|].
        apply in_app_or in Hi. destruct Hi as [Hi|Hi]; [revert Hi; apply host_no; [exact Hh|reflexivity|discriminate]|].
        apply in_app_or in Hi. destruct Hi as [Hi|Hi]; revert Hi;
        [apply abs_no; [exact Hp|reflexivity|discriminate]|apply tail_no_colon; assumption]. }
    change (is_prefix (lit "//") _) with true. cbn iota.
    change (skipn 2 _) with (h ++ abs_text p ++ tail_text q f). cbn [r_origin].
    rewrite net_ok by assumption. assert (Hn : plain_origin (net_origin (o_scheme o) h)) by (apply net_plain; [exact Ho|exact Hh]).
    eexists. split; [reflexivity|]. apply ref_shows; try reflexivity; assumption.
  - intros u o b q f p Ho Hb S Hp. apply shows_ref in S. subst u.
    cbn [ul_set_path RefUrl]. unfold ref_set_path, abs_text. cbn [lit app].
    change (N.eqb (N_of_ascii "/") c_slash) with true. cbn iota.
    rewrite path_of_text, walk_plain by (try constructor; apply clean_plain; exact Hp). rewrite resolve_clean by exact Hp.
    apply ref_shows; try reflexivity; assumption.
  - intros u o b q f s Ho Hb S Ps Pr.
    assert (Ho' : plain_origin o) by (destruct Ho as [Ho|[Ho _]]; [apply special_plain; exact Ho|exact Ho]). clear Ho. apply shows_ref in S. subst u.
    cbn [ul_set_path RefUrl]. unfold ref_set_path.
    assert (Cs : clean_path (mkPath [] s)).
    { split; [split|split]; cbn [dirs file]; try constructor; try assumption; apply Pr. }
    assert (E : path_of s = mkPath [] s).
    { exact (path_of_text (mkPath [] s) (clean_plain _ Cs)). }
    replace (match s with [] => [] | c :: s' => if N.eqb c c_slash then s' else s end) with s.
    + rewrite E, walk_plain, resolve_clean by (try exact Cs; try apply Cs; constructor). apply ref_shows; try reflexivity; assumption.
    + destruct s as [|c s]; [reflexivity|]. destruct (N.eqb_spec c c_slash) as [->|]; [|reflexivity].
      exfalso. apply (plain_no_slash _ Ps). left. reflexivity.
  - intros u o b q f Ho Hb S. apply shows_ref in S. subst u. right. reflexivity.
  - intros s t q f Hs Ht Hq Hf. cbn [ul_parse RefUrl].
    rewrite opaque_escape by (try assumption; intros c Hc; apply opaque_fixed, (opaque_in t); assumption).
    unfold ref_parse, opaque_url. rewrite ref_scheme_ok, opaque_after by (try assumption; apply any_scheme_chars; exact Hs).
    eexists. split; [reflexivity|]. repeat split.
  - intros u o b bq bf s t q f Ho Hb S Hs Ht0 Hq Hf. pose proof (or_introl Ht0 : opaque_text t \/ t = []) as Ht. cbn [ul_join RefUrl].
    rewrite opaque_escape by (try assumption; intros c Hc; apply opaque_fixed, (opaque_in t); assumption).
    unfold opaque_url at 1. rewrite (ref_slashed_scheme _ _ _ (ref_scheme_ok s _ (any_scheme_chars s Hs))).
    unfold ref_join. rewrite ref_scheme_ok, opaque_after by (try assumption; apply any_scheme_chars; exact Hs).
    eexists. split; [reflexivity|]. repeat split.
  - intros [u|s0 t0 q0 f0|s0 t0 q0 f0] s t q f Hs Ht [S0 [S1 _]]; [|reflexivity..]. exfalso. cbn in S1. destruct Ht as [_ [Hh _]].
    subst t. apply Hh. reflexivity.
  - intros [u|s0 t0 q0 f0|s0 t0 q0 f0] s t q f t' Hs Ht [S0 [S1 [S2 S3]]] Ht'.
    1-2: (exfalso; cbn in S1; destruct Ht as [_ [Hh _]]; subst t; apply Hh; reflexivity).
    cbn in S0, S1, S2, S3. subst t0 q0 f0. unfold opaque_url in S0. apply app_inv_tail in S0. subst s0. repeat split.
  - intros u o b bq bf s p q f Ho Hb S Hs Hp Hq Hf. cbn [ul_join RefUrl].
    rewrite opaque_escape; try assumption.
    2:{ intros c Hc. apply (reference_fixed (abs_text p ++ tail_text None None)); [apply reference_abs; try exact I; exact Hp|].
        apply in_or_app. left. exact Hc. }
    unfold opaque_url at 1. rewrite (ref_slashed_scheme _ _ _ (ref_scheme_ok s _ (any_scheme_chars s Hs))).
    unfold ref_join. rewrite ref_scheme_ok, rooted_after by (try assumption; apply any_scheme_chars; exact Hs).
    eexists. split; reflexivity.
  - intros s _ _. cbn [ul_parse RefUrl]. rewrite escape_idem. reflexivity.
  - intros u o b bq bf s _ _ _ _ _. cbn [ul_join RefUrl]. rewrite escape_idem. reflexivity.
  - intros d p q f Hd Hp Hq Hf. cbn [ul_parse RefUrl]. rewrite drive_escape by assumption. unfold ref_parse.
    destruct (drive_after d p q f Hd Hp Hq Hf) as [rest [-> ->]]. eexists. split; [reflexivity|].
    apply ref_shows; try reflexivity. apply file_root_plain.
  - intros u o b bq bf d p q f Ho Hb S Hd Hp Hq Hf. cbn [ul_join RefUrl]. rewrite drive_escape by assumption.
    destruct (drive_after d p q f Hd Hp Hq Hf) as [rest [E1 E2]]. rewrite (ref_slashed_scheme _ _ _ E1). unfold ref_join.
    rewrite E1, E2. eexists. split; [reflexivity|]. apply ref_shows; try reflexivity. apply file_root_plain.
  - intros u d b bq bf p q f Hd Hb S Hp Hn Hq Hf. apply shows_ref in S. subst u.
    cbn [ul_join RefUrl]. rewrite (reference_escape _ (reference_rel p q f Hp Hq Hf Hn)).
    rewrite ref_slashed_id by (apply (reference_no_backslash _ (reference_rel p q f Hp Hq Hf Hn))). unfold ref_join.
    rewrite no_scheme by (apply path_no_colon; assumption).
    pose proof (path_first p q f) as PF.
    rewrite cut_tail_ok by (try assumption; (apply path_no; [exact Hp|reflexivity|discriminate])).
    destruct (path_text p) as [|c s] eqn:E; [exfalso; apply Hn; reflexivity|].
    assert (Hc : c <> c_slash) by (apply (PF c (s ++ tail_text q f) Hp); reflexivity).
    replace (is_prefix (lit "//") ((c :: s) ++ tail_text q f)) with false.
    2:{ cbn [lit app is_prefix]. destruct (N.eqb_spec (N_of_ascii "/") c) as [<-|]; [exfalso; apply Hc|]; reflexivity. }
    cbn iota. destruct (N.eqb_spec c c_slash) as [|_]; [contradiction|]. cbn [r_path r_origin].
    rewrite <- E, path_of_drive, path_of_text by (try assumption; apply clean_plain; exact Hb).
    change (o_scheme file_root) with (lit "file"). change (dirs (on_drive d b)) with (d :: dirs b). rewrite walk_drive_rel by exact Hd.
    eexists. split; [reflexivity|]. apply ref_shows; try reflexivity. apply file_root_plain.
  - intros u d b q f p Hd Hb S Hp. apply shows_ref in S. subst u.
    cbn [ul_set_path RefUrl]. unfold ref_set_path, abs_text. cbn [lit app].
    change (N.eqb (N_of_ascii "/") c_slash) with true. cbn iota. cbn [r_origin].
    rewrite path_of_drive by (try exact Hd; apply clean_plain; exact Hp). change (o_scheme file_root) with (lit "file").
    rewrite walk_drive, resolve_clean by assumption. apply ref_shows; try reflexivity. apply file_root_plain.
  - intros u o b bq bf s Ho Hb S R. apply shows_ref in S. subst u. cbn [ul_join RefUrl].
    assert (N : forall c, c <> 92%N -> text_char c = false -> c <> c_slash -> lower c = false -> c <> ch "." -> ~ In c s).
    { intros c N1 N2 N3 N4 N5 Hi. apply slashes_in in Hi. destruct Hi as [|Hi]; [contradiction|]. revert Hi.
      apply path_reference_no; assumption. }
    rewrite (reference_escape _ (path_reference_reference _ R)), (ref_slashed_id _ (slashes s)) by apply slashes_no.
    rewrite (escape_id s).
    2:{ intros c Hc. apply slashes_in in Hc. destruct Hc as [->|Hc]; [reflexivity|]. revert Hc.
        apply reference_fixed. apply path_reference_reference. exact R. }
    f_equal. unfold ref_slashed. rewrite no_scheme by (apply N; (discriminate || reflexivity)). cbn [r_origin].
    destruct Ho as [[-> | ->] _]; cbn [orb str_eqb]; apply slashed_all; apply N; (discriminate || reflexivity).
Qed.
