(** * Specification for the URL functions of src/util.rs

    Plain paths and URLs, their resolution (RFC 3986, 5.2.4, on segment lists),
    and what is assumed of the [url] crate on them. *)
From Verif Require Import Base M_Util.

(** ** Texts *)

Definition substring (sub s : str) : Prop := exists a b, s = a ++ sub ++ b.

(** decimal numeral without superfluous zeros *)
Inductive decimal : str -> Z -> Prop :=
| dec_digit : forall d, 0 <= d <= 9 -> decimal [(48 + Z.to_N d)%N] d
| dec_more : forall t n d, decimal t n -> 0 < n -> 0 <= d <= 9 ->
    decimal (t ++ [(48 + Z.to_N d)%N]) (10 * n + d).

(** [parts] with ".." between them *)
Fixpoint dotted (parts : list str) : str :=
  match parts with
  | [] => []
  | [p] => p
  | p :: r => p ++ lit ".." ++ dotted r
  end.

(** the largest number of disjoint ".." in [s] *)
Definition max_dotdots (s : str) (n : nat) : Prop :=
  (exists parts, List.length parts = S n /\ dotted parts = s)
  /\ (forall parts, parts <> [] -> dotted parts = s -> (List.length parts <= S n)%nat).

(** ** Plain paths: directories and a file name, which may be empty *)

(** Letters, digits and "-_~." *)
Definition name_char (c : char) : bool :=
  ((65 <=? c) && (c <=? 90))%N || ((97 <=? c) && (c <=? 122))%N || ((48 <=? c) && (c <=? 57))%N
  || N.eqb c (ch "-") || N.eqb c (ch "_") || N.eqb c (ch "~") || N.eqb c (ch ".").
(** Characters that the parser gives no meaning to and does not escape in paths,
    queries and fragments. *)
Definition plain_char (c : char) : bool :=
  name_char c || existsb (N.eqb c) (lit "@+=!$&()*,;").

Definition hex_char (c : char) : bool :=
  ((48 <=? c) && (c <=? 57))%N || ((65 <=? c) && (c <=? 70))%N || ((97 <=? c) && (c <=? 102))%N.
(** Such characters and escapes like "%20", but no escaped dot, which the parser
    takes for a dot in dot segments. *)
Inductive plain : str -> Prop :=
| plain_nil : plain []
| plain_cons : forall c s, plain_char c = true -> plain s -> plain (c :: s)
| plain_escape : forall a b s, hex_char a = true -> hex_char b = true ->
    ~ (a = ch "2" /\ (b = ch "E" \/ b = ch "e")) -> plain s -> plain (ch "%" :: a :: b :: s).
Definition plain_seg (s : str) : Prop := s <> [] /\ plain s.

Definition dot : str := lit ".".
Definition dotdot : str := lit "..".

(** neither "." nor ".." *)
Definition proper (s : str) : Prop := s <> dot /\ s <> dotdot.

(** "a/b/" *)
Definition dirs_text (dirs : list str) : str := concat (map (fun d => d ++ lit "/") dirs).

(** A path: "a/b/f", the segments may be dots. *)
Record path := mkPath { dirs : list str; file : str }.

Definition path_text (p : path) : str := dirs_text (dirs p) ++ file p.

Definition plain_path (p : path) : Prop := Forall plain_seg (dirs p) /\ plain (file p).
(** without dot segments *)
Definition clean_path (p : path) : Prop :=
  plain_path p /\ Forall proper (dirs p) /\ proper (file p).

Definition is_dot (s : str) : bool := str_eqb s dot.
Definition is_dotdot (s : str) : bool := str_eqb s dotdot.

(** Walking down from the directory [at_] (a list of names from the root),
    [".."] at the root stays there. *)
Definition up (at_ : list str) : list str := removelast at_.
Definition move (at_ : list str) (s : str) : list str :=
  if is_dot s then at_ else if is_dotdot s then up at_ else at_ ++ [s].

(** The path [p] seen from the directory [at_]. *)
Definition resolve_from (at_ : list str) (p : path) : path :=
  let d := fold_left move (dirs p) at_ in
  if is_dot (file p) || is_dotdot (file p) then mkPath (move d (file p)) []
  else mkPath d (file p).

(** Walking in a relative path: some levels up, then down. *)
Record rel := mkRel { ups : nat; downs : list str }.
Definition rel_move (r : rel) (s : str) : rel :=
  if is_dot s then r
  else if is_dotdot s then
    match downs r with
    | [] => mkRel (S (ups r)) []
    | d => mkRel (ups r) (removelast d)
    end
  else mkRel (ups r) (downs r ++ [s]).

Definition rel_path (r : rel) (f : str) : path := mkPath (repeat dotdot (ups r) ++ downs r) f.

(** The normal form of a relative path: all ".." in front, no ".". *)
Definition normal (p : path) : path :=
  let r := fold_left rel_move (dirs p) (mkRel 0 []) in
  if is_dot (file p) || is_dotdot (file p) then rel_path (rel_move r (file p)) []
  else rel_path r (file p).

(** In normal form: first "..", then names, then a name that may be empty. *)
Definition in_normal_form (p : path) : Prop :=
  (exists n ds, dirs p = repeat dotdot n ++ ds /\ Forall proper ds) /\ proper (file p).

(** Leading from every directory to the same place. *)
Definition same_place (p p' : path) : Prop := forall at_, resolve_from at_ p = resolve_from at_ p'.

(** [a] as a directory, then [b]: "a/" followed by [b]. *)
Definition as_dirs (p : path) : list str := dirs p ++ match file p with [] => [] | f => [f] end.
Definition below (a b : path) : path := mkPath (as_dirs a ++ dirs b) (file b).

(** [b] below an optional directory *)
Definition in_root (r : option path) (p : path) : path := match r with Some r => below r p | None => p end.

(** ** Plain URLs *)

(** scheme, login, host and port *)
Record origin := mkLogin { o_scheme : str; o_user : str; o_pass : option str; o_host : str; o_port : option str }.
Definition mkOrigin (scheme host : str) : origin := mkLogin scheme [] None host None.

(** of "//host" below a scheme; "localhost" is no host in a file URL *)
Definition net_origin (scheme host : str) : origin :=
  mkOrigin scheme (if str_eqb scheme (lit "file") && str_eqb host (lit "localhost") then [] else host).

Definition login_text (o : origin) : str :=
  match o_user o with
  | [] => []
  | user => user ++ match o_pass o with Some p => lit ":" ++ p | None => [] end ++ lit "@"
  end.
Definition port_text (o : origin) : str := match o_port o with Some t => lit ":" ++ t | None => [] end.
Definition origin_text (o : origin) : str := o_scheme o ++ lit "://" ++ login_text o ++ o_host o ++ port_text o.

Definition lower (c : char) : bool := ((97 <=? c) && (c <=? 122))%N.
(** lower case letters with dots between *)
Definition plain_host (h : str) : Prop :=
  exists labels, labels <> []
     /\ Forall (fun l => l <> [] /\ Forall (fun c => lower c = true) l) labels
     /\ h = concat (map (fun l => l ++ lit ".") (removelast labels)) ++ last labels [].
(** a password only with a user, neither of them empty *)
Definition plain_login (o : origin) : Prop :=
  let name s := Forall (fun c => name_char c = true) s in
  name (o_user o) /\ match o_pass o with Some p => o_user o <> [] /\ p <> [] /\ name p | None => True end.
(** a port that is not the one of the scheme *)
Definition plain_port (o : origin) : Prop :=
  match o_port o with
  | Some t => exists n, decimal t n /\ 1 <= n <= 65535
                 /\ (o_scheme o = lit "http" -> n <> 80) /\ (o_scheme o = lit "https" -> n <> 443)
  | None => True
  end.
(** http(s) with plain login, host and port *)
Definition web_origin (o : origin) : Prop :=
  (o_scheme o = lit "http" \/ o_scheme o = lit "https") /\ plain_host (o_host o) /\ plain_login o /\ plain_port o.
(** A scheme without special rules *)
Definition other_scheme (s : str) : Prop :=
  (exists c t, s = c :: t /\ lower c = true
     /\ Forall (fun c => lower c = true \/ (48 <= c <= 57)%N \/ In c (lit "+-.")) t)
  /\ ~ In s [lit "http"; lit "https"; lit "ws"; lit "wss"; lit "ftp"; lit "file"].
(** "file://" with a host that is not "localhost", or none *)
Definition file_host (h : str) : Prop := h = [] \/ (plain_host h /\ h <> lit "localhost").
Definition file_origin (o : origin) : Prop :=
  o_scheme o = lit "file" /\ o_user o = [] /\ o_pass o = None /\ o_port o = None /\ file_host (o_host o).
(** the schemes with special rules *)
Definition special_origin (o : origin) : Prop := web_origin o \/ file_origin o.
(** ... or another scheme with a name for a host, or none, like "webpack://app" and "webpack://" *)
Definition plain_origin (o : origin) : Prop :=
  special_origin o
  \/ (other_scheme (o_scheme o) /\ o_user o = [] /\ o_pass o = None /\ o_port o = None
      /\ Forall (fun c => name_char c = true) (o_host o)).

(** ** URLs without "//" *)

Definition to_lower (c : char) : char := (if (65 <=? c) && (c <=? 90) then c + 32 else c)%N.
(** A scheme without special rules in any case *)
Definition any_scheme (s : str) : Prop := other_scheme (map to_lower s).
(** Characters kept as they are after "scheme:" *)
Definition opaque_char (c : char) : bool :=
  ((33 <=? c) && (c <=? 126))%N && negb (existsb (N.eqb c) (lit "?#<>")) && negb (N.eqb c 34).
(** What follows such a scheme, as in "node:fs" or "data:text/plain,a" *)
Definition opaque_text (t : str) : Prop :=
  t <> [] /\ hd 0%N t <> ch "/" /\ Forall (fun c => opaque_char c = true) t.

(** the origin of the internal base URLs *)
Definition host_origin : origin := mkOrigin (lit "http") (lit "host").

Definition tail_text (q f : option str) : str :=
  match q with Some q => lit "?" ++ q | None => [] end
  ++ match f with Some f => lit "#" ++ f | None => [] end.
(** the text of a query or fragment without its marker *)
Definition glue (o : option str) : str := match o with Some s => s | None => [] end.
Definition plain_opt (o : option str) : Prop := match o with Some s => plain s | None => True end.

Definition abs_text (p : path) : str := lit "/" ++ path_text p.
Definition url_text (o : origin) (p : path) (q f : option str) : str :=
  origin_text o ++ abs_text p ++ tail_text q f.
(** without the scheme: "//host/a/b" *)
Definition net_text (h : str) (p : path) (q f : option str) : str :=
  lit "//" ++ h ++ abs_text p ++ tail_text q f.

(** A root that is a plain relative path, path or URL, long enough to be
    classified and short enough for the search of the internal segment. *)
Inductive plain_root : str -> Prop :=
| pr_rel : forall r, plain_path r -> 2 <= len (path_text r) <= 2147483645 -> plain_root (path_text r)
| pr_abs : forall r q f, plain_path r -> plain_opt q -> plain_opt f ->
    1 <= len (path_text r ++ tail_text q f) -> len (abs_text r ++ tail_text q f) <= 2147483645 ->
    plain_root (abs_text r ++ tail_text q f)
| pr_url : forall o r q f, plain_origin o -> plain_path r -> plain_opt q -> plain_opt f ->
    len (url_text o r q f) <= 2147483645 -> plain_root (url_text o r q f).

(** "scheme:text?q#f" *)
Definition opaque_url (s t : str) (q f : option str) : str := s ++ lit ":" ++ t ++ tail_text q f.

(** Files on a drive: "file:///C:/src/a.js" *)
Definition file_root : origin := mkOrigin (lit "file") [].
Definition drive (d : str) : Prop := exists c, ((65 <= c <= 90) \/ (97 <= c <= 122))%N /\ d = [c; ch ":"].
Definition on_drive (d : str) (p : path) : path := mkPath (d :: dirs p) (file p).

(** The directory of the map URL as the code makes it: without slashes, C36 *)
Definition map_dir (m : path) : path := mkPath [] (concat (dirs m)).
(** The URL of the relative path [p] under the map URL with origin [o] and path [m] *)
Definition under_map (o : origin) (m p : path) : str :=
  url_text o (resolve_from [] (below (map_dir m) p)) None None.

(** ** Escapes *)

(** UTF-8 *)
Definition utf8 (c : char) : list N :=
  (if c <? 128 then [c]
   else if c <? 2048 then [192 + c / 64; 128 + c mod 64]
   else if c <? 65536 then [224 + c / 4096; 128 + c / 64 mod 64; 128 + c mod 64]
   else [240 + c / 262144; 128 + c / 4096 mod 64; 128 + c / 64 mod 64; 128 + c mod 64])%N.
(** "%" and two hexadecimal digits *)
Definition hex_digit (n : N) : char := (if n <? 10 then 48 + n else 55 + n)%N.
Definition percent (byte : N) : str := [ch "%"; hex_digit (byte / 16); hex_digit (byte mod 16)].

(** Space, quote, angle brackets and everything beyond ASCII: what is escaped in
    paths, queries and fragments alike. *)
Definition escaped_char (c : char) : bool :=
  existsb (N.eqb c) [32; 34; 60; 62]%N
  || ((128 <=? c) && (c <=? 55295))%N || ((57344 <=? c) && (c <=? 1114111))%N.
Definition escape (s : str) : str :=
  concat (map (fun c => if escaped_char c then concat (map percent (utf8 c)) else [c]) s).

(** spaces at the ends are cut off by the parser *)
Definition no_outer_space (s : str) : Prop := hd 0%N s <> 32%N /\ last s 0%N <> 32%N.

(** The texts of plain references *)
Inductive reference : str -> Prop :=
| reference_rel : forall p q f, plain_path p -> plain_opt q -> plain_opt f -> path_text p <> [] ->
    reference (path_text p ++ tail_text q f)
| reference_abs : forall p q f, plain_path p -> plain_opt q -> plain_opt f ->
    reference (abs_text p ++ tail_text q f)
| reference_net : forall h p q f, plain_host h -> plain_path p -> plain_opt q -> plain_opt f ->
    reference (net_text h p q f)
| reference_url : forall o p q f, plain_origin o -> plain_path p -> plain_opt q -> plain_opt f ->
    reference (url_text o p q f).

(** ** Backslashes *)

(** with slashes for backslashes *)
Definition slashes (s : str) : str := map (fun c => if N.eqb c 92 then ch "/" else c) s.

(** Plain references without scheme, query and fragment *)
Inductive path_reference : str -> Prop :=
| path_reference_rel : forall p, plain_path p -> path_text p <> [] -> path_reference (path_text p)
| path_reference_abs : forall p, plain_path p -> path_reference (abs_text p)
| path_reference_net : forall h p, plain_host h -> plain_path p -> path_reference (net_text h p None None).

(** ** What is assumed of the [url] crate *)

(** The observable parts of [u] are those of this URL. *)
Definition shows (U : UrlLib) (u : ul_t U) (o : origin) (p : path) (q f : option str) : Prop :=
  ul_to_string U u = url_text o p q f
  /\ ul_path U u = abs_text p
  /\ ul_query U u = q
  /\ ul_fragment U u = f
  /\ ul_scheme U u = o_scheme o
  /\ ul_username U u = o_user o
  /\ ul_password U u = o_pass o
  /\ ul_host U u = match o_host o with [] => None | h => Some h end
  /\ match o_port o with
     | Some t => exists n, decimal t n /\ ul_port U u = Some n
     | None => ul_port U u = None
     end.

(** ... that it is "scheme:text?q#f" *)
Definition shows_opaque (U : UrlLib) (u : ul_t U) (s t : str) (q f : option str) : Prop :=
  ul_to_string U u = opaque_url s t q f
  /\ ul_path U u = t
  /\ ul_query U u = q
  /\ ul_fragment U u = f.

Record UrlContract (U : UrlLib) : Prop := mkUrlContract {
  (** an absolute plain URL is parsed and its dot segments are removed *)
  uc_parse : forall o p q f, plain_origin o -> plain_path p -> plain_opt q -> plain_opt f ->
    exists u, ul_parse U (url_text o p q f) = Some u /\ shows U u o (resolve_from [] p) q f;
  (** without a path it is the root *)
  uc_parse_root : forall o, web_origin o ->
    exists u, ul_parse U (origin_text o) = Some u /\ shows U u o (mkPath [] []) None None;
  (** a text without ':' is not an absolute URL *)
  uc_parse_fail : forall s, ~ In (ch ":") s -> ul_parse U s = None;
  (** a relative reference is resolved in the directory of the base *)
  uc_join_rel : forall u o b bq bf p q f,
    plain_origin o -> clean_path b -> shows U u o b bq bf ->
    plain_path p -> path_text p <> [] -> plain_opt q -> plain_opt f ->
    exists u', ul_join U u (path_text p ++ tail_text q f) = Some u'
      /\ shows U u' o (resolve_from (dirs b) p) q f;
  (** the empty reference is the base without its fragment *)
  uc_join_empty : forall u o b bq bf,
    plain_origin o -> clean_path b -> shows U u o b bq bf ->
    exists u', ul_join U u [] = Some u' /\ shows U u' o b bq None;
  (** a reference starting with one '/' is resolved from the root *)
  uc_join_abs : forall u o b bq bf p q f,
    plain_origin o -> clean_path b -> shows U u o b bq bf ->
    plain_path p -> plain_opt q -> plain_opt f ->
    exists u', ul_join U u (abs_text p ++ tail_text q f) = Some u'
      /\ shows U u' o (resolve_from [] p) q f;
  (** an absolute reference replaces the base *)
  uc_join_url : forall u o b bq bf o' p q f,
    plain_origin o -> clean_path b -> shows U u o b bq bf ->
    plain_origin o' -> plain_path p -> plain_opt q -> plain_opt f ->
    exists u', ul_join U u (url_text o' p q f) = Some u'
      /\ shows U u' o' (resolve_from [] p) q f;
  (** without a path it has none or the root, and can be given the root *)
  uc_join_bare : forall u o b bq bf o' q f,
    plain_origin o -> clean_path b -> shows U u o b bq bf -> plain_origin o' -> plain_opt q -> plain_opt f ->
    exists u', ul_join U u (origin_text o' ++ tail_text q f) = Some u'
      /\ (ul_path U u' = [] \/ ul_path U u' = lit "/")
      /\ shows U (ul_set_path U u' (lit "/")) o' (mkPath [] []) q f;
  (** "//host/..." replaces all but the scheme *)
  uc_join_net : forall u o b bq bf h p q f,
    plain_origin o -> clean_path b -> shows U u o b bq bf ->
    plain_host h -> plain_path p -> plain_opt q -> plain_opt f ->
    exists u', ul_join U u (net_text h p q f) = Some u'
      /\ shows U u' (net_origin (o_scheme o) h) (resolve_from [] p) q f;
  (** set_path; a missing '/' in front is supplied *)
  uc_set_path : forall u o b q f p,
    plain_origin o -> clean_path b -> shows U u o b q f -> clean_path p ->
    shows U (ul_set_path U u (abs_text p)) o p q f;
  uc_set_path_rel : forall u o b q f s,
    special_origin o \/ (plain_origin o /\ s <> []) -> clean_path b -> shows U u o b q f -> plain s -> proper s ->
    shows U (ul_set_path U u s) o (mkPath [] s) q f;
  (** the empty path is the root or none *)
  uc_set_path_none : forall u o b q f,
    plain_origin o -> clean_path b -> shows U u o b q f ->
    ul_to_string U (ul_set_path U u []) = origin_text o ++ tail_text q f
    \/ ul_to_string U (ul_set_path U u []) = url_text o (mkPath [] []) q f;
  (** "scheme:text" is kept but for the case of the scheme, has the text for a
      path (possibly empty), and nothing can be joined to it *)
  uc_parse_opaque : forall s t q f, any_scheme s -> opaque_text t \/ t = [] -> plain_opt q -> plain_opt f ->
    exists u, ul_parse U (opaque_url s t q f) = Some u /\ shows_opaque U u (map to_lower s) t q f;
  uc_join_opaque : forall u o b bq bf s t q f,
    plain_origin o -> clean_path b -> shows U u o b bq bf ->
    any_scheme s -> opaque_text t -> plain_opt q -> plain_opt f ->
    exists u', ul_join U u (opaque_url s t q f) = Some u' /\ shows_opaque U u' (map to_lower s) t q f;
  uc_join_empty_opaque : forall u s t q f,
    other_scheme s -> opaque_text t -> shows_opaque U u s t q f -> ul_join U u [] = None;
  (** another such text, or none, can be put in its place *)
  uc_set_path_opaque : forall u s t q f t',
    other_scheme s -> opaque_text t -> shows_opaque U u s t q f -> opaque_text t' \/ t' = [] ->
    shows_opaque U (ul_set_path U u t') s t' q f;
  (** "scheme:/path" has the scheme in lower case and its dot segments removed *)
  uc_join_rooted : forall u o b bq bf s p q f,
    plain_origin o -> clean_path b -> shows U u o b bq bf ->
    any_scheme s -> plain_path p -> plain_opt q -> plain_opt f ->
    exists u', ul_join U u (opaque_url s (abs_text p) q f) = Some u'
      /\ ul_to_string U u' = opaque_url (map to_lower s) (abs_text (resolve_from [] p)) q f;
  (** escaping a reference beforehand makes no difference *)
  uc_parse_escape : forall s, reference (escape s) -> no_outer_space s ->
    ul_parse U s = ul_parse U (escape s);
  uc_join_escape : forall u o b bq bf s,
    plain_origin o -> clean_path b -> shows U u o b bq bf -> reference (escape s) -> no_outer_space s ->
    ul_join U u s = ul_join U u (escape s);
  (** the root of a drive is not left *)
  uc_parse_drive : forall d p q f, drive d -> plain_path p -> plain_opt q -> plain_opt f ->
    exists u, ul_parse U (url_text file_root (on_drive d p) q f) = Some u
      /\ shows U u file_root (on_drive d (resolve_from [] p)) q f;
  uc_join_drive : forall u o b bq bf d p q f,
    plain_origin o -> clean_path b -> shows U u o b bq bf ->
    drive d -> plain_path p -> plain_opt q -> plain_opt f ->
    exists u', ul_join U u (url_text file_root (on_drive d p) q f) = Some u'
      /\ shows U u' file_root (on_drive d (resolve_from [] p)) q f;
  uc_join_drive_rel : forall u d b bq bf p q f,
    drive d -> clean_path b -> shows U u file_root (on_drive d b) bq bf ->
    plain_path p -> path_text p <> [] -> plain_opt q -> plain_opt f ->
    exists u', ul_join U u (path_text p ++ tail_text q f) = Some u'
      /\ shows U u' file_root (on_drive d (resolve_from (dirs b) p)) q f;
  uc_set_path_drive : forall u d b q f p,
    drive d -> clean_path b -> shows U u file_root (on_drive d b) q f -> clean_path p ->
    shows U (ul_set_path U u (abs_text (on_drive d p))) file_root (on_drive d p) q f;
  (** below http and https backslashes are slashes *)
  uc_join_slashes : forall u o b bq bf s,
    web_origin o -> clean_path b -> shows U u o b bq bf -> path_reference (slashes s) ->
    ul_join U u s = ul_join U u (slashes s)
}.
