(** * Model of the URL part of src/util.rs

    The [url] crate (2.2.2) is not part of /repo.  It enters as a record of
    operations [UrlLib]; what is assumed of it is stated in S_Url.v and
    appears as a hypothesis of the theorems that need it. *)
From Verif Require Import Base.
From Coq Require Import DecimalString DecimalN.

(** ** The [url] crate *)

(** The operations of [url::Url] used by src/util.rs.  [ul_parse] and [ul_join]
    return [None] for [Err]. *)
Record UrlLib := mkUrlLib {
  ul_t : Type;
  ul_parse : str -> option ul_t;             (* Url::parse *)
  ul_join : ul_t -> str -> option ul_t;      (* Url::join *)
  ul_path : ul_t -> str;                     (* Url::path *)
  ul_set_path : ul_t -> str -> ul_t;         (* Url::set_path *)
  ul_query : ul_t -> option str;             (* Url::query *)
  ul_fragment : ul_t -> option str;          (* Url::fragment *)
  ul_scheme : ul_t -> str;                   (* Url::scheme *)
  ul_username : ul_t -> str;                 (* Url::username *)
  ul_password : ul_t -> option str;          (* Url::password *)
  ul_host : ul_t -> option str;              (* Url::host *)
  ul_port : ul_t -> option Z;                (* Url::port *)
  ul_to_string : ul_t -> str                 (* Url::to_string / as_str *)
}.

(** [Result::unwrap] for the two fallible operations. *)
Definition unwrap_ok {A} (o : option A) : res A :=
  match o with Some a => Ok a | None => Panic PUnwrapErr end.

(** ** [str] functions of std *)

Definition c_slash : char := ch "/".
Definition c_colon : char := ch ":".
Definition c_dot : char := ch ".".

(** [s.split(c)] for a char *)
Fixpoint split_char (c : char) (s : str) : list str :=
  match s with
  | [] => [[]]
  | x :: s' =>
      if N.eqb x c then [] :: split_char c s'
      else match split_char c s' with
           | w :: ws => (x :: w) :: ws
           | [] => [[x]]
           end
  end.

(** [parts.join(sep)] *)
Fixpoint join_str (sep : str) (parts : list str) : str :=
  match parts with
  | [] => []
  | [w] => w
  | w :: ws => w ++ sep ++ join_str sep ws
  end.

Fixpoint is_prefix (p s : str) : bool :=
  match p, s with
  | [], _ => true
  | x :: p', y :: s' => N.eqb x y && is_prefix p' s'
  | _ :: _, [] => false
  end.

(** [s.contains(sub)] *)
Fixpoint contains (s sub : str) : bool :=
  is_prefix sub s || match s with [] => false | _ :: s' => contains s' sub end.

(** [s.split("..").count() - 1]: number of non-overlapping ".." from the left *)
Fixpoint count_dotdot (s : str) : nat :=
  match s with
  | x :: ((y :: s'') as s') =>
      if N.eqb x c_dot && N.eqb y c_dot then S (count_dotdot s'') else count_dotdot s'
  | _ => O
  end.

(** [s.replacen("/", "", 1)] *)
Fixpoint remove_first_slash (s : str) : str :=
  match s with
  | [] => []
  | x :: s' => if N.eqb x c_slash then s' else x :: remove_first_slash s'
  end.

(** [format!("{}", n)] for a non-negative integer *)
Definition dec_str (n : N) : str := lit (NilZero.string_of_uint (N.to_uint n)).

(** ** src/util.rs *)

(** src/util.rs:64 *)
Definition PROTOCOL : str := lit "http:".
(** src/util.rs:68 *)
Definition PROTOCOL_AND_HOST : str := PROTOCOL ++ lit "//host".

(** src/util.rs:72-77, enum UrlType *)
Inductive UrlType := Absolute | PathAbsolute | PathRelative | SchemeRelative.

Definition url_type_eqb (a b : UrlType) : bool :=
  match a, b with
  | Absolute, Absolute | PathAbsolute, PathAbsolute
  | PathRelative, PathRelative | SchemeRelative, SchemeRelative => true
  | _, _ => false
  end.

(** The character class [A-Za-z0-9\+\-\.] of src/util.rs:65 *)
Definition scheme_char (c : char) : bool :=
  ((65 <=? c) && (c <=? 90))%N || ((97 <=? c) && (c <=? 122))%N ||
  ((48 <=? c) && (c <=? 57))%N ||
  N.eqb c (ch "+") || N.eqb c (ch "-") || N.eqb c (ch ".").

(** The tail of the regular expression after at least one class character:
    more class characters, then ":/".  The class has no ':'. *)
Fixpoint scheme_tail (s : str) : bool :=
  match s with
  | c :: s' =>
      if scheme_char c then scheme_tail s'
      else N.eqb c c_colon && match s' with d :: _ => N.eqb d c_slash | [] => false end
  | [] => false
  end.

(** src/util.rs:65,67: is_match of ^[A-Za-z0-9\+\-\.]+:/ *)
Definition absolute_scheme_match (s : str) : bool :=
  match s with c :: s' => scheme_char c && scheme_tail s' | [] => false end.

(** src/util.rs:79-94, get_url_type *)
Definition get_url_type (input : str) : res UrlType :=
  match input with
  | [] => Panic PUnwrapNone
  | [_] => Panic PUnwrapNone
  | first :: second :: _ =>
      if N.eqb first c_slash
      then Ok (if N.eqb second c_slash then SchemeRelative else PathAbsolute)
      else Ok (if absolute_scheme_match input then Absolute else PathRelative)
  end.

(** src/util.rs:98-104, the loop of build_unique_segment *)
Fixpoint unique_segment_loop (md : mode) (fuel : nat) (prefix input : str) (id : Z) : res str :=
  match fuel with
  | O => Panic PFuel
  | S fuel' =>
      let ident := prefix ++ dec_str (Z.to_N id) in
      let* id := i32_add md id 1 in
      if negb (contains input ident) then Ok ident
      else unique_segment_loop md fuel' prefix input id
  end.

(** src/util.rs:96-105, build_unique_segment *)
Definition build_unique_segment (md : mode) (prefix input : str) : res str :=
  unique_segment_loop md (S (S (List.length input))) prefix input 0.

(** src/util.rs:107-131, build_safe_base *)
Definition build_safe_base (md : mode) (input : str) : res str :=
  let max_dot_parts := count_dotdot input in
  let* segment := build_unique_segment md (lit "p") input in
  Ok (PROTOCOL_AND_HOST ++ lit "/" ++ concat (repeat (segment ++ lit "/") max_dot_parts)).

(** src/util.rs:144-150: pop equal fronts *)
Fixpoint strip_common (target_parts root_parts : list str) : list str * list str :=
  match target_parts, root_parts with
  | t :: ts, r :: rs =>
      if str_eqb t r then strip_common ts rs else (target_parts, root_parts)
  | _, _ => (target_parts, root_parts)
  end.

(** src/util.rs:140-142: drop an empty last part *)
Definition pop_empty_back (parts : list str) : list str :=
  match rev parts with
  | [] :: r => rev r
  | _ => parts
  end.

(** src/util.rs:133-167, compute_relative_url, after the two parses *)
Definition relative_path_of (U : UrlLib) (root_url target_url : ul_t U) : str :=
  let target_parts := split_char c_slash (ul_path U target_url) in
  let root_parts := pop_empty_back (split_char c_slash (ul_path U root_url)) in
  let '(target_parts, root_parts) := strip_common target_parts root_parts in
  let relative_path :=
    join_str (lit "/") (map (fun _ => lit "..") root_parts ++ target_parts) in
  let relative_path :=
    match ul_query U target_url with Some q => relative_path ++ q | None => relative_path end in
  match ul_fragment U target_url with Some f => relative_path ++ f | None => relative_path end.

(** src/util.rs:133-167, compute_relative_url *)
Definition compute_relative_url (U : UrlLib) (root_url target_url : str) : res str :=
  let* r := unwrap_ok (ul_parse U root_url) in
  let* t := unwrap_ok (ul_parse U target_url) in
  Ok (relative_path_of U r t).

(** src/util.rs:169-187, create_safe_handler: the closure it returns *)
Definition safe_handler (md : mode) (U : UrlLib) (cb : ul_t U -> ul_t U) (input : str) : res str :=
  let* t := get_url_type input in
  let* base := build_safe_base md input in
  let* urlx := unwrap_ok (ul_parse U base) in
  let* urlx := unwrap_ok (ul_join U urlx input) in
  let urlx := cb urlx in
  let result := ul_to_string U urlx in
  match t with
  | Absolute => Ok result
  | SchemeRelative => Ok (skipn (List.length PROTOCOL) result)
  | PathAbsolute => Ok (skipn (List.length PROTOCOL_AND_HOST) result)
  | PathRelative => compute_relative_url U base result
  end.

(** [Regex::new("/?$").replace(path, "/")]: the leftmost match is a final '/'
    if there is one, otherwise the empty string at the end. *)
Definition replace_trailing_slash (path : str) : str :=
  match rev path with
  | c :: r => if N.eqb c c_slash then rev r ++ lit "/" else path ++ lit "/"
  | [] => lit "/"
  end.

(** src/util.rs:192-198, the ENSURE_DIRECTORY callback *)
Definition ensure_directory_cb (U : UrlLib) (url : ul_t U) : ul_t U :=
  ul_set_path U url (replace_trailing_slash (ul_path U url)).

(** src/util.rs:192-198, ENSURE_DIRECTORY *)
Definition ENSURE_DIRECTORY (md : mode) (U : UrlLib) : str -> res str :=
  safe_handler md U (ensure_directory_cb U).

(** src/util.rs:200-209, the TRIM_FILENAME callback.  [split] never yields an
    empty sequence, so [path.last().unwrap()] does not panic. *)
Definition trim_filename_cb (U : UrlLib) (url : ul_t U) : ul_t U :=
  let path := split_char c_slash (ul_path U url) in
  let path := match rev path with
              | [] :: _ => path
              | _ :: r => rev r
              | [] => path
              end in
  ul_set_path U url (join_str [] path).

(** src/util.rs:200-209, TRIM_FILENAME *)
Definition TRIM_FILENAME (md : mode) (U : UrlLib) : str -> res str :=
  safe_handler md U (trim_filename_cb U).

(** src/util.rs:211, NORMALIZE *)
Definition NORMALIZE (md : mode) (U : UrlLib) : str -> res str :=
  safe_handler md U (fun url => url).

Definition oZ_eqb (a b : option Z) : bool :=
  match a, b with
  | None, None => true
  | Some x, Some y => x =? y
  | _, _ => false
  end.

(** src/util.rs:214-240, replace_if_possible *)
Definition replace_if_possible (md : mode) (U : UrlLib) (root target : str) : res (option str) :=
  let* url_type := get_url_type root in
  let* target_type := get_url_type target in
  if negb (url_type_eqb url_type target_type) then Ok None else
  let* base := build_safe_base md (root ++ target) in
  let* root_url := unwrap_ok (ul_parse U base) in
  let* root_url := unwrap_ok (ul_join U root_url root) in
  let* target_url := unwrap_ok (ul_parse U base) in
  let* target_url := unwrap_ok (ul_join U target_url target) in
  match ul_join U target_url [] with
  | None => Ok None
  | Some _ =>
      if negb (str_eqb (ul_scheme U target_url) (ul_scheme U root_url))
         || negb (str_eqb (ul_username U target_url) (ul_username U root_url))
         || negb (ostr_eqb (ul_password U target_url) (ul_password U root_url))
         || negb (ostr_eqb (ul_host U target_url) (ul_host U root_url))
         || negb (oZ_eqb (ul_port U target_url) (ul_port U root_url))
      then Ok None
      else let* r := compute_relative_url U root target in Ok (Some r)
  end.

(** src/util.rs:242-247, relative *)
Definition relative (md : mode) (U : UrlLib) (root target : str) : res str :=
  let* r := replace_if_possible md U root target in
  match r with
  | None => NORMALIZE md U target
  | Some r => Ok r
  end.

(** src/util.rs:249-259, with_base *)
Definition with_base (U : UrlLib) (url : str) (base : option str) : res str :=
  match base with
  | Some base =>
      let* b := unwrap_ok (ul_parse U base) in
      let* u := unwrap_ok (ul_join U b url) in
      Ok (ul_to_string U u)
  | None => Ok url
  end.

(** src/util.rs:261-309, join *)
Definition url_join (md : mode) (U : UrlLib) (root path : str) : res str :=
  let* path_t := get_url_type path in
  let* root_t := get_url_type root in
  let* root := ENSURE_DIRECTORY md U root in
  if url_type_eqb path_t Absolute then with_base U path None else
  if url_type_eqb root_t Absolute then with_base U path (Some root) else
  if url_type_eqb path_t SchemeRelative then NORMALIZE md U path else
  if url_type_eqb root_t SchemeRelative then
    let* b := with_base U root (Some PROTOCOL_AND_HOST) in
    let* r := with_base U path (Some b) in
    Ok (skipn (List.length PROTOCOL) r)
  else
  if url_type_eqb path_t PathAbsolute then NORMALIZE md U path else
  if url_type_eqb root_t PathAbsolute then
    let* b := with_base U root (Some PROTOCOL_AND_HOST) in
    let* r := with_base U path (Some b) in
    Ok (skipn (List.length PROTOCOL_AND_HOST) r)
  else
  let* base := build_safe_base md (path ++ root) in
  let* b := with_base U root (Some base) in
  let* new_path := with_base U path (Some b) in
  compute_relative_url U base new_path.

(** src/util.rs:311-358, compute_source_url *)
Definition compute_source_url (md : mode) (U : UrlLib) (source_root : option str)
    (source_url : str) (source_map_url : option str) : res str :=
  let after := remove_first_slash source_url in
  let* source_url :=
    match source_root with
    | None => Ok source_url
    | Some _ =>
        let* t := get_url_type source_url in
        Ok (if url_type_eqb t PathAbsolute then after else source_url)
    end in
  let* url := NORMALIZE md U source_url in
  let* url :=
    match source_root with
    | Some source_root => url_join md U source_root url
    | None => Ok url
    end in
  match source_map_url with
  | Some source_map_url =>
      let* d := TRIM_FILENAME md U source_map_url in
      url_join md U d url
  | None => Ok url
  end.
