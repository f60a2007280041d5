(** * C76: join for references of every kind; more of C34, C36 and C37 *)
From Verif Require Import Base M_Util M_Generator S_Url S_Refs F_UrlRef F_Refs.

(** ** C76 *)

(** The path is resolved in the root as a directory.  Query and fragment of the
    root do not count, unless it is relative and they make up a dot segment. *)
Theorem C76_join : forall md U (url_crate : UrlContract U) root t
    (chars_r : plain_ref root) (chars_t : plain_ref t)
    (markers : harmless_markers root \/ ~ is_relative t)
    (bound : len (ref_text root) + len (ref_text t) <= 2147483644),
  url_join md U (ref_text root) (ref_text t) = Ok (given_text (resolved root t)).
Proof. exact join_refs. Qed.
Print Assumptions C76_join.

Example C76_case :
  let j r p := url_join Debug RefUrl (lit r) (lit p) in
  map (fun x => j (fst x) (snd x))
    [("rr/ss", "../a/./b.js"); ("rr?v", "../../a.js"); ("rr", "a?b#c");
     ("/rr/ss", "../a?b#c"); ("//hh/rr", "../../a?b"); ("http://hh/rr?q#f", "./a?b");
     ("rr", "/a/../b"); ("/rr", "/a/../b?c"); ("//hh/rr", "/a/../b?c"); ("https://hh/rr", "/a/../b?c");
     ("rr", "//gg/a/../b"); ("/rr", "//gg/a/../b"); ("//hh/rr", "//gg/a/../b"); ("https://hh/rr", "//gg/a/../b");
     ("rr", "http://gg/a/../b"); ("https://hh/rr", "http://gg/a/../b");
     ("https://u:p@hh:81/rr", "a/../b"); ("https://u:p@hh:81/rr", "/b"); ("https://u:p@hh:81/rr", "//gg/b");
     ("node_modules/@a", "../(b)/c+d.js"); ("https://hh/@a", "b;c=1")]%string
  = map (fun t => Ok (lit t))
    ["rr/a/b.js"; "../a.js"; "rr/abc";
     "/rr/a?b#c"; "//hh/a?b"; "http://hh/rr/a?b";
     "/b"; "/b?c"; "//hh/b?c"; "https://hh/b?c";
     "//gg/b"; "//gg/b"; "//gg/b"; "https://gg/b";
     "http://gg/a/../b"; "http://gg/a/../b";
     "https://u:p@hh:81/rr/b"; "https://u:p@hh:81/b"; "https://gg/b";
     "node_modules/(b)/c+d.js"; "https://hh/@a/b;c=1"]%string
  (* a query of the root that is a dot segment *)
  /\ j "rr?.."%string "a.js"%string = Ok (lit "a.js").
Proof. vm_compute. split; reflexivity. Qed.

Example C76_instance :
  url_join Debug RefUrl (lit "../rr?v") (lit "../../@a/b.js#x") = Ok (lit "../../@a/b.jsx").
Proof.
  apply (C76_join Debug RefUrl RefUrl_ok (RRel (mkPath [dotdot] (lit "rr")) (Some (lit "v")) None)
           (RRel (mkPath [dotdot; dotdot; lit "@a"] (lit "b.js")) None (Some (lit "x")))).
  - split; [|discriminate]. split; [split; repeat constructor; discriminate|].
    split; [repeat constructor|]. split; [exact I|discriminate].
  - split; [|discriminate]. split; [split; repeat constructor; discriminate|].
    split; [exact I|]. split; [repeat constructor|discriminate].
  - left. split; discriminate.
  - discriminate.
Qed.

(** ** C34: a source with a host of its own, under a root of any kind *)
Theorem C34_source_with_host : forall md U (url_crate : UrlContract U) root s
    (chars_r : plain_ref root) (chars_s : plain_ref s) (with_host : ~ is_path s)
    (bound : len (ref_text root) + len (ref_text s) <= 2147483644),
  compute_source_url md U (Some (ref_text root)) (ref_text s) None = Ok (ref_text (in_order (resolved root s))).
Proof. exact root_refs. Qed.
Print Assumptions C34_source_with_host.

Example C34_source_with_host_case :
  map (fun x => compute_source_url Debug RefUrl (Some (lit (fst x))) (lit (snd x)) None)
    [("rr", "//gg/./a.js"); ("/rr?q", "//gg/./a.js"); ("//hh/rr", "//gg/./a.js"); ("https://hh/rr", "//gg/./a.js");
     ("rr?q", "http://gg/./a.js?b"); ("//hh", "http://gg/./a.js?b")]%string
  = map (fun t => Ok (lit t))
    ["//gg/a.js"; "//gg/a.js"; "//gg/a.js"; "https://gg/a.js"; "http://gg/a.js?b"; "http://gg/a.js?b"]%string.
Proof. vm_compute. reflexivity. Qed.

(** A root without a path is the same as one with "/". *)
Theorem C34_root_without_path : forall md U (url_crate : UrlContract U) o q f src map_url
    (chars_o : plain_origin o) (chars_q : plain_opt q) (chars_f : plain_opt f)
    (bound : len (origin_text o ++ tail_text q f) <= 2147483644),
  compute_source_url md U (Some (origin_text o ++ tail_text q f)) src map_url
  = compute_source_url md U (Some (url_text o (mkPath [] []) q f)) src map_url.
Proof. exact root_origin. Qed.
Print Assumptions C34_root_without_path.

Example C34_root_without_path_case :
  compute_source_url Debug RefUrl (Some (lit "http://hh")) (lit "/a/./b.js") None = Ok (lit "http://hh/a/b.js")
  /\ compute_source_url Debug RefUrl (Some (lit "http://hh/")) (lit "/a/./b.js") None = Ok (lit "http://hh/a/b.js")
  /\ compute_source_url Debug RefUrl (Some (lit "webpack://")) (lit "/a/./b.js") None = Ok (lit "webpack:///a/b.js")
  /\ compute_source_url Debug RefUrl (Some (lit "webpack://app?q")) (lit "/a/./b.js") None = Ok (lit "webpack://app/a/b.js").
Proof. vm_compute. repeat split; reflexivity. Qed.

(** ** C36: sources of every kind *)

(** Map URL with a root, a host or a whole URL: the source is resolved in
    its directories run together. *)
Theorem C36_any_source : forall md U (url_crate : UrlContract U) sr src s m
    (source : compute_source_url md U sr src None = Ok (ref_text s))
    (chars_s : plain_ref s) (chars_m : plain_ref m) (not_relative : ~ is_relative m)
    (bound : len (ref_text m) + len (ref_text s) <= 2147483644),
  compute_source_url md U sr src (Some (ref_text m))
  = if Z_lt_dec (len (ref_text (map_ref (in_order m)))) 2 then Panic PUnwrapNone
    else Ok (ref_text (resolved (map_ref (in_order m)) s)).
Proof. exact map_refs. Qed.
Print Assumptions C36_any_source.

(** A source that is not relative is resolved as it should be. *)
Theorem C36_source_not_relative : forall md U (url_crate : UrlContract U) sr src s m
    (source : compute_source_url md U sr src None = Ok (ref_text s))
    (chars_s : plain_ref s) (source_not_relative : ~ is_relative s)
    (chars_m : plain_ref m) (not_relative : ~ is_relative m)
    (bound : len (ref_text m) + len (ref_text s) <= 2147483644),
  compute_source_url md U sr src (Some (ref_text m))
  = if Z_lt_dec (len (ref_text (map_ref (in_order m)))) 2 then Panic PUnwrapNone
    else Ok (ref_text (resolved m s)).
Proof. exact map_refs_right. Qed.
Print Assumptions C36_source_not_relative.

(** Nor does a relative map URL change it. *)
Theorem C36_source_not_relative_relative_map : forall md U (url_crate : UrlContract U) sr src s n ds f q fr
    (source : compute_source_url md U sr src None = Ok (ref_text s))
    (chars_s : plain_ref s) (source_not_relative : ~ is_relative s)
    (chars_ds : Forall plain_seg ds) (names : Forall proper ds) (chars_f : plain f) (name_f : proper f)
    (charsq : plain_opt q) (charsf : plain_opt fr) (shape : n = O \/ len ds <= 1),
  let url := path_text (mkPath (repeat dotdot n ++ ds) f) ++ tail_text q fr in
  let dir := mkPath (repeat dotdot n) (concat ds ++ glue q ++ glue fr) in
  forall (some_path : path_text (mkPath (repeat dotdot n ++ ds) f) <> [])
    (no_other_dots : max_dotdots url n) (length : 2 <= len url <= 2147483645)
    (bound : len (ref_text s) + len (path_text dir) <= 2147483644),
  compute_source_url md U sr src (Some url)
  = if Z_lt_dec (len (path_text dir)) 2 then Panic PUnwrapNone
    else Ok (ref_text (match s with RUrl _ _ _ _ => s | _ => in_order s end)).
Proof. exact map_rel_refs. Qed.
Print Assumptions C36_source_not_relative_relative_map.

Example C36_any_source_case :
  map (fun x => compute_source_url Debug RefUrl None (lit (fst x)) (Some (lit (snd x))))
    [("/src/a.js", "http://hh/x/y/app.map"); ("//gg/a.js", "https://hh/x/y/app.map"); ("http://gg/a.js", "//hh/x/app.map");
     ("a.js", "//hh/x/app.map"); ("a.js", "//hh/x/y/app.map"); ("/src/a.js", "//hh/x/y/app.map?q"); ("/src/a.js", "/x/y/app.map");
     ("/src/a.js", "dist/app.map"); ("http://gg/a.js", "dist/app.map"); ("http://gg/a.js", "../dist/app.map")]%string
  = map (fun t => Ok (lit t))
    ["http://hh/src/a.js"; "https://gg/a.js"; "http://gg/a.js";
     "//hh/x/a.js"; "//hh/xy/a.js"; "//hh/src/a.js"; "/src/a.js";
     "/src/a.js"; "http://gg/a.js"; "http://gg/a.js"]%string
  (* even then, a map URL without directory panics *)
  /\ compute_source_url Debug RefUrl None (lit "http://gg/a.js") (Some (lit "app.map")) = Panic PUnwrapNone
  /\ compute_source_url Debug RefUrl None (lit "http://gg/a.js") (Some (lit "/app.map")) = Panic PUnwrapNone.
Proof. vm_compute. repeat split; reflexivity. Qed.

(** ** C37: two URLs without their scheme *)
Theorem C37_same_host_panics : forall md U (url_crate : UrlContract U) h r q f t q' f'
    (chars_h : plain_host h) (chars_r : plain_path r) (charsq : plain_opt q) (charsf : plain_opt f)
    (chars_t : plain_path t) (charsq' : plain_opt q') (charsf' : plain_opt f')
    (bound : len (net_text h r q f) + len (net_text h t q' f') <= 2147483645),
  relative md U (net_text h r q f) (net_text h t q' f') = Panic PUnwrapErr.
Proof. exact relative_net. Qed.
Print Assumptions C37_same_host_panics.

Theorem C37_other_host : forall md U (url_crate : UrlContract U) h r q f h' t q' f'
    (chars_h : plain_host h) (chars_r : plain_path r) (charsq : plain_opt q) (charsf : plain_opt f)
    (chars_h' : plain_host h') (chars_t : plain_path t) (charsq' : plain_opt q') (charsf' : plain_opt f')
    (differ : h <> h') (bound : len (net_text h r q f) + len (net_text h' t q' f') <= 2147483645),
  relative md U (net_text h r q f) (net_text h' t q' f') = Ok (net_text h' (resolve_from [] t) q' f').
Proof. exact relative_hosts. Qed.
Print Assumptions C37_other_host.

Theorem C37_set_source_content_same_host : forall md U (url_crate : UrlContract U) g h r q f s q' f' c
    (root : g_source_root g = Some (net_text h r q f))
    (chars_h : plain_host h) (chars_r : plain_path r) (charsq : plain_opt q) (charsf : plain_opt f)
    (chars_s : plain_path s) (charsq' : plain_opt q') (charsf' : plain_opt f')
    (bound : len (net_text h r q f) + len (net_text h s q' f') <= 2147483645),
  gen_set_source_content md U g (net_text h s q' f') c = Panic PUnwrapErr.
Proof. exact content_net. Qed.
Print Assumptions C37_set_source_content_same_host.

Example C37_host_case :
  relative Debug RefUrl (lit "//hh/src") (lit "//hh/src/a.js") = Panic PUnwrapErr
  /\ relative Debug RefUrl (lit "//hh/src") (lit "//gg/src/./a.js") = Ok (lit "//gg/src/a.js")
  /\ relative Debug RefUrl (lit "http://hh/src") (lit "//hh/src/./a.js") = Ok (lit "//hh/src/a.js")
  /\ gen_set_source_content Debug RefUrl (gen_new None (Some (lit "//hh/src")) false) (lit "//hh/src/a.js") None
     = Panic PUnwrapErr.
Proof. vm_compute. repeat split; reflexivity. Qed.
