(** * C31-C37, C56: the URL functions of src/util.rs *)
From Verif Require Import Base M_Util M_Generator M_SourceMap M_Json M_MapLib M_Consumer M_Indexed S_Json S_Url
  F_UrlSource F_UrlProps F_UrlRef F_Short.

(** Most theorems hold for every URL library meeting [UrlContract], which fixes
    its behaviour on plain http(s) URLs and paths.  The small library [RefUrl]
    meets it and is used in the examples. *)
Theorem C33_contract_can_be_met : UrlContract RefUrl.
Proof. exact RefUrl_ok. Qed.
Print Assumptions C33_contract_can_be_met.

(** ** C31: texts of less than two characters *)

Theorem C31_short_source : forall md U root source map_url (short : len source < 2),
  compute_source_url md U root source map_url = Panic PUnwrapNone.
Proof. exact short_source. Qed.
Print Assumptions C31_short_source.

Theorem C31_short_root : forall md U root source map_url result (short : len root < 2),
  compute_source_url md U (Some root) source map_url <> Ok result.
Proof. exact short_root. Qed.
Print Assumptions C31_short_root.

Theorem C31_short_map_url : forall md U root source map_url result (short : len map_url < 2),
  compute_source_url md U root source (Some map_url) <> Ok result.
Proof. exact short_map. Qed.
Print Assumptions C31_short_map_url.

Theorem C31_short_join : forall md U root path (short : len root < 2 \/ len path < 2),
  url_join md U root path = Panic PUnwrapNone.
Proof. exact short_join. Qed.
Print Assumptions C31_short_join.

Theorem C31_short_relative : forall md U root target (short : len root < 2 \/ len target < 2),
  relative md U root target = Panic PUnwrapNone.
Proof. exact short_relative. Qed.
Print Assumptions C31_short_relative.

(** A map with a source and with a short source, root or map URL is not opened. *)
Theorem C31_short_map_panics : forall (md : mode) (L : MapLib) (U : UrlLib) (order : list nat)
    (s : str) (url : option str) (m : SourceMapJson) (srcs : list str)
    (text : map_text s m) (basic : smj_sections m = None) (sources : smj_sources m = Some srcs)
    (short : (exists x, In x srcs /\ len x < 2)
             \/ (srcs <> [] /\ ((exists r, smj_source_root m = Some r /\ len r < 2)
                                \/ (exists u, url = Some u /\ len u < 2)))),
  is_panic (create_consumer md L U order s url) /\ is_panic (bc_new md L U s url).
Proof.
  intros md L U order s url m srcs T B S H.
  exact (conj (short_not_opened md L U order s url m srcs T B S H) (short_not_new md L U s url m srcs T S H)).
Qed.
Print Assumptions C31_short_map_panics.

Example C31_map_case : forall md L U,
  let read (s : string) := smj_from_str (lit s) in
  is_some (read "{""version"":3,""sources"":[""one.js"",""a""]}"%string) = true
  /\ is_some (read "{""version"":3,""sources"":[""one.js""],""sourceRoot"":""""}"%string) = true
  /\ create_consumer md L U [] (lit "{""version"":3,""sources"":[""a""]}") None = Panic PUnwrapNone
  (* without sources the root does not matter *)
  /\ is_ok (create_consumer md L U [] (lit "{""version"":3,""sources"":[],""sourceRoot"":""""}") None) = true.
Proof. intros md L U. vm_compute. repeat split; reflexivity. Qed.

Example C31_case :
  compute_source_url Debug RefUrl (Some []) (lit "a.js") None = Panic PUnwrapNone
  /\ compute_source_url Debug RefUrl (Some (lit "/")) (lit "a.js") None = Panic PUnwrapNone
  /\ compute_source_url Debug RefUrl None (lit "a") None = Panic PUnwrapNone
  /\ compute_source_url Debug RefUrl None (lit "aa") None = Ok (lit "aa").
Proof. vm_compute. repeat split; reflexivity. Qed.

(** ** C32: the internal base URL *)

(** The segment is "p" and the smallest number for which it does not occur. *)
Theorem C32_segment : forall md input (bound : len input <= 2147483645),
  exists t n, decimal t n /\ build_unique_segment md (lit "p") input = Ok (lit "p" ++ t)
    /\ ~ substring (lit "p" ++ t) input
    /\ (forall t' m, decimal t' m -> m < n -> substring (lit "p" ++ t') input).
Proof. exact segment_ok. Qed.
Print Assumptions C32_segment.

(** The base has one copy of it for each ".." that can be counted. *)
Theorem C32_base : forall md input (bound : len input <= 2147483645),
  exists seg k, build_unique_segment md (lit "p") input = Ok seg /\ max_dotdots input k
    /\ build_safe_base md input = Ok (lit "http://host/" ++ dirs_text (repeat seg k)).
Proof. exact base_text_ok. Qed.
Print Assumptions C32_base.

Example C32_case :
  build_safe_base Debug (lit "../p0/p1/p3/....x...") = Ok (lit "http://host/p2/p2/p2/p2/")
  /\ build_safe_base Release (lit "a/b") = Ok (lit "http://host/").
Proof. vm_compute. repeat split; reflexivity. Qed.

(** ** C33: normalising *)

(** [normal p] is the only path of this shape leading to the same place. *)
Theorem C33_normal_form : forall p,
  in_normal_form (normal p) /\ same_place p (normal p)
  /\ forall p', in_normal_form p' -> same_place p p' -> p' = normal p.
Proof. exact normal_form_ok. Qed.
Print Assumptions C33_normal_form.

Theorem C33_normalises : forall md U (url_crate : UrlContract U) p
    (chars : plain_path p) (length : 2 <= len (path_text p) <= 2147483645),
  compute_source_url md U None (path_text p) None = Ok (path_text (normal p)).
Proof. exact source_plain. Qed.
Print Assumptions C33_normalises.

Theorem C33_idempotent : forall md U (url_crate : UrlContract U) p
    (chars : plain_path p) (length : 2 <= len (path_text p) <= 2147483645)
    (again : 2 <= len (path_text (normal p)) <= 2147483645),
  compute_source_url md U None (path_text (normal p)) None = Ok (path_text (normal p)).
Proof. exact source_again. Qed.
Print Assumptions C33_idempotent.

(** From the root there is nothing to climb to. *)
Theorem C33_absolute_path : forall md U (url_crate : UrlContract U) p q f
    (chars : plain_path p) (charsq : plain_opt q) (charsf : plain_opt f)
    (long : 1 <= len (path_text p ++ tail_text q f)) (bound : len (abs_text p ++ tail_text q f) <= 2147483645),
  compute_source_url md U None (abs_text p ++ tail_text q f) None
  = Ok (abs_text (resolve_from [] p) ++ tail_text q f).
Proof. exact source_abs. Qed.
Print Assumptions C33_absolute_path.

Theorem C33_url : forall md U (url_crate : UrlContract U) o p q f
    (chars_o : plain_origin o) (chars : plain_path p) (charsq : plain_opt q) (charsf : plain_opt f)
    (bound : len (url_text o p q f) <= 2147483645),
  compute_source_url md U None (url_text o p q f) None = Ok (url_text o (resolve_from [] p) q f).
Proof. exact source_url. Qed.
Print Assumptions C33_url.

Theorem C33_scheme_relative : forall md U (url_crate : UrlContract U) h p q f
    (chars_h : plain_host h) (chars : plain_path p) (charsq : plain_opt q) (charsf : plain_opt f)
    (bound : len (net_text h p q f) <= 2147483645),
  compute_source_url md U None (net_text h p q f) None = Ok (net_text h (resolve_from [] p) q f).
Proof. exact source_net. Qed.
Print Assumptions C33_scheme_relative.

Example C33_case :
  compute_source_url Debug RefUrl None (lit "a/./b/../../../../p0/c.js") None = Ok (lit "../../p0/c.js")
  /\ compute_source_url Debug RefUrl None (lit "../..") None = Ok (lit "../../")
  /\ compute_source_url Debug RefUrl None (lit "/a/../../b.js?x#y") None = Ok (lit "/b.js?x#y")
  /\ compute_source_url Debug RefUrl None (lit "https://a.b/c/./d/..") None = Ok (lit "https://a.b/c/")
  /\ compute_source_url Debug RefUrl None (lit "//a.b/c/./d/..") None = Ok (lit "//a.b/c/").
Proof. vm_compute. repeat split; reflexivity. Qed.

(** the names bundlers use *)
Example C33_webpack_case :
  plain_origin (mkOrigin (lit "webpack") []) /\ plain_origin (mkOrigin (lit "webpack-internal") (lit "my_app"))
  /\ compute_source_url Debug RefUrl None (lit "webpack:///./src/a.js") None = Ok (lit "webpack:///src/a.js")
  /\ compute_source_url Debug RefUrl None (lit "webpack-internal://my_app/../x/../a.vue?b1") None = Ok (lit "webpack-internal://my_app/a.vue?b1").
Proof.
  assert (A : plain_origin (mkOrigin (lit "webpack") [])).
  { right. split; [split; [exists (ch "w"), (lit "ebpack"); split; [reflexivity|split; [reflexivity|]]|]|].
    - repeat (apply Forall_cons; [first [left; reflexivity | right; right; cbn; tauto]|]). constructor.
    - intros H. cbn [In] in H. repeat (destruct H as [H|H]; [discriminate|]). exact H.
    - repeat split; constructor. }
  assert (B : plain_origin (mkOrigin (lit "webpack-internal") (lit "my_app"))).
  { right. split; [split; [exists (ch "w"), (lit "ebpack-internal"); split; [reflexivity|split; [reflexivity|]]|]|].
    - repeat (apply Forall_cons; [first [left; reflexivity | right; right; cbn; tauto]|]). constructor.
    - intros H. cbn [In] in H. repeat (destruct H as [H|H]; [discriminate|]). exact H.
    - repeat split; repeat constructor. }
  split; [exact A|]. split; [exact B|]. split.
  - apply (C33_url Debug RefUrl RefUrl_ok (mkOrigin (lit "webpack") []) (mkPath [dot; lit "src"] (lit "a.js")) None None A);
      try exact I; try discriminate. split; repeat constructor; discriminate.
  - apply (C33_url Debug RefUrl RefUrl_ok (mkOrigin (lit "webpack-internal") (lit "my_app"))
             (mkPath [dotdot; lit "x"; dotdot] (lit "a.vue")) (Some (lit "b1")) None B);
      try exact I; try discriminate; repeat constructor; discriminate.
Qed.

(** the hypotheses can be met *)
Example C33_instance :
  let p := mkPath [lit "a"; dot; lit "b"; dotdot; dotdot; dotdot; lit "p0"] (lit "c.js") in
  compute_source_url Release RefUrl None (path_text p) None = Ok (path_text (normal p))
  /\ path_text (normal p) = lit "../p0/c.js".
Proof.
  cbv zeta. split; [|reflexivity]. apply C33_normalises.
  - exact RefUrl_ok.
  - split; repeat constructor; discriminate.
  - split; discriminate.
Qed.

(** ** C34: the source root *)

(** Relative root.  Only the names in the root count, not a slash at its end
    ([below] and [as_dirs]); a slash before the source makes no difference. *)
Theorem C34_relative_root : forall md U (url_crate : UrlContract U) r p (slash : bool)
    (chars_r : plain_path r) (chars : plain_path p)
    (long_r : 2 <= len (path_text r)) (long : 2 <= len (path_text p))
    (left_over : 2 <= len (path_text (normal p)))
    (bound : len (path_text r) + len (path_text p) <= 2147483643),
  compute_source_url md U (Some (path_text r)) ((if slash then lit "/" else []) ++ path_text p) None
  = Ok (path_text (normal (below r p))).
Proof. exact root_rel. Qed.
Print Assumptions C34_relative_root.

Theorem C34_absolute_root : forall md U (url_crate : UrlContract U) r q f p (slash : bool)
    (chars_r : plain_path r) (charsq : plain_opt q) (charsf : plain_opt f) (chars : plain_path p)
    (long_r : 1 <= len (path_text r ++ tail_text q f)) (length : 2 <= len (path_text p) <= 2147483645)
    (left_over : 2 <= len (path_text (normal p))) (bound : len (abs_text r ++ tail_text q f) <= 2147483645),
  compute_source_url md U (Some (abs_text r ++ tail_text q f)) ((if slash then lit "/" else []) ++ path_text p) None
  = Ok (abs_text (resolve_from [] (below r p))).
Proof. exact root_abs. Qed.
Print Assumptions C34_absolute_root.

Theorem C34_url_root : forall md U (url_crate : UrlContract U) o r q f p (slash : bool)
    (chars_o : plain_origin o) (chars_r : plain_path r) (charsq : plain_opt q) (charsf : plain_opt f)
    (chars : plain_path p) (length : 2 <= len (path_text p) <= 2147483645)
    (left_over : 2 <= len (path_text (normal p))) (bound : len (url_text o r q f) <= 2147483645),
  compute_source_url md U (Some (url_text o r q f)) ((if slash then lit "/" else []) ++ path_text p) None
  = Ok (url_text o (resolve_from [] (below r p)) None None).
Proof. exact root_url. Qed.
Print Assumptions C34_url_root.

Theorem C34_scheme_relative_root : forall md U (url_crate : UrlContract U) h r q f p (slash : bool)
    (chars_h : plain_host h) (chars_r : plain_path r) (charsq : plain_opt q) (charsf : plain_opt f)
    (chars : plain_path p) (length : 2 <= len (path_text p) <= 2147483645)
    (left_over : 2 <= len (path_text (normal p))) (bound : len (net_text h r q f) <= 2147483645),
  compute_source_url md U (Some (net_text h r q f)) ((if slash then lit "/" else []) ++ path_text p) None
  = Ok (net_text h (resolve_from [] (below r p)) None None).
Proof. exact root_net. Qed.
Print Assumptions C34_scheme_relative_root.

(** An absolute source ignores the root. *)
Theorem C34_absolute_source : forall md U (url_crate : UrlContract U) root o p q f
    (chars_r : plain_root root) (chars_o : plain_origin o) (chars : plain_path p)
    (charsq : plain_opt q) (charsf : plain_opt f) (bound : len (url_text o p q f) <= 2147483645),
  compute_source_url md U (Some root) (url_text o p q f) None = Ok (url_text o (resolve_from [] p) q f).
Proof. exact root_absolute_source. Qed.
Print Assumptions C34_absolute_source.

(** Less than two characters left of the source: panic. *)
Theorem C34_collapsed_source_panics : forall md U (url_crate : UrlContract U) root p (slash : bool)
    (chars : plain_path p) (length : 2 <= len (path_text p) <= 2147483645)
    (left_over : len (path_text (normal p)) < 2),
  compute_source_url md U (Some root) ((if slash then lit "/" else []) ++ path_text p) None = Panic PUnwrapNone.
Proof. exact root_collapsed. Qed.
Print Assumptions C34_collapsed_source_panics.

Theorem C34_slash_and_one_character_panics : forall md U root p
    (chars : plain_path p) (short : len (path_text p) = 1),
  compute_source_url md U (Some root) (abs_text p) None = Panic PUnwrapNone.
Proof. exact root_short_abs. Qed.
Print Assumptions C34_slash_and_one_character_panics.

Example C34_case :
  compute_source_url Debug RefUrl (Some (lit "some-dir")) (lit "/some-path.js") None = Ok (lit "some-dir/some-path.js")
  /\ compute_source_url Debug RefUrl (Some (lit "some-dir/")) (lit "some-path.js") None = Ok (lit "some-dir/some-path.js")
  /\ compute_source_url Debug RefUrl (Some (lit "../x")) (lit "../../a.js") None = Ok (lit "../../a.js")
  /\ compute_source_url Debug RefUrl (Some (lit "./")) (lit "aa") None = Ok (lit "aa")
  /\ compute_source_url Debug RefUrl (Some (lit "/r?q")) (lit "../../a.js") None = Ok (lit "/a.js")
  /\ compute_source_url Debug RefUrl (Some (lit "http://h/r")) (lit "/a.js") None = Ok (lit "http://h/r/a.js")
  /\ compute_source_url Debug RefUrl (Some (lit "//h/r")) (lit "/a.js") None = Ok (lit "//h/r/a.js")
  /\ compute_source_url Debug RefUrl (Some (lit "webpack:///")) (lit "./src/a.js") None = Ok (lit "webpack:///src/a.js")
  /\ compute_source_url Debug RefUrl (Some (lit "src")) (lit "webpack://app/./a.js") None = Ok (lit "webpack://app/a.js")
  /\ compute_source_url Debug RefUrl (Some (lit "rr")) (lit "https://h/./a.js") None = Ok (lit "https://h/a.js")
  /\ compute_source_url Debug RefUrl (Some (lit "rr")) (lit "a/..") None = Panic PUnwrapNone
  /\ compute_source_url Debug RefUrl (Some (lit "rr")) (lit "/a") None = Panic PUnwrapNone.
Proof. vm_compute. repeat split; reflexivity. Qed.

Example C34_instance :
  compute_source_url Debug RefUrl (Some (lit "x/../../r")) (lit "/../a.js") None = Ok (lit "../a.js").
Proof.
  apply (C34_relative_root Debug RefUrl RefUrl_ok (mkPath [lit "x"; dotdot; dotdot] (lit "r")) (mkPath [dotdot] (lit "a.js")) true);
    try (split; repeat constructor; discriminate); discriminate.
Qed.

(** Only the first slash of the source is dropped, and a path-absolute text that
    follows no root is normalised. *)
Example C34_slashes_case :
  map (fun p => compute_source_url Debug RefUrl (Some (lit (fst p))) (lit (snd p)) None)
    [("rr", "/aa/bb/c.js"); ("rr", "aa/bb.js"); ("/rr/ss", "/aa/bb.js"); ("rr", "/../aa/bb.js")]%string
  = map (fun t => Ok (lit t)) ["rr/aa/bb/c.js"; "rr/aa/bb.js"; "/rr/ss/aa/bb.js"; "aa/bb.js"]%string
  /\ map (fun p => url_join Debug RefUrl (lit (fst p)) (lit (snd p)))
      [("rr", "/aa/./bb/../c.js"); ("/rr", "/aa/../c.js"); ("http://h/rr", "/aa/../c.js"); ("//h/rr", "/aa/../c.js");
       ("rr", "//h/aa/../c.js")]%string
     = map (fun t => Ok (lit t)) ["/aa/c.js"; "/c.js"; "http://h/c.js"; "//h/c.js"; "//h/c.js"]%string.
Proof. vm_compute. split; reflexivity. Qed.

(** ** C35: query and fragment *)

(** A relative source loses the markers, with and without a relative root. *)
Theorem C35_relative_source_loses_markers : forall md U (url_crate : UrlContract U) p q f
    (chars : plain_path p) (some_path : path_text p <> []) (charsq : plain_opt q) (charsf : plain_opt f)
    (length : 2 <= len (path_text p ++ tail_text q f) <= 2147483645),
  compute_source_url md U None (path_text p ++ tail_text q f) None
  = Ok (path_text (normal p) ++ glue q ++ glue f).
Proof. exact source_rel. Qed.
Print Assumptions C35_relative_source_loses_markers.

Theorem C35_with_root_loses_markers : forall md U (url_crate : UrlContract U) r p q f (slash : bool)
    (chars_r : plain_path r) (chars : plain_path p) (charsq : plain_opt q) (charsf : plain_opt f)
    (some_path : path_text p <> []) (long_r : 2 <= len (path_text r)),
  let whole := path_text p ++ tail_text q f in
  let glued := mkPath (dirs (normal p)) (file (normal p) ++ glue q ++ glue f) in
  forall (long : 2 <= len whole) (left_over : 2 <= len (path_text glued))
    (bound : len (path_text r) + len whole <= 2147483643),
  compute_source_url md U (Some (path_text r)) ((if slash then lit "/" else []) ++ whole) None
  = Ok (path_text (normal (below r glued))).
Proof. exact root_rel_tail. Qed.
Print Assumptions C35_with_root_loses_markers.

(** So a source with a query or fragment is never returned as written. *)
Theorem C35_marker_never_survives : forall md U (url_crate : UrlContract U) p q f
    (chars : plain_path p) (some_path : path_text p <> []) (charsq : plain_opt q) (charsf : plain_opt f)
    (length : 2 <= len (path_text p ++ tail_text q f) <= 2147483645),
  exists t, compute_source_url md U None (path_text p ++ tail_text q f) None = Ok t
    /\ ~ In (ch "?") t /\ ~ In (ch "#") t.
Proof. exact no_marker. Qed.
Print Assumptions C35_marker_never_survives.

Example C35_case :
  compute_source_url Debug RefUrl None (lit "a/b.vue?type#x") None = Ok (lit "a/b.vuetypex")
  /\ compute_source_url Debug RefUrl (Some (lit "src")) (lit "a.vue?type#x") None = Ok (lit "src/a.vuetypex")
  /\ compute_source_url Debug RefUrl None (lit "/a/b.vue?type#x") None = Ok (lit "/a/b.vue?type#x").
Proof. vm_compute. repeat split; reflexivity. Qed.

(** ** C36: the directory of the source map URL *)

(** Relative map URL "../../a/b/f?q#f": the source (after the root, which gave the
    plain relative path [s]) is resolved in "../../ab" with query and fragment
    glued on as well. *)
Theorem C36_relative_map_url : forall md U (url_crate : UrlContract U) sr src s n ds f q fr
    (source : compute_source_url md U sr src None = Ok (path_text s)) (chars_s : plain_path s)
    (long_s : 2 <= len (path_text s))
    (chars_ds : Forall plain_seg ds) (names : Forall proper ds) (chars_f : plain f) (name_f : proper f)
    (charsq : plain_opt q) (charsf : plain_opt fr) (shape : n = O \/ len ds <= 1),
  let url := path_text (mkPath (repeat dotdot n ++ ds) f) ++ tail_text q fr in
  let dir := mkPath (repeat dotdot n) (concat ds ++ glue q ++ glue fr) in
  forall (some_path : path_text (mkPath (repeat dotdot n ++ ds) f) <> [])
    (no_other_dots : max_dotdots url n) (length : 2 <= len url <= 2147483645)
    (bound : len (path_text s) + len (path_text dir) <= 2147483644),
  compute_source_url md U sr src (Some url)
  = if Z_lt_dec (len (path_text dir)) 2 then Panic PUnwrapNone else Ok (path_text (normal (below dir s))).
Proof. exact map_url_rel. Qed.
Print Assumptions C36_relative_map_url.

(** Without "..", query and fragment: right with one directory of two
    characters or more, otherwise a panic or a wrong place. *)
Theorem C36_relative_verdict : forall md U (url_crate : UrlContract U) sr src s ds f
    (source : compute_source_url md U sr src None = Ok (path_text s)) (chars_s : plain_path s)
    (long_s : 2 <= len (path_text s)) (chars : clean_path (mkPath ds f)),
  let url := path_text (mkPath ds f) in
  forall (no_dots : max_dotdots url 0) (length : 2 <= len url <= 2147483645)
    (bound : len (path_text s) + len url <= 2147483644),
  let right := path_text (normal (below (mkPath ds []) s)) in
  (ds = [] -> compute_source_url md U sr src (Some url) = Panic PUnwrapNone)
  /\ (forall d, ds = [d] -> len d = 1 -> compute_source_url md U sr src (Some url) = Panic PUnwrapNone)
  /\ (forall d, ds = [d] -> 2 <= len d -> compute_source_url md U sr src (Some url) = Ok right)
  /\ (2 <= len ds -> exists t, compute_source_url md U sr src (Some url) = Ok t /\ t <> right).
Proof. exact map_url_verdict. Qed.
Print Assumptions C36_relative_verdict.

Theorem C36_absolute_path_verdict : forall md U (url_crate : UrlContract U) sr src s p q f
    (source : compute_source_url md U sr src None = Ok (path_text s)) (chars_s : plain_path s)
    (long_s : 2 <= len (path_text s)) (chars : clean_path p) (charsq : plain_opt q) (charsf : plain_opt f)
    (bound : len (abs_text p ++ tail_text q f) <= 2147483645),
  let right := abs_text (resolve_from [] (below (mkPath (dirs p) []) s)) in
  (len (dirs p) = 1 -> compute_source_url md U sr src (Some (abs_text p ++ tail_text q f)) = Ok right)
  /\ (2 <= len (dirs p) -> clean_path s ->
      exists t, compute_source_url md U sr src (Some (abs_text p ++ tail_text q f)) = Ok t /\ t <> right).
Proof. exact map_url_abs_verdict. Qed.
Print Assumptions C36_absolute_path_verdict.

(** "/f.map" panics *)
Theorem C36_absolute_path : forall md U (url_crate : UrlContract U) sr src s p q f
    (source : compute_source_url md U sr src None = Ok (path_text s)) (chars_s : plain_path s)
    (long_s : 2 <= len (path_text s)) (chars : clean_path p) (charsq : plain_opt q) (charsf : plain_opt f)
    (long : 1 <= len (path_text p ++ tail_text q f)) (bound : len (abs_text p ++ tail_text q f) <= 2147483645),
  compute_source_url md U sr src (Some (abs_text p ++ tail_text q f))
  = if Z_lt_dec (len (concat (dirs p) ++ tail_text q f)) 1 then Panic PUnwrapNone
    else Ok (abs_text (resolve_from [] (below (mkPath [] (concat (dirs p))) s))).
Proof. exact map_url_abs. Qed.
Print Assumptions C36_absolute_path.

Theorem C36_url_verdict : forall md U (url_crate : UrlContract U) sr src s o p q f
    (source : compute_source_url md U sr src None = Ok (path_text s)) (chars_s : plain_path s)
    (long_s : 2 <= len (path_text s)) (chars_o : plain_origin o) (chars : clean_path p)
    (charsq : plain_opt q) (charsf : plain_opt f) (bound : len (url_text o p q f) <= 2147483645),
  let right := url_text o (resolve_from [] (below (mkPath (dirs p) []) s)) None None in
  (len (dirs p) <= 1 -> compute_source_url md U sr src (Some (url_text o p q f)) = Ok right)
  /\ (2 <= len (dirs p) -> clean_path s ->
      exists t, compute_source_url md U sr src (Some (url_text o p q f)) = Ok t /\ t <> right).
Proof. exact map_url_url_verdict. Qed.
Print Assumptions C36_url_verdict.

Example C36_case :
  compute_source_url Debug RefUrl None (lit "a.js") (Some (lit "dist/app.map")) = Ok (lit "dist/a.js")
  /\ compute_source_url Debug RefUrl None (lit "a.js") (Some (lit "build/dist/app.map")) = Ok (lit "builddist/a.js")
  /\ compute_source_url Debug RefUrl None (lit "a.js") (Some (lit "../dist/app.map?v")) = Ok (lit "../distv/a.js")
  /\ compute_source_url Debug RefUrl None (lit "a.js") (Some (lit "app.map")) = Panic PUnwrapNone
  /\ compute_source_url Debug RefUrl None (lit "a.js") (Some (lit "d/app.map")) = Panic PUnwrapNone
  /\ compute_source_url Debug RefUrl None (lit "a.js") (Some (lit "/app.map")) = Panic PUnwrapNone
  /\ compute_source_url Debug RefUrl None (lit "a.js") (Some (lit "http://h/app.map")) = Ok (lit "http://h/a.js")
  /\ compute_source_url Debug RefUrl None (lit "a.js") (Some (lit "http://h/x/y/app.map")) = Ok (lit "http://h/xy/a.js")
  /\ compute_source_url Debug RefUrl (Some (lit "src")) (lit "a.js") (Some (lit "dist/app.map")) = Ok (lit "dist/src/a.js")
  (* the internal segment leaks out *)
  /\ compute_source_url Debug RefUrl None (lit "a.js") (Some (lit "x/../dist/app.map")) = Ok (lit "../p0dist/a.js").
Proof. vm_compute. repeat split; reflexivity. Qed.

(** ** C37: relative *)

Theorem C37_relative_paths_panic : forall md U (url_crate : UrlContract U) r q f t q' f'
    (chars_r : plain_path r) (some_r : path_text r <> []) (charsq : plain_opt q) (charsf : plain_opt f)
    (chars_t : plain_path t) (some_t : path_text t <> []) (charsq' : plain_opt q') (charsf' : plain_opt f')
    (long_r : 2 <= len (path_text r ++ tail_text q f)) (long_t : 2 <= len (path_text t ++ tail_text q' f'))
    (bound : len (path_text r ++ tail_text q f) + len (path_text t ++ tail_text q' f') <= 2147483645),
  relative md U (path_text r ++ tail_text q f) (path_text t ++ tail_text q' f') = Panic PUnwrapErr.
Proof. exact relative_rel. Qed.
Print Assumptions C37_relative_paths_panic.

Theorem C37_absolute_paths_panic : forall md U (url_crate : UrlContract U) r q f t q' f'
    (chars_r : plain_path r) (charsq : plain_opt q) (charsf : plain_opt f)
    (chars_t : plain_path t) (charsq' : plain_opt q') (charsf' : plain_opt f')
    (long_r : 1 <= len (path_text r ++ tail_text q f)) (long_t : 1 <= len (path_text t ++ tail_text q' f'))
    (bound : len (abs_text r ++ tail_text q f) + len (abs_text t ++ tail_text q' f') <= 2147483645),
  relative md U (abs_text r ++ tail_text q f) (abs_text t ++ tail_text q' f') = Panic PUnwrapErr.
Proof. exact relative_abs. Qed.
Print Assumptions C37_absolute_paths_panic.

(** arguments of different kinds: the target is only normalised *)
Theorem C37_different_kinds : forall md U root target t t'
    (kind_r : get_url_type root = Ok t) (kind_t : get_url_type target = Ok t') (differ : t <> t'),
  relative md U root target = compute_source_url md U None target None.
Proof. exact relative_kinds'. Qed.
Print Assumptions C37_different_kinds.

Theorem C37_set_source_content_relative : forall md U (url_crate : UrlContract U) g r s c
    (root : g_source_root g = Some (path_text r)) (chars_r : plain_path r) (chars_s : plain_path s)
    (long_r : 2 <= len (path_text r)) (long_s : 2 <= len (path_text s))
    (bound : len (path_text r) + len (path_text s) <= 2147483645),
  gen_set_source_content md U g (path_text s) c = Panic PUnwrapErr.
Proof. exact content_rel. Qed.
Print Assumptions C37_set_source_content_relative.

Theorem C37_set_source_content_absolute : forall md U (url_crate : UrlContract U) g r s c
    (root : g_source_root g = Some (abs_text r)) (chars_r : plain_path r) (chars_s : plain_path s)
    (long_r : 1 <= len (path_text r)) (long_s : 1 <= len (path_text s))
    (bound : len (abs_text r) + len (abs_text s) <= 2147483645),
  gen_set_source_content md U g (abs_text s) c = Panic PUnwrapErr.
Proof. exact content_abs. Qed.
Print Assumptions C37_set_source_content_absolute.

Example C37_case :
  relative Debug RefUrl (lit "src") (lit "src/a.js") = Panic PUnwrapErr
  /\ relative Debug RefUrl (lit "/src") (lit "/src/a.js") = Panic PUnwrapErr
  /\ relative Debug RefUrl (lit "/src") (lit "src/./a.js") = Ok (lit "src/a.js")
  /\ relative Debug RefUrl (lit "http://h/src") (lit "/src/a.js") = Ok (lit "/src/a.js")
  /\ gen_set_source_content Debug RefUrl (gen_new None (Some (lit "/src")) false) (lit "/src/a.js") None
     = Panic PUnwrapErr.
Proof. vm_compute. repeat split; reflexivity. Qed.

Example C37_instance :
  relative Release RefUrl (lit "/src") (lit "/src/../a.js?x") = Panic PUnwrapErr.
Proof.
  apply (C37_absolute_paths_panic Release RefUrl RefUrl_ok (mkPath [] (lit "src")) None None
           (mkPath [lit "src"; dotdot] (lit "a.js")) (Some (lit "x")) None);
    try exact I; try (split; repeat constructor; discriminate); try discriminate. repeat constructor.
Qed.

(** ** C56: relative between two URLs of the same origin *)

(** Joining gives back the target, unless the names of the target begin the
    names of the root or the relative path has less than two characters. *)
Theorem C56_relative_then_join : forall md U (url_crate : UrlContract U) o r q f t
    (chars_o : plain_origin o) (chars_r : clean_path r) (charsq : plain_opt q) (charsf : plain_opt f)
    (chars_t : clean_path t) (bound : len (url_text o r q f) + len (url_text o t None None) <= 2147483645)
    (not_a_prefix : ~ exists ext, as_dirs r = (dirs t ++ [file t]) ++ ext),
  exists p, plain_path p
    /\ relative md U (url_text o r q f) (url_text o t None None) = Ok (path_text p)
    /\ (2 <= len (path_text p) ->
        url_join md U (url_text o r q f) (path_text p) = Ok (url_text o t None None)).
Proof. exact relative_join. Qed.
Print Assumptions C56_relative_then_join.

(** If the names of the target begin the names of the root, joining climbs to the target as a
    directory, which is another URL; with no name left to climb it panics. *)
Theorem C56_prefix : forall md U (url_crate : UrlContract U) o r q f t ext
    (chars_o : plain_origin o) (chars_r : clean_path r) (charsq : plain_opt q) (charsf : plain_opt f)
    (chars_t : clean_path t) (bound : len (url_text o r q f) + len (url_text o t None None) <= 2147483645)
    (prefix : as_dirs r = (dirs t ++ [file t]) ++ ext),
  let climb := join_str (lit "/") (repeat dotdot (length ext)) in
  relative md U (url_text o r q f) (url_text o t None None) = Ok climb
  /\ url_join md U (url_text o r q f) climb
     = (if ext then Panic PUnwrapNone else Ok (url_text o (mkPath (dirs t ++ [file t]) []) None None))
  /\ url_text o (mkPath (dirs t ++ [file t]) []) None None <> url_text o t None None.
Proof. exact relative_prefix. Qed.
Print Assumptions C56_prefix.

(** A target of another origin is only normalised. *)
Theorem C56_other_origin : forall md U (url_crate : UrlContract U) o r q f o' t q' f'
    (chars_o : plain_origin o) (chars_r : plain_path r) (charsq : plain_opt q) (charsf : plain_opt f)
    (chars_o' : plain_origin o') (chars_t : plain_path t) (charsq' : plain_opt q') (charsf' : plain_opt f')
    (differ : o <> o') (bound : len (url_text o r q f) + len (url_text o' t q' f') <= 2147483645),
  relative md U (url_text o r q f) (url_text o' t q' f') = Ok (url_text o' (resolve_from [] t) q' f').
Proof. exact relative_origins. Qed.
Print Assumptions C56_other_origin.

(** Without the side conditions it is wrong. *)
Example C56_prefix_refuted :
  relative Debug RefUrl (lit "http://h/aa/bb") (lit "http://h/aa") = Ok (lit "..")
  /\ url_join Debug RefUrl (lit "http://h/aa/bb") (lit "..") = Ok (lit "http://h/aa/")
  /\ relative Debug RefUrl (lit "http://h/aa") (lit "http://h/aa") = Ok []
  /\ url_join Debug RefUrl (lit "http://h/aa") [] = Panic PUnwrapNone
  /\ relative Debug RefUrl (lit "http://h/") (lit "http://h/a") = Ok (lit "a")
  /\ url_join Debug RefUrl (lit "http://h/") (lit "a") = Panic PUnwrapNone
  (* query glued on *)
  /\ relative Debug RefUrl (lit "http://h/") (lit "http://h/a.vue?b") = Ok (lit "a.vueb").
Proof. vm_compute. repeat split; reflexivity. Qed.

Example C56_case :
  relative Debug RefUrl (lit "http://h/a/b/c") (lit "http://h/a/x/y.js") = Ok (lit "../../x/y.js")
  /\ url_join Debug RefUrl (lit "http://h/a/b/c") (lit "../../x/y.js") = Ok (lit "http://h/a/x/y.js")
  /\ relative Debug RefUrl (lit "http://h/a/b/c") (lit "https://h/a/./x/y.js") = Ok (lit "https://h/a/x/y.js")
  /\ relative Debug RefUrl (lit "http://h/a/b/c") (lit "http://g/a/./x/y.js") = Ok (lit "http://g/a/x/y.js")
  /\ relative Debug RefUrl (lit "webpack:///a/b") (lit "webpack:///a/x/y.js") = Ok (lit "../x/y.js")
  /\ relative Debug RefUrl (lit "webpack:///a/b") (lit "webpack://a/./b") = Ok (lit "webpack://a/b")
  (* login and port belong to the origin *)
  /\ relative Debug RefUrl (lit "http://u:p@h:81/a/b/c") (lit "http://u:p@h:81/a/x/y.js") = Ok (lit "../../x/y.js")
  /\ url_join Debug RefUrl (lit "http://u:p@h:81/a/b/c") (lit "../../x/y.js") = Ok (lit "http://u:p@h:81/a/x/y.js")
  /\ relative Debug RefUrl (lit "http://u:p@h:81/a") (lit "http://u:p@h:82/./x") = Ok (lit "http://u:p@h:82/x")
  /\ relative Debug RefUrl (lit "http://u:p@h:81/a") (lit "http://u:p@h/./x") = Ok (lit "http://u:p@h/x")
  /\ relative Debug RefUrl (lit "http://u:p@h:81/a") (lit "http://u:q@h:81/./x") = Ok (lit "http://u:q@h:81/x")
  /\ relative Debug RefUrl (lit "http://u:p@h:81/a") (lit "http://u@h:81/./x") = Ok (lit "http://u@h:81/x")
  /\ relative Debug RefUrl (lit "http://u@h:81/a") (lit "http://v@h:81/./x") = Ok (lit "http://v@h:81/x").
Proof. vm_compute. repeat split; reflexivity. Qed.

Example C56_instance :
  exists p, relative Debug RefUrl (lit "http://host/a/b") (lit "http://host/a/x.js") = Ok (path_text p).
Proof.
  destruct (C56_relative_then_join Debug RefUrl RefUrl_ok host_origin (mkPath [lit "a"] (lit "b")) None None
              (mkPath [lit "a"] (lit "x.js"))) as [p [_ [E _]]]; try exact I; try discriminate.
  - left. left. split; [left; reflexivity|]. split; [|split; [split; [constructor|exact I]|exact I]].
    exists [lit "host"]. split; [discriminate|]. split; [|reflexivity].
    constructor; [|constructor]. split; [discriminate|]. repeat constructor.
  - split; [split|split]; repeat constructor; discriminate.
  - split; [split|split]; repeat constructor; discriminate.
  - intros [ext E]. discriminate E.
  - exists p. exact E.
Qed.

(** an origin with login and port *)
Example C56_origin_instance :
  let o (port : string) := mkLogin (lit "https") (lit "u1") (Some (lit "pw")) (lit "hh.c") (Some (lit port)) in
  origin_text (o "8080"%string) = lit "https://u1:pw@hh.c:8080"
  /\ relative Debug RefUrl (url_text (o "8080"%string) (mkPath [lit "a"] (lit "b")) None None)
       (url_text (o "80"%string) (mkPath [lit "a"; dot] (lit "c")) None None)
     = Ok (url_text (o "80"%string) (mkPath [lit "a"] (lit "c")) None None).
Proof.
  cbv zeta. split; [reflexivity|].
  assert (P : forall t n, decimal t n -> 1 <= n <= 65535 -> n <> 443 ->
    plain_origin (mkLogin (lit "https") (lit "u1") (Some (lit "pw")) (lit "hh.c") (Some t))).
  { intros t n D B N. left. left. split; [right; reflexivity|]. split.
    - exists [lit "hh"; lit "c"]. split; [discriminate|]. split; [|reflexivity].
      repeat constructor; discriminate.
    - split; [split; [repeat constructor|split; [discriminate|split; [discriminate|repeat constructor]]]|].
      exists n. split; [exact D|]. split; [exact B|]. split; intros E; [discriminate E|exact N]. }
  pose proof (dec_digit 8 ltac:(lia)) as D8. pose proof (dec_more _ _ 0 D8 ltac:(lia) ltac:(lia)) as D80.
  pose proof (dec_more _ _ 8 D80 ltac:(lia) ltac:(lia)) as D808. pose proof (dec_more _ _ 0 D808 ltac:(lia) ltac:(lia)) as D8080.
  apply (C56_other_origin Debug RefUrl RefUrl_ok); try exact I; try discriminate.
  - apply (P _ _ D8080); lia.
  - split; repeat constructor; discriminate.
  - apply (P _ _ D80); lia.
  - split; repeat constructor; discriminate.
Qed.
