(** * C57, C71: looking up sources by the names the consumer and the map give them *)
From Verif Require Import Base M_ArraySet M_Mapping M_Util M_SourceMap M_Generator M_Json M_MapLib M_Consumer
  M_Indexed S_List S_Url S_MapLib S_Consumer S_EndToEnd F_UrlRef F_MapLibRef F_Listed.

(** No map URL, relative sources [ps], no root or a relative root [r] *)
Theorem C57_listed_sources : forall (md : mode) (L : MapLib) (U : UrlLib) (url_crate : UrlContract U)
    (j : SourceMapJson) (c0 : BasicConsumer L) (qs : list query) (c : BasicConsumer L)
    (r : option path) (ps : list path)
    (fresh : bc_from_source_map_json md L U j None = Ok c0
             \/ exists s, bc_new md L U s None = Ok c0 /\ smj_from_str s = Some j)
    (history : asked md L U c0 qs = Ok c)
    (sources : smj_sources j = Some (map path_text ps))
    (root : smj_source_root j = option_map path_text r)
    (few_sources : len ps < 2^31)
    (plain_root : match r with Some r => plain_path r /\ 2 <= len (path_text r) <= 1073741820 | None => True end)
    (plain_sources : Forall (fun p => plain_path p /\ 2 <= len (path_text p) <= 1073741820
                       /\ 2 <= len (path_text (normal p)) /\ 2 <= len (path_text (normal (in_root r p)))) ps),
  bc_get_sources L c = map (fun p => path_text (normal (in_root r p))) ps
  /\ (forall u, In u (bc_get_sources L c) -> exists k,
        answer (bc_find_source_index md L U c u) = Ok (Some (Z.of_nat k))
        /\ nth_error (bc_get_sources L c) k = Some u
        /\ (forall i, nth_error (bc_get_sources L c) i = Some u -> (k <= i)%nat))
  /\ (forall p, In p ps -> exists k,
        answer (bc_find_source_index md L U c (path_text p)) = Ok (Some (Z.of_nat k))
        /\ (nth_error (bc_get_sources L c) k = Some (path_text (normal p))
            \/ nth_error (bc_get_sources L c) k = Some (path_text (normal (in_root r p))))).
Proof. exact listed_plain. Qed.
Print Assumptions C57_listed_sources.

(** The name of a source may find another one: "xx/a.js" is number 1, but finds
    number 0. *)
Definition c57_json : SourceMapJson :=
  mkSMJ 3 (Some [lit "a.js"; lit "xx/a.js"; lit "../b/./c.js"; lit "a.js"]) None (Some []) None (Some (lit "xx")) None None.
Example C57_case :
  let ask s := let* c := bc_from_source_map_json Debug RefLib RefUrl c57_json None in
               answer (bc_find_source_index Debug RefLib RefUrl c (lit s)) in
  (let* c := bc_from_source_map_json Debug RefLib RefUrl c57_json None in Ok (bc_get_sources RefLib c))
  = Ok [lit "xx/a.js"; lit "xx/xx/a.js"; lit "b/c.js"; lit "xx/a.js"]
  /\ ask "a.js"%string = Ok (Some 0) /\ ask "xx/a.js"%string = Ok (Some 0) /\ ask "xx/xx/a.js"%string = Ok (Some 1)
  /\ ask "b/c.js"%string = Ok (Some 2) /\ ask "../b/./c.js"%string = Ok (Some 2).
Proof. vm_compute. repeat split; reflexivity. Qed.
Example C57_instance :
  map path_text [mkPath [] (lit "a.js"); mkPath [lit "xx"] (lit "a.js"); mkPath [lit ".."; lit "b"; lit "."] (lit "c.js")]
  = [lit "a.js"; lit "xx/a.js"; lit "../b/./c.js"]
  /\ map (fun p => path_text (normal (in_root (Some (mkPath [] (lit "xx"))) p)))
         [mkPath [] (lit "a.js"); mkPath [lit "xx"] (lit "a.js"); mkPath [lit ".."; lit "b"; lit "."] (lit "c.js")]
     = [lit "xx/a.js"; lit "xx/xx/a.js"; lit "b/c.js"].
Proof. vm_compute. repeat split; reflexivity. Qed.

(** With a relative map URL a listed source is not found. *)
Theorem C57_relative_map_url_refuted : exists (s : str) (url : option str) (u : str),
  (let* c := bc_new Debug RefLib RefUrl s url in Ok (bc_get_sources RefLib c)) = Ok [u]
  /\ (let* c := bc_new Debug RefLib RefUrl s url in answer (bc_find_source_index Debug RefLib RefUrl c u)) = Ok None.
Proof.
  exists (lit "{""version"":3,""sources"":[""a.js""],""mappings"":""""}"), (Some (lit "dist/app.map")), (lit "dist/a.js").
  vm_compute. repeat split; reflexivity.
Qed.
Print Assumptions C57_relative_map_url_refuted.

(** ** C71: with an http(s) map URL or root *)

(** Relative sources [ps], map URL "o/m?q#f", no root or a relative root [r].
    Written names are found when the map URL is used for lookups too; by
    create_consumer it is not, and then they never are. *)
Theorem C71_map_url : forall (md : mode) (L : MapLib) (U : UrlLib) (url_crate : UrlContract U)
    (j : SourceMapJson) (c0 : BasicConsumer L) (lookup : option str) (qs : list query) (c : BasicConsumer L)
    (r : option path) (ps : list path) (o : origin) (m : path) (q f : option str),
  let url := Some (url_text o m q f) in
  let of_path p := under_map o m (normal p) in
  forall (opens : opened_map md L U j url c0 lookup)
    (history : asked md L U c0 qs = Ok c)
    (sources : smj_sources j = Some (map path_text ps))
    (root : smj_source_root j = option_map path_text r)
    (few_sources : len ps < 2^31)
    (origin : plain_origin o) (map_path : clean_path m) (chars_q : plain_opt q) (chars_f : plain_opt f)
    (bound : len (url_text o m q f) <= 2147483645)
    (plain_root : match r with Some r => plain_path r /\ 2 <= len (path_text r) <= 1073741820 | None => True end)
    (plain_sources : Forall (fun p => plain_path p /\ 2 <= len (path_text p) <= 1073741820
                       /\ 2 <= len (path_text (normal p)) /\ 2 <= len (path_text (normal (in_root r p)))
                       /\ len (of_path (in_root r p)) <= 2147483645) ps),
  bc_get_sources L c = map (fun p => of_path (in_root r p)) ps
  /\ (forall u, In u (bc_get_sources L c) -> exists k,
        answer (bc_find_source_index md L U c u) = Ok (Some (Z.of_nat k))
        /\ nth_error (bc_get_sources L c) k = Some u
        /\ (forall i, nth_error (bc_get_sources L c) i = Some u -> (k <= i)%nat))
  /\ (lookup = url -> forall p, In p ps -> exists k,
        answer (bc_find_source_index md L U c (path_text p)) = Ok (Some (Z.of_nat k))
        /\ (nth_error (bc_get_sources L c) k = Some (of_path p)
            \/ nth_error (bc_get_sources L c) k = Some (of_path (in_root r p))))
  /\ (lookup = None -> forall p, In p ps -> answer (bc_find_source_index md L U c (path_text p)) = Ok None).
Proof. exact listed_map_url. Qed.
Print Assumptions C71_map_url.

(** Relative sources below the root "o/r?q#f", no map URL: the written name finds
    what the URL finds. *)
Theorem C71_root_url : forall (md : mode) (L : MapLib) (U : UrlLib) (url_crate : UrlContract U)
    (j : SourceMapJson) (c0 : BasicConsumer L) (qs : list query) (c : BasicConsumer L)
    (ps : list path) (o : origin) (r : path) (q f : option str),
  let of_path p := url_text o (resolve_from [] (below r p)) None None in
  forall (opens : opened_map md L U j None c0 None)
    (history : asked md L U c0 qs = Ok c)
    (sources : smj_sources j = Some (map path_text ps))
    (root : smj_source_root j = Some (url_text o r q f))
    (few_sources : len ps < 2^31)
    (origin : plain_origin o) (chars_r : plain_path r) (chars_q : plain_opt q) (chars_f : plain_opt f)
    (bound : len (url_text o r q f) <= 2147483645)
    (plain_sources : Forall (fun p => plain_path p /\ 2 <= len (path_text p) <= 2147483645
                       /\ 2 <= len (path_text (normal p)) /\ len (of_path p) <= 2147483645) ps),
  bc_get_sources L c = map of_path ps
  /\ (forall u, In u (bc_get_sources L c) -> exists k,
        answer (bc_find_source_index md L U c u) = Ok (Some (Z.of_nat k))
        /\ nth_error (bc_get_sources L c) k = Some u
        /\ (forall i, nth_error (bc_get_sources L c) i = Some u -> (k <= i)%nat))
  /\ (forall p, In p ps ->
        answer (bc_find_source_index md L U c (path_text p)) = answer (bc_find_source_index md L U c (of_path p))).
Proof. exact listed_root_url. Qed.
Print Assumptions C71_root_url.

Definition c71_json (root : string) : str :=
  lit "{""version"":3,""sourceRoot"":""" ++ lit root
  ++ lit """,""sources"":[""a.js"",""xx/a.js"",""../../b/./c.js"",""a.js""],""mappings"":""""}".
Definition c71_new {A} (root : string) (url : option str) (f : BasicConsumer RefLib -> res A) : res A :=
  let* c := bc_new Debug RefLib RefUrl (c71_json root) url in f c.
Definition c71_created {A} (root : string) (url : option str) (f : BasicConsumer RefLib -> res A) : res A :=
  let* o := create_consumer Debug RefLib RefUrl [] (c71_json root) url in
  match o with Some (CBasic c) => f c | _ => Panic PMissing end.
Example C71_case :
  let find s c := answer (bc_find_source_index Debug RefLib RefUrl c (lit s)) in
  let list c := Ok (bc_get_sources RefLib c) in
  let url := Some (lit "https://ab.c/dist/app.map?v") in
  let urls := [lit "https://ab.c/dist/xx/a.js"; lit "https://ab.c/dist/xx/xx/a.js"; lit "https://ab.c/b/c.js"; lit "https://ab.c/dist/xx/a.js"] in
  c71_new "xx" url list = Ok urls /\ c71_created "xx" url list = Ok urls
  (* "xx/a.js" is number 1, but finds number 0 *)
  /\ map (fun s => c71_new "xx" url (find s)) ["a.js"; "xx/a.js"; "../../b/./c.js"]%string = [Ok (Some 0); Ok (Some 0); Ok (Some 2)]
  /\ map (fun s => c71_created "xx" url (find s)) ["a.js"; "xx/a.js"; "../../b/./c.js"]%string = [Ok None; Ok None; Ok None]
  /\ c71_new "xx" url (find "https://ab.c/dist/xx/xx/a.js"%string) = Ok (Some 1)
  /\ c71_created "xx" url (find "https://ab.c/dist/xx/xx/a.js"%string) = Ok (Some 1)
  (* a root that is a URL *)
  /\ c71_new "http://ab.c/r" None list
     = Ok [lit "http://ab.c/r/a.js"; lit "http://ab.c/r/xx/a.js"; lit "http://ab.c/b/c.js"; lit "http://ab.c/r/a.js"]
  /\ map (fun s => c71_new "http://ab.c/r" None (find s)) ["a.js"; "xx/a.js"; "../../b/./c.js"; "http://ab.c/r/xx/a.js"]%string
     = [Ok (Some 0); Ok (Some 1); Ok (Some 2); Ok (Some 1)].
Proof. vm_compute. repeat split; reflexivity. Qed.
Example C71_instance :
  let o := mkOrigin (lit "https") (lit "ab.c") in
  let m := mkPath [lit "dist"] (lit "app.map") in
  url_text o m (Some (lit "v")) None = lit "https://ab.c/dist/app.map?v"
  /\ under_map o m (normal (in_root (Some (mkPath [] (lit "xx"))) (mkPath [lit ".."; lit ".."; lit "b"; lit "."] (lit "c.js"))))
     = lit "https://ab.c/b/c.js"
  /\ under_map o (mkPath [lit "a"; lit "b"] (lit "app.map")) (mkPath [] (lit "c.js")) = lit "https://ab.c/ab/c.js".
Proof. vm_compute. repeat split; reflexivity. Qed.
