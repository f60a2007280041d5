(** * C77: names with spaces and characters beyond ASCII *)
From Verif Require Import Base M_ArraySet M_Mapping M_Util M_SourceMap M_Generator M_Json M_MapLib M_Consumer
  M_Indexed S_List S_Url S_Escape S_MapLib S_Consumer S_EndToEnd F_UrlRef F_MapLibRef F_EscapeUrl F_Written.

(** Escaping root, source and map URL beforehand makes no difference. *)
Theorem C77_source : forall (md : mode) (U : UrlLib) (url_crate : UrlContract U) (root : option str) (s : str) (url : option str)
    (source : escapable s) (below_root : escapable (taken root s))
    (root_text : match root with Some r => escapable r | None => True end)
    (map_url : match url with Some u => escapable u | None => True end),
  compute_source_url md U root s url = compute_source_url md U (option_map escape root) (escape s) (option_map escape url).
Proof. exact source_escape. Qed.
Print Assumptions C77_source.

Theorem C77_source_only : forall (md : mode) (U : UrlLib) (url_crate : UrlContract U) (root : option str) (s : str) (url : option str)
    (source : escapable s) (below_root : escapable (taken root s))
    (root_text : match root with Some r => escapable r | None => True end)
    (map_url : match url with Some u => escapable u | None => True end),
  compute_source_url md U root s url = compute_source_url md U root (escape s) url.
Proof. exact source_escape_name. Qed.
Print Assumptions C77_source_only.

Theorem C77_relative : forall (md : mode) (U : UrlLib) (url_crate : UrlContract U) (root t : str)
    (base : escapable root) (target : escapable t) (bound : len (escape root) + len (escape t) <= 2147483645),
  relative md U root t = relative md U (escape root) (escape t).
Proof. exact relative_escape. Qed.
Print Assumptions C77_relative.

(** A relative source comes out normalised and escaped. *)
Theorem C77_written_source : forall (md : mode) (U : UrlLib) (url_crate : UrlContract U) (p : path)
    (chars : written_path p) (some_text : 2 <= len (path_text p)) (bound : len (escape (path_text p)) <= 2147483645),
  compute_source_url md U None (path_text p) None = Ok (escape (path_text (normal p))).
Proof. exact source_written. Qed.
Print Assumptions C77_written_source.

Theorem C77_written_root : forall (md : mode) (U : UrlLib) (url_crate : UrlContract U) (r p : path)
    (chars_r : written_path r) (chars : written_path p)
    (some_root : 2 <= len (path_text r)) (some_text : 2 <= len (path_text p))
    (some_normal : 2 <= len (escape (path_text (normal p))))
    (bound : len (escape (path_text r)) + len (escape (path_text p)) <= 2147483643),
  compute_source_url md U (Some (path_text r)) (path_text p) None = Ok (escape (path_text (normal (below r p)))).
Proof. exact root_written. Qed.
Print Assumptions C77_written_root.

(** Consumers list the escaped names; listed and written names are found. *)
Theorem C77_listed : forall (md : mode) (L : MapLib) (U : UrlLib) (url_crate : UrlContract U)
    (j : SourceMapJson) (c0 : BasicConsumer L) (qs : list query) (c : BasicConsumer L)
    (r : option path) (ps : list path)
    (fresh : bc_from_source_map_json md L U j None = Ok c0
             \/ exists s, bc_new md L U s None = Ok c0 /\ smj_from_str s = Some j)
    (history : asked md L U c0 qs = Ok c)
    (sources : smj_sources j = Some (map path_text ps))
    (root : smj_source_root j = option_map path_text r)
    (few_sources : len ps < 2^31)
    (written_root : match r with
                    | Some r => written_path r /\ 2 <= len (path_text r) /\ len (escape (path_text r)) <= 1073741820
                    | None => True
                    end)
    (written_sources : Forall (fun p => written_path p /\ 2 <= len (path_text p) /\ len (escape (path_text p)) <= 1073741820
                       /\ 2 <= len (escape (path_text (normal p))) /\ 2 <= len (escape (path_text (normal (in_root r p))))) ps),
  bc_get_sources L c = map (fun p => escape (path_text (normal (in_root r p)))) ps
  /\ (forall u, In u (bc_get_sources L c) -> exists k,
        answer (bc_find_source_index md L U c u) = Ok (Some (Z.of_nat k))
        /\ nth_error (bc_get_sources L c) k = Some u
        /\ (forall i, nth_error (bc_get_sources L c) i = Some u -> (k <= i)%nat))
  /\ (forall p, In p ps -> exists k,
        answer (bc_find_source_index md L U c (path_text p)) = Ok (Some (Z.of_nat k))
        /\ (nth_error (bc_get_sources L c) k = Some (escape (path_text (normal p)))
            \/ nth_error (bc_get_sources L c) k = Some (escape (path_text (normal (in_root r p)))))).
Proof. exact listed_written. Qed.
Print Assumptions C77_listed.

(** Any consumer: a source is found as its escaped name is. *)
Theorem C77_lookup : forall (md : mode) (L : MapLib) (U : UrlLib) (url_crate : UrlContract U)
    (c0 : BasicConsumer L) (qs : list query) (c : BasicConsumer L) (s : str)
    (fresh : opened md L U c0) (history : asked md L U c0 qs = Ok c)
    (few_sources : len (bc_get_sources L c0) < 2^31)
    (source : escapable s) (below_root : escapable (taken (smj_source_root (bc_source_map c0)) s))
    (root_text : match smj_source_root (bc_source_map c0) with Some r => escapable r | None => True end)
    (map_url : match bc_source_map_url c0 with Some u => escapable u | None => True end),
  answer (bc_find_source_index md L U c s) = answer (bc_find_source_index md L U c (escape s)).
Proof. exact lookup_escape. Qed.
Print Assumptions C77_lookup.

(** A source is not listed as it is written in the map. *)
Theorem C77_same_name_refuted : exists (j : SourceMapJson) (s : str) (c : BasicConsumer RefLib),
  smj_sources j = Some [s] /\ smj_source_root j = None
  /\ bc_from_source_map_json Debug RefLib RefUrl j None = Ok c
  /\ bc_get_sources RefLib c = [lit "my%20file.js"] /\ s = lit "my file.js".
Proof.
  exists (mkSMJ 3 (Some [lit "my file.js"]) None (Some []) None None None None), (lit "my file.js").
  eexists. split; [reflexivity|]. split; [reflexivity|]. split; [reflexivity|]. split; reflexivity.
Qed.
Print Assumptions C77_same_name_refuted.

(** "x é.js", 26085 26412 = "日本" *)
Definition c77_json : SourceMapJson :=
  mkSMJ 3 (Some [lit "x " ++ [233%N] ++ lit ".js"; lit "lib/my%20file.js"; lit "./d d/../my file.js"; [26085; 26412]%N])
    None (Some []) None (Some (lit "a <b>")) None None.
Example C77_case :
  let ask s := let* c := bc_from_source_map_json Debug RefLib RefUrl c77_json None in
               answer (bc_find_source_index Debug RefLib RefUrl c s) in
  (let* c := bc_from_source_map_json Debug RefLib RefUrl c77_json None in Ok (bc_get_sources RefLib c))
  = Ok [lit "a%20%3Cb%3E/x%20%C3%A9.js"; lit "a%20%3Cb%3E/lib/my%20file.js"; lit "a%20%3Cb%3E/my%20file.js";
        lit "a%20%3Cb%3E/%E6%97%A5%E6%9C%AC"]
  /\ map ask [lit "x " ++ [233%N] ++ lit ".js"; lit "lib/my file.js"; lit "my file.js"; [26085; 26412]%N;
              lit "my%20file.js"; lit "%E6%97%A5%E6%9C%AC"; lit "a <b>/my file.js"]
     = [Ok (Some 0); Ok (Some 1); Ok (Some 2); Ok (Some 3); Ok (Some 2); Ok (Some 3); Ok (Some 2)]
  (* another spelling of the same byte is another source *)
  /\ ask (lit "x%20%c3%a9.js") = Ok None
  /\ compute_source_url Debug RefUrl (Some (lit "http://ab.c/my root")) (lit "/d d/a.js") (Some (lit "http://ab.c/x y/z.map"))
     = Ok (lit "http://ab.c/my%20root/d%20d/a.js")
  /\ relative Debug RefUrl (lit "http://ab.c/my root") (lit "http://ab.c/my%20root/d d/a.js") = Ok (lit "d%20d/a.js")
  /\ escape [128512%N] = lit "%F0%9F%98%80"
  (* one character is too few, though its escape is long enough *)
  /\ compute_source_url Debug RefUrl None [233%N] None = Panic PUnwrapNone
  /\ compute_source_url Debug RefUrl None (escape [233%N]) None = Ok (lit "%C3%A9").
Proof. vm_compute. repeat split; reflexivity. Qed.

Example C77_instance :
  let p := mkPath [lit "."; lit "d d"; lit ".."] (lit "my f" ++ [233%N] ++ lit "le%20.js") in
  path_text p = lit "./d d/../my f" ++ [233%N] ++ lit "le%20.js"
  /\ written_path p /\ escape (path_text (normal p)) = lit "my%20f%C3%A9le%20.js"
  /\ escapable (lit "http://ab.c/my root").
Proof.
  split; [reflexivity|]. split.
  - split; [|split].
    + repeat constructor; try discriminate; first [left; reflexivity | right; reflexivity].
    + repeat (first [apply written_nil | apply written_escape; [reflexivity|reflexivity|intros [_ [E|E]]; discriminate|]
                    | apply written_cons; [first [left; reflexivity | right; reflexivity]|]]).
    + split; discriminate.
  - split; [reflexivity|]. split; [|split; [split; discriminate|split; vm_compute; discriminate]].
    change (escape (lit "http://ab.c/my root")) with (url_text (mkOrigin (lit "http") (lit "ab.c")) (mkPath [] (lit "my%20root")) None None).
    apply reference_url; try exact I.
    + left. left. split; [left; reflexivity|]. split; [|split; [split; [constructor|exact I]|exact I]].
      exists [lit "ab"; lit "c"]. split; [discriminate|]. split; [|reflexivity]. repeat constructor; discriminate.
    + split; [constructor|]. 
      repeat (first [apply plain_nil | apply plain_escape; [reflexivity|reflexivity|intros [_ [E|E]]; discriminate|]
                    | apply plain_cons; [reflexivity|]]).
Qed.
