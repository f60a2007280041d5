(** * C92: relative map URLs *)
From Verif Require Import Base M_Util M_SourceMap M_Json M_MapLib M_Consumer S_Url S_Refs S_MapUrl
  F_UrlRef F_MapLibRef F_UrlText F_UrlProps F_MapUrl.

(** There is always one such name. *)
Theorem C92_internal_name : forall (s : str) (bound : len s <= 2147483645), exists a, forall b, internal_name s b <-> b = a.
Proof. exact internal_one. Qed.
Print Assumptions C92_internal_name.

(** The directory that TRIM_FILENAME makes of the map URL *)
Theorem C92_directory : forall (md : mode) (U : UrlLib) (url_crate : UrlContract U) (m : path) (q f : option str)
    (n : nat) (name : str) (chars_m : plain_path m) (some_path : path_text m <> [])
    (chars_q : plain_opt q) (chars_f : plain_opt f),
  let url := path_text m ++ tail_text q f in
  forall (length : 2 <= len url <= 2147483645) (dots : max_dotdots url n) (internal : internal_name url name),
  TRIM_FILENAME md U url = Ok (path_text (map_directory n name m (glue q ++ glue f))).
Proof. exact TRIM_any. Qed.
Print Assumptions C92_directory.

(** Any source is resolved in it; if it has fewer than two characters, that panics. *)
Theorem C92_source : forall (md : mode) (U : UrlLib) (url_crate : UrlContract U) (root : option str) (src : str) (s : ref)
    (m : path) (q f : option str) (n : nat) (name : str)
    (source : compute_source_url md U root src None = Ok (ref_text s)) (chars_s : plain_ref s)
    (chars_m : plain_path m) (some_path : path_text m <> []) (chars_q : plain_opt q) (chars_f : plain_opt f),
  let url := path_text m ++ tail_text q f in
  let dir := map_directory n name m (glue q ++ glue f) in
  forall (length : 2 <= len url <= 2147483645) (dots : max_dotdots url n) (internal : internal_name url name)
    (bound : len (path_text dir) + len (ref_text s) <= 2147483644),
  compute_source_url md U root src (Some url)
  = if Z_lt_dec (len (path_text dir)) 2 then Panic PUnwrapNone
    else Ok (given_text (resolved (RRel dir None None) s)).
Proof. exact map_url_any. Qed.
Print Assumptions C92_source.

(** Which of them work for relative sources: [n] is the number of ".." in the
    text, [u] the number of levels that the URL leads up, before it leads down
    into [ds]. *)
Theorem C92_verdict : forall (md : mode) (U : UrlLib) (url_crate : UrlContract U) (root : option str) (src : str) (s m : path)
    (n : nat) (name : str) (u : nat) (ds : list str)
    (source : compute_source_url md U root src None = Ok (path_text s)) (chars_s : plain_path s)
    (long_s : 2 <= len (path_text s)) (chars_m : plain_path m) (way : leads m u ds),
  let url := path_text m in
  forall (length : 2 <= len url <= 2147483645) (dots : max_dotdots url n) (internal : internal_name url name)
    (bound : len (path_text (map_directory n name m [])) + len (path_text s) <= 2147483644),
  let right := path_text (normal (below (mkPath (dirs (normal m)) []) s)) in
  let panics := n = O /\ len (concat ds) < 2
                \/ n = 1%nat /\ (u = O /\ ds = [] \/ u = 1%nat /\ concat ds = name) in
  let works := n = u /\ len ds <= 1 \/ n = S u /\ ds = [] in
  let r := compute_source_url md U root src (Some url) in
  (panics -> r = Panic PUnwrapNone)
  /\ (~ panics -> works -> r = Ok right)
  /\ (~ panics -> ~ works -> exists t, r = Ok t /\ t <> right).
Proof. exact verdict_dots. Qed.
Print Assumptions C92_verdict.

(** The expectation that a map URL and its normal form mean the same is false. *)
Theorem C92_normal_map_url_refuted : exists (m s : path), plain_path m /\ plain_path s
  /\ compute_source_url Debug RefUrl None (path_text s) (Some (path_text m)) = Ok (lit "../p0ee/s.js")
  /\ compute_source_url Debug RefUrl None (path_text s) (Some (path_text (normal m))) = Ok (lit "ee/s.js").
Proof.
  exists (mkPath [lit "d"; dotdot; lit "ee"] (lit "f.map")), (mkPath [] (lit "s.js")).
  split; [split; repeat constructor; discriminate|]. split; [split; repeat constructor; discriminate|].
  vm_compute. split; reflexivity.
Qed.
Print Assumptions C92_normal_map_url_refuted.

Example C92_case :
  map (fun u => compute_source_url Debug RefUrl None (lit "s.js") (Some (lit u)))
    ["d/../ee/f.map"; "d/e/../../ff/f.map"; "lib..js/f.map"; "dist/app..map"; "p0/../dd/f.map";
     "../d/f.map"; "../../d/e/f.map"; "../d/../f.map"; "../../p/0/f.map"; "d/../ee/f.map?v#w";
     "d/../f.map"; "app..map"; "../p/0/f.map"]%string
  = map (fun t => Ok (lit t))
    ["../p0ee/s.js"; "../../p0p0ff/s.js"; "../p0lib..js/s.js"; "../p0dist/s.js"; "../p1dd/s.js";
     "../d/s.js"; "../../de/s.js"; "../s.js"; "../s.js"; "../p0eevw/s.js"]%string
    ++ [Panic PUnwrapNone; Panic PUnwrapNone; Panic PUnwrapNone].
Proof. vm_compute. reflexivity. Qed.

Definition c92_map : str :=
  lit "{""version"":3,""sources"":[""s.js"",""/r.js"",""../t.js""],""names"":[],""mappings"":""AAAA""}".
Example C92_map_case :
  (let* c := bc_new Debug RefLib RefUrl c92_map (Some (lit "d/../ee/f.map")) in Ok (bc_get_sources RefLib c))
  = Ok [lit "../p0ee/s.js"; lit "/r.js"; lit "../t.js"].
Proof. vm_compute. reflexivity. Qed.

(** The theorem at work *)
Example C92_instance : forall md U (C : UrlContract U),
  compute_source_url md U None (lit "s.js") (Some (lit "d/../ee/f.map")) = Ok (lit "../p0ee/s.js").
Proof.
  intros md U C.
  assert (I : internal_name (lit "d/../ee/f.map") (lit "p0")).
  { exists (lit "0"), 0. split; [apply (dec_digit 0); lia|]. split; [reflexivity|]. split.
    - intros S. apply contains_iff in S. discriminate.
    - intros t m D L. exfalso. assert (0 <= m) by (clear -D; induction D; lia). lia. }
  assert (E : compute_source_url md U None (lit "s.js") None = Ok (lit "s.js")).
  { apply (source_plain md U C (mkPath [] (lit "s.js"))); [split; repeat constructor; discriminate|].
    vm_compute. split; discriminate. }
  exact (C92_source md U C None (lit "s.js") (RRel (mkPath [] (lit "s.js")) None None)
           (mkPath [lit "d"; dotdot; lit "ee"] (lit "f.map")) None None 1 (lit "p0") E
           ltac:(split; [split; [split; repeat constructor; discriminate|repeat split; discriminate]|vm_compute; discriminate])
           ltac:(split; repeat constructor; discriminate) ltac:(discriminate) Logic.I Logic.I
           ltac:(vm_compute; split; discriminate) (count_max (lit "d/../ee/f.map")) I ltac:(vm_compute; discriminate)).
Qed.
