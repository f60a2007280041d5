(** * C91: names with backslashes *)
From Verif Require Import Base M_Util M_SourceMap M_Json M_MapLib M_Consumer S_Consumer S_Url S_Backslash
  F_UrlRef F_MapLibRef F_UrlText F_Backslash.

(** Slashes beforehand make no difference, below any root and for any map URL. *)
Theorem C91_source : forall (md : mode) (U : UrlLib) (url_crate : UrlContract U) (root : option str) (t : str) (url : option str)
    (name : windows_name t),
  compute_source_url md U root t url = compute_source_url md U root (slashes t) url.
Proof. exact source_slashes. Qed.
Print Assumptions C91_source.

Theorem C91_relative : forall (md : mode) (U : UrlLib) (url_crate : UrlContract U) (root t : str)
    (name : windows_name t) (bound : len root + len t <= 2147483645),
  relative md U root t = relative md U root (slashes t).
Proof. exact relative_slashes. Qed.
Print Assumptions C91_relative.

(** So "src\a.js" comes out as the normal form of "src/a.js" ... *)
Theorem C91_normal : forall (md : mode) (U : UrlLib) (url_crate : UrlContract U) (t : str) (p : path)
    (name : windows_name t) (text : slashes t = path_text p) (plain_p : plain_path p) (long : 2 <= len t),
  compute_source_url md U None t None = Ok (path_text (normal p)).
Proof. exact windows_source. Qed.
Print Assumptions C91_normal.

(** ... also below a root. *)
Theorem C91_below : forall (md : mode) (U : UrlLib) (url_crate : UrlContract U) (t : str) (p r : path)
    (name : windows_name t) (text : slashes t = path_text p) (plain_p : plain_path p) (plain_r : plain_path r)
    (long : 2 <= len t) (long_root : 2 <= len (path_text r)) (long_normal : 2 <= len (path_text (normal p)))
    (bound : len (path_text r) + len t <= 2147483643),
  compute_source_url md U (Some (path_text r)) t None = Ok (path_text (normal (below r p))).
Proof. exact windows_below. Qed.
Print Assumptions C91_below.

(** Consumers find a source by either spelling. *)
Theorem C91_lookup : forall (md : mode) (U : UrlLib) (url_crate : UrlContract U) (L : MapLib)
    (c0 : BasicConsumer L) (qs : list query) (c : BasicConsumer L) (t : str)
    (fresh : opened md L U c0) (history : asked md L U c0 qs = Ok c)
    (few_sources : len (bc_get_sources L c0) < 2^31) (name : windows_name t),
  answer (bc_find_source_index md L U c t) = answer (bc_find_source_index md L U c (slashes t)).
Proof. exact lookup_slashes. Qed.
Print Assumptions C91_lookup.

(** A backslash in front: the name counts as relative, but is resolved from the
    root; "\\host" is lost; every ".." of the name is put in front. *)
Theorem C91_leading : forall (md : mode) (U : UrlLib) (url_crate : UrlContract U) (r : str) (h : option str) (p : path) (k : nat)
    (text : slashes (92%N :: r) = share h p) (host : match h with Some h => plain_host h | None => True end)
    (plain_p : plain_path p) (more : r <> []) (bound : len (92%N :: r) <= 2147483645) (dots : max_dotdots (92%N :: r) k),
  compute_source_url md U None (92%N :: r) None = Ok (path_text (climbed k p)).
Proof. exact leading_source. Qed.
Print Assumptions C91_leading.

Theorem C91_leading_relative_root : forall (md : mode) (U : UrlLib) (url_crate : UrlContract U)
    (r : str) (h : option str) (p : path) (k : nat)
    (text : slashes (92%N :: r) = share h p) (host : match h with Some h => plain_host h | None => True end)
    (plain_p : plain_path p) (more : r <> []) (bound : len (92%N :: r) <= 2147483645) (dots : max_dotdots (92%N :: r) k)
    (a : path) (plain_a : plain_path a) (long_root : 2 <= len (path_text a)) (long : 2 <= len (path_text (climbed k p)))
    (bound_a : len (path_text a) + len (path_text (climbed k p)) <= 2147483644),
  compute_source_url md U (Some (path_text a)) (92%N :: r) None = Ok (path_text (normal (below a (climbed k p)))).
Proof. exact leading_below_rel. Qed.
Print Assumptions C91_leading_relative_root.

Theorem C91_leading_absolute_root : forall (md : mode) (U : UrlLib) (url_crate : UrlContract U)
    (r : str) (h : option str) (p : path) (k : nat)
    (text : slashes (92%N :: r) = share h p) (host : match h with Some h => plain_host h | None => True end)
    (plain_p : plain_path p) (more : r <> []) (bound : len (92%N :: r) <= 2147483645) (dots : max_dotdots (92%N :: r) k)
    (a : path) (q f : option str) (plain_a : plain_path a) (query : plain_opt q) (fragment : plain_opt f)
    (long_root : 1 <= len (path_text a ++ tail_text q f)) (bound_a : len (abs_text a ++ tail_text q f) <= 2147483645)
    (long : 2 <= len (path_text (climbed k p))),
  compute_source_url md U (Some (abs_text a ++ tail_text q f)) (92%N :: r) None
  = Ok (abs_text (resolve_from [] (below a (climbed k p)))).
Proof. exact leading_below_abs. Qed.
Print Assumptions C91_leading_absolute_root.

Theorem C91_leading_url_root : forall (md : mode) (U : UrlLib) (url_crate : UrlContract U)
    (r : str) (h : option str) (p : path) (k : nat)
    (text : slashes (92%N :: r) = share h p) (host : match h with Some h => plain_host h | None => True end)
    (plain_p : plain_path p) (more : r <> []) (bound : len (92%N :: r) <= 2147483645) (dots : max_dotdots (92%N :: r) k)
    (o : origin) (a : path) (q f : option str) (plain_o : plain_origin o) (plain_a : plain_path a)
    (query : plain_opt q) (fragment : plain_opt f) (bound_a : len (url_text o a q f) <= 2147483645)
    (long : 2 <= len (path_text (climbed k p))),
  compute_source_url md U (Some (url_text o a q f)) (92%N :: r) None
  = Ok (url_text o (resolve_from [] (below a (climbed k p))) None None).
Proof. exact leading_below_url. Qed.
Print Assumptions C91_leading_url_root.

(** Not so with a backslash in front: the two spellings differ. *)
Theorem C91_any_name_refuted : exists t : str, path_reference (slashes t) /\ len t <= 2147483645
  /\ compute_source_url Debug RefUrl None t None <> compute_source_url Debug RefUrl None (slashes t) None.
Proof.
  exists (lit "\a\b"). split; [|split; [vm_compute; discriminate|vm_compute; discriminate]].
  apply (path_reference_abs (mkPath [lit "a"] (lit "b"))). split; repeat constructor. discriminate.
Qed.
Print Assumptions C91_any_name_refuted.

Definition c91_source (root : option string) (s : string) := compute_source_url Debug RefUrl (option_map lit root) (lit s) None.
Example C91_case :
  c91_source None "src\lib\..\a.js" = Ok (lit "src/a.js")
  /\ c91_source None "..\src/a.js" = Ok (lit "../src/a.js")
  /\ c91_source (Some "lib"%string) "..\src\a.js" = Ok (lit "src/a.js")
  /\ c91_source (Some "http://h/d"%string) "/src\a.js" = Ok (lit "http://h/d/src/a.js")
  /\ c91_source None "//srv\src\a.js" = Ok (lit "//srv/src/a.js")
  /\ c91_source None "\src\a.js" = Ok (lit "src/a.js")
  /\ c91_source None "\src\..\..\a.js" = Ok (lit "../../a.js")
  /\ c91_source None "\\srv\src\a.js" = Ok (lit "src/a.js")
  /\ c91_source (Some "http://h/d"%string) "\src\..\a.js" = Ok (lit "http://h/a.js")
  (* counted as absolute path, then cut like one: neither the path nor the host *)
  /\ c91_source None "/\src\a.js" = Ok (lit "a.js").
Proof. vm_compute. repeat split; reflexivity. Qed.

Definition c91_map : str :=
  lit "{""version"":3,""sources"":[""src\\a.js"",""src/a.js"",""b\\c.js""],""names"":[],""mappings"":""AAAA""}".
Example C91_map_case :
  (let* c := bc_new Debug RefLib RefUrl c91_map None in Ok (bc_get_sources RefLib c)) = Ok [lit "src/a.js"; lit "src/a.js"; lit "b/c.js"]
  /\ (let* c := bc_new Debug RefLib RefUrl c91_map None in
      answer (bc_find_source_index Debug RefLib RefUrl c (lit ".\b\c.js"))) = Ok (Some 2).
Proof. vm_compute. split; reflexivity. Qed.

(** The theorems at work *)
Example C91_instance : forall md U (C : UrlContract U),
  compute_source_url md U None (lit "src\..\a.js") None = Ok (lit "a.js")
  /\ compute_source_url md U None (lit "\\ab.c\src\..\a.js") None = Ok (lit "../a.js").
Proof.
  intros md U C. split.
  - apply (C91_normal md U C (lit "src\..\a.js") (mkPath [lit "src"; dotdot] (lit "a.js"))).
    + split; [|split; [vm_compute; discriminate|split; intros r; discriminate]].
      apply (path_reference_rel (mkPath [lit "src"; dotdot] (lit "a.js"))); [|discriminate].
      split; repeat constructor; discriminate.
    + reflexivity.
    + split; repeat constructor; discriminate.
    + vm_compute. discriminate.
  - apply (C91_leading md U C (lit "\ab.c\src\..\a.js") (Some (lit "ab.c")) (mkPath [lit "src"; dotdot] (lit "a.js")) 1).
    + reflexivity.
    + exists [lit "ab"; lit "c"]. split; [discriminate|]. split; [|reflexivity]. repeat constructor; discriminate.
    + split; repeat constructor; discriminate.
    + discriminate.
    + vm_compute. discriminate.
    + exact (count_max (lit "\\ab.c\src\..\a.js")).
Qed.
