(** * C84, C85: names with a scheme but without "//" *)
From Verif Require Import Base M_Util M_SourceMap M_Json M_MapLib M_Consumer S_Consumer S_Url S_UrlKind
  F_UrlRef F_MapLibRef F_UrlText F_Opaque.

(** ** C84: "node:fs" *)

(** Instead of the scheme there is one ".." more than occur in the name. *)
Theorem C84_scheme_replaced : forall (md : mode) (U : UrlLib) (C : UrlContract U) (s t : str) (q f : option str) (k : nat)
    (scheme : any_scheme s) (text : opaque_text t) (query : plain_opt q) (fragment : plain_opt f)
    (bound : len (opaque_url s t q f) <= 2147483645) (dots : max_dotdots (opaque_url s t q f) k),
  compute_source_url md U None (opaque_url s t q f) None
  = Ok (dirs_text (repeat dotdot (S k)) ++ t ++ glue q ++ glue f).
Proof. exact opaque_source. Qed.
Print Assumptions C84_scheme_replaced.

(** So with any root and map URL, names that differ in the scheme have the same URL. *)
Theorem C84_scheme_lost : forall (md : mode) (U : UrlLib) (C : UrlContract U) (root : option str)
    (s s' t : str) (q f : option str) (k : nat) (map_url : option str)
    (scheme : any_scheme s) (scheme' : any_scheme s') (text : opaque_text t) (query : plain_opt q) (fragment : plain_opt f)
    (bound : len (opaque_url s t q f) <= 2147483645) (bound' : len (opaque_url s' t q f) <= 2147483645)
    (dots : max_dotdots (opaque_url s t q f) k) (dots' : max_dotdots (opaque_url s' t q f) k),
  compute_source_url md U root (opaque_url s t q f) map_url
  = compute_source_url md U root (opaque_url s' t q f) map_url.
Proof. exact scheme_lost. Qed.
Print Assumptions C84_scheme_lost.

(** Below a root the ".." lead out of it. *)
Theorem C84_relative_root : forall (md : mode) (U : UrlLib) (C : UrlContract U) (s : str) (p : path) (k : nat) (r : path)
    (scheme : any_scheme s) (plain_p : plain_path p) (nonempty : path_text p <> [])
    (dots : max_dotdots (opaque_url s (path_text p) None None) k) (plain_r : plain_path r) (long : 2 <= len (path_text r))
    (bound : len (opaque_url s (path_text p) None None) + len (path_text r) + 3 * Z.of_nat k <= 2147483640),
  compute_source_url md U (Some (path_text r)) (opaque_url s (path_text p) None None) None
  = Ok (path_text (normal (below r (mkPath (repeat dotdot (S k) ++ dirs p) (file p))))).
Proof. exact opaque_below_rel. Qed.
Print Assumptions C84_relative_root.

Theorem C84_absolute_root : forall (md : mode) (U : UrlLib) (C : UrlContract U) (s : str) (p : path) (k : nat)
    (r : path) (q f : option str)
    (scheme : any_scheme s) (plain_p : plain_path p) (nonempty : path_text p <> [])
    (dots : max_dotdots (opaque_url s (path_text p) None None) k)
    (bound : len (opaque_url s (path_text p) None None) <= 2147483645)
    (plain_r : plain_path r) (query : plain_opt q) (fragment : plain_opt f)
    (long : 1 <= len (path_text r ++ tail_text q f)) (bound_r : len (abs_text r ++ tail_text q f) <= 2147483645),
  compute_source_url md U (Some (abs_text r ++ tail_text q f)) (opaque_url s (path_text p) None None) None
  = Ok (abs_text (resolve_from [] (below r (mkPath (repeat dotdot (S k) ++ dirs p) (file p))))).
Proof. exact opaque_below_abs. Qed.
Print Assumptions C84_absolute_root.

Theorem C84_url_root : forall (md : mode) (U : UrlLib) (C : UrlContract U) (s : str) (p : path) (k : nat)
    (o : origin) (r : path) (q f : option str)
    (scheme : any_scheme s) (plain_p : plain_path p) (nonempty : path_text p <> [])
    (dots : max_dotdots (opaque_url s (path_text p) None None) k)
    (bound : len (opaque_url s (path_text p) None None) <= 2147483645)
    (plain_o : plain_origin o) (plain_r : plain_path r) (query : plain_opt q) (fragment : plain_opt f)
    (bound_r : len (url_text o r q f) <= 2147483645),
  compute_source_url md U (Some (url_text o r q f)) (opaque_url s (path_text p) None None) None
  = Ok (url_text o (resolve_from [] (below r (mkPath (repeat dotdot (S k) ++ dirs p) (file p)))) None None).
Proof. exact opaque_below_url. Qed.
Print Assumptions C84_url_root.

(** relative gives the same whatever the root: a plain path, such a name or
    anything with a "scheme:/" or a '/' in front. *)
Theorem C84_relative : forall (md : mode) (U : UrlLib) (C : UrlContract U) (root s t : str) (q f : option str) (k : nat)
    (any_root : (exists p, root = path_text p /\ plain_path p /\ 2 <= len (path_text p))
       \/ (exists s' t' q' f', root = opaque_url s' t' q' f' /\ any_scheme s' /\ opaque_text t' /\ plain_opt q' /\ plain_opt f')
       \/ (2 <= len root /\ (has_scheme root \/ exists rest, root = lit "/" ++ rest)))
    (scheme : any_scheme s) (text : opaque_text t) (query : plain_opt q) (fragment : plain_opt f)
    (bound : len (root ++ opaque_url s t q f) <= 2147483645) (dots : max_dotdots (opaque_url s t q f) k),
  relative md U root (opaque_url s t q f) = Ok (dirs_text (repeat dotdot (S k)) ++ t ++ glue q ++ glue f).
Proof. exact opaque_relative. Qed.
Print Assumptions C84_relative.

Definition c84_source (root : option str) (s : string) := compute_source_url Debug RefUrl root (lit s) None.
Example C84_case :
  c84_source None "node:fs" = Ok (lit "../fs")
  /\ c84_source None "zlib:fs" = Ok (lit "../fs")
  /\ c84_source None "C:\src\a.js" = Ok (lit "../\src\a.js")
  /\ c84_source None "data:text/plain,a?x#y" = Ok (lit "../text/plain,axy")
  /\ c84_source None "node:a/../b" = Ok (lit "../../a/../b")
  /\ c84_source (Some (lit "src/lib")) "node:fs" = Ok (lit "src/fs")
  /\ c84_source (Some (lit "src")) "node:fs" = Ok (lit "fs")
  /\ c84_source (Some (lit "http://h/d/e")) "node:fs" = Ok (lit "http://h/d/fs")
  /\ relative Debug RefUrl (lit "node:a/b") (lit "node:a/c") = Ok (lit "../a/c")
  /\ relative Debug RefUrl (lit "src") (lit "node:fs") = Ok (lit "../fs")
  (* the special schemes are joined to the base: "http:x" is the path x *)
  /\ ~ any_scheme (lit "HTTP").
Proof. repeat (split; [vm_compute; reflexivity|]). intros [_ H]. apply H. left. reflexivity. Qed.

Lemma c84_scheme : any_scheme (lit "node") /\ any_scheme (lit "C").
Proof.
  split; (split; [|intros H; cbn in H; repeat (destruct H as [H|H]; [discriminate|]); exact H]).
  - exists (ch "n"), (lit "ode"). split; [reflexivity|]. split; [reflexivity|].
    repeat (apply Forall_cons; [left; reflexivity|]). constructor.
  - exists (ch "c"), []. split; [reflexivity|]. split; [reflexivity|]. constructor.
Qed.

(** The theorem at work *)
Example C84_instance : forall md U (C : UrlContract U), compute_source_url md U None (lit "node:fs") None = Ok (lit "../fs").
Proof.
  intros md U C. apply (C84_scheme_replaced md U C (lit "node") (lit "fs") None None 0); try exact I.
  - apply c84_scheme.
  - split; [discriminate|]. split; [discriminate|]. repeat constructor.
  - vm_compute. discriminate.
  - exact (count_max (lit "node:fs")).
Qed.

(** Two modules, one source: what belongs to the second is found under the first *)
Definition c84_map : str :=
  lit "{""version"":3,""sources"":[""node:fs"",""zlib:fs""],""names"":[],""mappings"":""AAAA,CCAA""}".
Example C84_map_case :
  (let* c := bc_new Debug RefLib RefUrl c84_map None in Ok (bc_get_sources RefLib c)) = Ok [lit "../fs"; lit "../fs"]
  /\ (let* c := bc_new Debug RefLib RefUrl c84_map None in
      answer (bc_find_source_index Debug RefLib RefUrl c (lit "zlib:fs"))) = Ok (Some 0).
Proof. vm_compute. split; reflexivity. Qed.

(** ** C85: "C:/src/a.js" *)

(** An absolute URL: the scheme in lower case, no dot segments, no root. *)
Theorem C85_rooted : forall (md : mode) (U : UrlLib) (C : UrlContract U) (root : option str) (s : str) (p : path) (q f : option str)
    (any_root : forall r, root = Some r -> plain_root r)
    (scheme : any_scheme s) (plain_p : plain_path p) (query : plain_opt q) (fragment : plain_opt f)
    (bound : len (opaque_url s (abs_text p) q f) <= 2147483645),
  compute_source_url md U root (opaque_url s (abs_text p) q f) None
  = Ok (opaque_url (map to_lower s) (abs_text (resolve_from [] p)) q f).
Proof. exact rooted_source. Qed.
Print Assumptions C85_rooted.

(** join returns it as it is. *)
Theorem C85_join : forall (md : mode) (U : UrlLib) (C : UrlContract U) (root s : str) (p : path) (q f : option str)
    (plain_r : plain_root root) (scheme : any_scheme s),
  url_join md U root (opaque_url s (abs_text p) q f) = Ok (opaque_url s (abs_text p) q f).
Proof. exact join_rooted. Qed.
Print Assumptions C85_join.

Example C85_case :
  c84_source None "C:/src/a.js" = Ok (lit "c:/src/a.js")
  /\ c84_source None "C:/src/../../a.js?X" = Ok (lit "c:/a.js?X")
  /\ c84_source (Some (lit "src/lib")) "C:/a.js" = Ok (lit "c:/a.js")
  /\ c84_source (Some (lit "http://h/d")) "C:/a.js" = Ok (lit "c:/a.js")
  /\ url_join Debug RefUrl (lit "src") (lit "C:/d/../a.js") = Ok (lit "C:/d/../a.js").
Proof. vm_compute. repeat split; reflexivity. Qed.

Example C85_instance : forall md U (C : UrlContract U),
  compute_source_url md U None (lit "C:/src/./a.js") None = Ok (lit "c:/src/a.js").
Proof.
  intros md U C. apply (C85_rooted md U C None (lit "C") (mkPath [lit "src"; dot] (lit "a.js")) None None); try exact I.
  - discriminate.
  - apply c84_scheme.
  - split; repeat constructor; discriminate.
  - vm_compute. discriminate.
Qed.
