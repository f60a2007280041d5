(** * C83: references that the url crate refuses *)
From Verif Require Import Base M_Mapping M_Util M_SourceMap M_Json M_MapLib M_Generator M_Consumer M_Indexed
  S_Generator S_Json S_Consumer S_UrlKind S_Refused F_GeneratorProps F_Refused F_UrlRef F_MapLibRef.

(** These hold for every URL library: nothing is assumed of it. *)
Theorem C83_source : forall (md : mode) (U : UrlLib) (root : option str) (source : str) (map_url : option str)
    (bad : refused U source) (kept : root = None \/ ~ one_slash source),
  is_panic (compute_source_url md U root source map_url).
Proof. exact refused_source. Qed.
Print Assumptions C83_source.

(** Under a root a single '/' in front is taken off first. *)
Theorem C83_slash_source : forall (md : mode) (U : UrlLib) (root source : str) (map_url : option str)
    (bad : refused U source) (slash : one_slash (lit "/" ++ source)),
  is_panic (compute_source_url md U (Some root) (lit "/" ++ source) map_url).
Proof. exact refused_slash. Qed.
Print Assumptions C83_slash_source.

Theorem C83_root : forall (md : mode) (U : UrlLib) (root source : str) (map_url : option str) (bad : refused U root),
  is_panic (compute_source_url md U (Some root) source map_url).
Proof. exact refused_source_root. Qed.
Print Assumptions C83_root.

Theorem C83_map_url : forall (md : mode) (U : UrlLib) (root : option str) (source map_url : str) (bad : refused U map_url),
  is_panic (compute_source_url md U root source (Some map_url)).
Proof. exact refused_map_url. Qed.
Print Assumptions C83_map_url.

(** join and relative.  Only a path with a scheme is not looked at by join: when
    it returns at all, it returns the path. *)
Theorem C83_join : forall (md : mode) (U : UrlLib) (root path : str),
  (refused U root -> is_panic (url_join md U root path))
  /\ (refused U path -> ~ has_scheme path -> is_panic (url_join md U root path))
  /\ (forall result, has_scheme path -> url_join md U root path = Ok result -> result = path).
Proof.
  exact (fun md U root path => conj (refused_root md U root path)
    (conj (refused_path md U root path) (url_path_unchecked md U root path))).
Qed.
Print Assumptions C83_join.

Theorem C83_relative : forall (md : mode) (U : UrlLib) (root target : str) (bad : refused U target),
  is_panic (relative md U root target).
Proof. exact refused_relative. Qed.
Print Assumptions C83_relative.

(** One such source, root or map URL: the map does not open, and this is a panic
    rather than an [Err]. *)
Theorem C83_map_panics : forall (md : mode) (L : MapLib) (U : UrlLib) (order : list nat)
    (s : str) (url : option str) (m : SourceMapJson) (srcs : list str)
    (text : map_text s m) (basic : smj_sections m = None) (sources : smj_sources m = Some srcs)
    (bad : (exists x, In x srcs /\ refused U x /\ (smj_source_root m = None \/ ~ one_slash x))
           \/ (srcs <> [] /\ ((exists r, smj_source_root m = Some r /\ refused U r)
                              \/ (exists u, url = Some u /\ refused U u)))),
  is_panic (create_consumer md L U order s url) /\ is_panic (bc_new md L U s url).
Proof.
  intros md L U order s url m srcs T B S H.
  exact (conj (refused_not_opened md U L order s url m srcs T B S H) (refused_not_new md U L s url m srcs T S H)).
Qed.
Print Assumptions C83_map_panics.

(** Asking an open map about such a name, whatever was asked before *)
Theorem C83_query : forall (md : mode) (U : UrlLib) (L : MapLib) (c0 : BasicConsumer L) (qs : list query)
    (c : BasicConsumer L) (src : str)
    (fresh : opened md L U c0) (history : asked md L U c0 qs = Ok c) (bad : refused U src),
  is_panic (bc_find_source_index md L U c src)
  /\ (forall line column b, is_panic (bc_generated_position_for md L U c src line column b))
  /\ (forall line column, is_panic (bc_all_generated_position_for md L U c src line column))
  /\ (forall p, smj_sources_content (bc_source_map c) <> None -> is_panic (bc_source_content_for md L U c src p)).
Proof. exact refused_query. Qed.
Print Assumptions C83_query.

(** The generator looks at a name only when it sets its content under a root. *)
Theorem C83_content : forall (md : mode) (U : UrlLib) (g : Generator) (root file : str) (content : option str)
    (under : g_source_root g = Some root) (bad : refused U file),
  is_panic (gen_set_source_content md U g file content).
Proof. exact refused_content. Qed.
Print Assumptions C83_content.

Definition c83_bad : str := lit "http://[/a.js".
Definition c83_mapping : Mapping :=
  mkMapping (mkPos 1 0) (Some (mkPos 1 0)) (Some c83_bad) None None.
(** The generator writes a map that no consumer opens. *)
Example C83_case :
  refused RefUrl c83_bad /\ refused RefUrl (lit "//[/a")
  /\ (let* j := observe_json Debug RefUrl (gen_new None None false) [GAdd c83_mapping] in Ok (smj_sources j))
     = Ok (Some [c83_bad])
  /\ match observe_json Debug RefUrl (gen_new None None false) [GAdd c83_mapping] with
     | Ok j => is_some (smj_from_str (smj_to_string j)) = true
               /\ (let* c := create_consumer Debug RefLib RefUrl [] (smj_to_string j) None in Ok (is_some c)) = Panic PUnwrapErr
     | Panic _ => False
     end
  /\ (let* c := bc_new Debug RefLib RefUrl (lit "{""version"":3,""sources"":[""b.js""],""names"":[],""mappings"":""AAAA""}") None in
      answer (bc_generated_position_for Debug RefLib RefUrl c c83_bad 1 0 None)) = Panic PUnwrapErr
  (* join does not look at a path with a scheme *)
  /\ url_join Debug RefUrl (lit "src") c83_bad = Ok c83_bad
  /\ url_join Debug RefUrl (lit "src") (lit "//[/a") = Panic PUnwrapErr
  /\ url_join Debug RefUrl (lit "http://h/d") (lit "//[/a") = Panic PUnwrapErr
  /\ compute_source_url Debug RefUrl (Some (lit "src")) (lit "/http://[/a.js") None = Panic PUnwrapErr.
Proof.
  split; [intros u; destruct u; reflexivity|].
  split; [intros u; cbn [ul_join RefUrl]; rewrite ref_slashed_id by (vm_compute; intuition discriminate); destruct u; reflexivity|].
  vm_compute. repeat split; reflexivity.
Qed.
