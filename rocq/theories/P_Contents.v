(** * C61, C62: source contents, with or without a source root

    Unlike C19-C26 these hold for every root: there, what [relative] does (which
    may panic) comes in. *)
From Verif Require Import Base M_ArraySet M_Mapping M_Util M_SourceMap M_Generator
  S_Vlq S_List S_Decode S_Mapping S_Generator S_Far S_Contents S_Url F_MappingList F_Generator F_GeneratorProps F_Contents F_UrlRef.

(** ** C61: contents and the rest do not affect each other *)
Theorem C61_contents_independent : forall (md : mode) (U : UrlLib) (file root : option str) (skip : bool)
    (ops : list gen_op) (g : Generator) (j : SourceMapJson) (g' : Generator)
    (run : gen_run md U (gen_new file root skip) ops = Ok g)
    (json : gen_as_json md U g = Ok (j, g')),
  exists g2 j2 g2', gen_run md U (gen_new file root skip) (without_content ops) = Ok g2
    /\ gen_as_json md U g2 = Ok (j2, g2')
    /\ smj_version j2 = smj_version j /\ smj_sources j2 = smj_sources j /\ smj_names j2 = smj_names j
    /\ smj_mappings j2 = smj_mappings j /\ smj_file j2 = smj_file j /\ smj_source_root j2 = smj_source_root j
    /\ smj_sections j2 = smj_sections j /\ smj_sources_content j2 = None.
Proof. exact contents_independent. Qed.
Print Assumptions C61_contents_independent.

(** So the round trip C20, C22 and the line structure C24 hold whenever the calls
    return. *)
Theorem C61_roundtrip : forall (md : mode) (U : UrlLib) (file root : option str) (skip : bool)
    (ops : list gen_op) (g : Generator) (j : SourceMapJson) (g' : Generator)
    (valid : Forall valid_mapping (added_mappings ops))
    (near : steps_fit ops)
    (few : few_names (2^30) (added_mappings ops))
    (run : gen_run md U (gen_new file root skip) ops = Ok g)
    (json : gen_as_json md U g = Ok (j, g')),
  exists a r, held (list_ops ops ++ [ToArray]) a
    /\ read_json j = Some r /\ collapsed (map written a) r
    /\ (forall x, In x r <-> exists m, In m (added_mappings ops) /\ x = written m) /\ gen_sorted r
    /\ (NoDup (map m_generated (added_mappings ops)) -> NoDup r)
    /\ (~ In GJson ops -> ~ gen_sorted (added_mappings ops) -> NoDup r).
Proof. exact roundtrip_held. Qed.
Print Assumptions C61_roundtrip.

Theorem C61_line_structure : forall (md : mode) (U : UrlLib) (file root : option str) (skip : bool)
    (ops : list gen_op) (g : Generator) (j : SourceMapJson) (g' : Generator)
    (valid : Forall encodable (added_mappings ops))
    (few : few_names 2147483648 (added_mappings ops))
    (run : gen_run md U (gen_new file root skip) ops = Ok g)
    (json : gen_as_json md U g = Ok (j, g')),
  exists s n, smj_mappings j = Some s /\ is_last_line (added_mappings ops) n
    /\ Z.of_nat (count_occ N.eq_dec s (ch ";")) = n - 1 /\ good_text short_field s.
Proof. exact structure_any_root. Qed.
Print Assumptions C61_line_structure.

(** ... and if one does not, [relative] panicked on the file of a
    set_source_content call or on a source. *)
Theorem C61_only_relative_panics : forall (md : mode) (U : UrlLib) (file : option str) (root : str) (skip : bool)
    (ops : list gen_op) (p : panic_kind)
    (valid : Forall encodable (added_mappings ops))
    (few : few_names 2147483648 (added_mappings ops))
    (panics : (let* g := gen_run md U (gen_new file (Some root) skip) ops in gen_as_json md U g) = Panic p),
  exists s, relative md U root s = Panic p
    /\ ((exists c, In (GContent s c) ops) \/ (exists m, In m (added_mappings ops) /\ m_source m = Some s)).
Proof. exact only_relative_panics. Qed.
Print Assumptions C61_only_relative_panics.

(** Whatever the mappings: contents add no other panic than those. *)
Theorem C61_panics : forall (md : mode) (U : UrlLib) (file root : option str) (skip : bool) (ops : list gen_op) (p : panic_kind)
    (panics : observe_json md U (gen_new file root skip) ops = Panic p),
  observe_json md U (gen_new file root skip) (without_content ops) = Panic p
  \/ exists r s, root = Some r /\ relative md U r s = Panic p
     /\ ((exists c, In (GContent s c) ops) \/ (exists m, In m (added_mappings ops) /\ m_source m = Some s)).
Proof. exact contents_panics. Qed.
Print Assumptions C61_panics.

Definition c61_m (line : Z) (s : string) : Mapping :=
  mkMapping (mkPos line 0) (Some (mkPos 1 0)) (Some (lit s)) (Some (lit "n")) None.
(** Two spellings of one file, one file outside the root, and a source that is a
    relative path. *)
Definition c61_ops : list gen_op :=
  [GContent (lit "http://h/lib/src/./a.js") (Some (lit "old"));
   GAdd (c61_m 2 "http://h/lib/src/a.js"); GAdd (c61_m 1 "http://h/lib/x.js"); GAdd (c61_m 2 "./b.js");
   GContent (lit "http://h/lib/x.js") (Some (lit "X")); GJson;
   GContent (lit "http://h/lib/src/a.js") (Some (lit "A"))].
Example C61_case :
  Forall valid_mapping (added_mappings c61_ops) /\ Forall small_mapping (added_mappings c61_ops)
  /\ (let* g := gen_run Debug RefUrl (gen_new None (Some (lit "http://h/lib/src")) false) c61_ops in
      let* r := gen_as_json Debug RefUrl g in
      Ok (smj_sources (fst r), smj_names (fst r), smj_mappings (fst r), smj_source_root (fst r), smj_sources_content (fst r)))
     = Ok (Some [lit "http://h/lib/src/a.js"; lit "http://h/lib/x.js"; lit "./b.js"], Some [lit "n"],
           Some (lit "ACAAA;ACAAA,AFAAA"), Some (lit "http://h/lib/src"), Some [lit "A"; lit "X"])
  /\ (let* g := gen_run Debug RefUrl (gen_new None (Some (lit "http://h/lib/src")) false) (without_content c61_ops) in
      let* r := gen_as_json Debug RefUrl g in
      Ok (smj_sources (fst r), smj_names (fst r), smj_mappings (fst r), smj_source_root (fst r), smj_sources_content (fst r)))
     = Ok (Some [lit "http://h/lib/src/a.js"; lit "http://h/lib/x.js"; lit "./b.js"], Some [lit "n"],
           Some (lit "ACAAA;ACAAA,AFAAA"), Some (lit "http://h/lib/src"), None).
Proof.
  split; [repeat constructor; vm_compute; congruence|].
  split; [repeat constructor; vm_compute; congruence|]. vm_compute. split; reflexivity.
Qed.
(** A mapping with a source but no original position panics with and without contents; a relative root only with
    contents. *)
Example C61_panics_case :
  let lacking := [GAdd (mkMapping (mkPos 1 0) None (Some (lit "http://h/lib/a.js")) None None);
                  GContent (lit "http://h/lib/a.js") (Some (lit "A"))] in
  let near := [GAdd (c61_m 1 "lib/a.js"); GContent (lit "lib/a.js") (Some (lit "A"))] in
  observe_json Debug RefUrl (gen_new None (Some (lit "http://h/lib")) false) lacking = Panic PUnwrapNone
  /\ observe_json Debug RefUrl (gen_new None (Some (lit "http://h/lib")) false) (without_content lacking) = Panic PUnwrapNone
  /\ relative Debug RefUrl (lit "http://h/lib") (lit "http://h/lib/a.js") = Ok (lit "a.js")
  /\ observe_json Debug RefUrl (gen_new None (Some (lit "lib")) false) near = Panic PUnwrapErr
  /\ relative Debug RefUrl (lit "lib") (lit "lib/a.js") = Panic PUnwrapErr
  /\ (let* j := observe_json Debug RefUrl (gen_new None (Some (lit "lib")) false) (without_content near) in Ok (smj_mappings j))
     = Ok (Some (lit "AAAAA")).
Proof. vm_compute. repeat split. Qed.


(** A root of one character: the first set_source_content panics; without
    contents nothing does. *)
Example C61_panic_case :
  observe_json Debug RefUrl (gen_new None (Some (lit "/")) false) c61_ops = Panic PUnwrapNone
  /\ (let* j := observe_json Debug RefUrl (gen_new None (Some (lit "/")) false) (without_content c61_ops) in
      Ok (smj_mappings j)) = Ok (Some (lit "ACAAA;ACAAA,AFAAA"))
  /\ relative Debug RefUrl (lit "/") (lit "http://h/lib/src/./a.js") = Panic PUnwrapNone.
Proof. vm_compute. repeat split; reflexivity. Qed.

(** ** C62: with a root, contents are kept by path relative to it

    [key] is any function that gives what [relative] gives where it returns. *)
Theorem C62_contents_by_key : forall (md : mode) (U : UrlLib) (file : option str) (root : str) (skip : bool)
    (ops : list gen_op) (g : Generator) (j : SourceMapJson) (g' : Generator) (key : str -> str)
    (run : gen_run md U (gen_new file (Some root) skip) ops = Ok g)
    (json : gen_as_json md U g = Ok (j, g'))
    (relative_to_root : forall s k, relative md U root s = Ok k -> key s = k),
  exists sources, smj_sources j = Some sources
    /\ (forall s c, In (GContent s c) ops -> relative md U root s = Ok (key s))
    /\ ((forall k, last_content k (renamed key ops) None = None) -> smj_sources_content j = None)
    /\ ((exists k, last_content k (renamed key ops) None <> None) ->
        (forall s, In s sources -> relative md U root s = Ok (key s))
        /\ smj_sources_content j = Some (present (map (fun s => last_content (key s) (renamed key ops) None) sources))).
Proof. exact contents_by_key. Qed.
Print Assumptions C62_contents_by_key.

Definition c62_key (s : str) : str := match relative Debug RefUrl (lit "http://h/lib/src") s with Ok k => k | Panic _ => [] end.
Example C62_case :
  (forall s k, relative Debug RefUrl (lit "http://h/lib/src") s = Ok k -> c62_key s = k)
  /\ renamed c62_key c61_ops
     = [GContent (lit "a.js") (Some (lit "old"));
        GAdd (c61_m 2 "http://h/lib/src/a.js"); GAdd (c61_m 1 "http://h/lib/x.js"); GAdd (c61_m 2 "./b.js");
        GContent (lit "../x.js") (Some (lit "X")); GJson; GContent (lit "a.js") (Some (lit "A"))]
  /\ map (fun s => last_content (c62_key s) (renamed c62_key c61_ops) None)
         [lit "http://h/lib/src/a.js"; lit "http://h/lib/x.js"; lit "./b.js"] = [Some (lit "A"); Some (lit "X"); None].
Proof.
  split; [unfold c62_key; intros s k ->; reflexivity|]. vm_compute. split; reflexivity.
Qed.

(** The spelling of a source does not matter, and contents can be removed under
    another spelling; a later source without contents, or an earlier one. *)
Example C62_spelling_case :
  (let* j := observe_json Debug RefUrl (gen_new None (Some (lit "http://h/lib/src")) false)
     [GAdd (c61_m 1 "http://h/lib/src/b.js"); GAdd (c61_m 2 "http://h/lib/./src/a.js"); GContent (lit "http://h/lib/src/a.js") (Some (lit "A"));
      GContent (lit "http://h/lib/src/b.js") (Some (lit "B")); GContent (lit "http://h/lib/src/./b.js") None] in
   Ok (smj_sources j, smj_sources_content j))
  = Ok (Some [lit "http://h/lib/src/b.js"; lit "http://h/lib/./src/a.js"], Some [lit "A"]).
Proof. vm_compute. reflexivity. Qed.
