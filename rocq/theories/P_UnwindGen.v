(** * C111: generators after caught panics

    [ops] are the calls in order, [ps] those of them that pass; a panic is caught and the next call made on
    what is left of the generator (S_UnwindGen.v, M_UnwindGen.v). *)
From Verif Require Import F_Base M_ArraySet M_Mapping M_Util M_SourceMap M_Generator M_UnwindGen
  S_Vlq S_List S_Decode S_Mapping S_Generator S_Far S_Adds S_Contents S_UnwindGen F_UrlRef F_MappingList F_Generator F_GeneratorProps F_UnwindGen F_UnwindContents.
From Coq Require Import Sorting.Sorted Sorting.Permutation.

(** Every list of calls leads somewhere, and where no call panics it leads where [gen_run] says. *)
Theorem C111_some_history : forall (md : mode) (U : UrlLib) (ops : list gen_op) (g : Generator),
  exists ps g', caught md U g ops ps g'.
Proof. exact caught_all. Qed.
Print Assumptions C111_some_history.

Theorem C111_no_panic : forall (md : mode) (U : UrlLib) (ops : list gen_op) (g g' : Generator)
    (run : gen_run md U g ops = Ok g') (ps : list gen_op) (g2 : Generator),
  caught md U g ops ps g2 <-> ps = ops /\ g2 = g'.
Proof.
  intros md U ops g g' run ps g2. split; [exact (caught_only md U ops g g' ps g2 run)|].
  intros [-> ->]. exact (caught_no_panic md U ops g g' run).
Qed.
Print Assumptions C111_no_panic.

(** Mappings that the format can express: calls that panicked leave no trace. *)
Theorem C111_as_passing : forall (md : mode) (U : UrlLib) (file root : option str) (skip : bool)
    (ops ps : list gen_op) (g : Generator)
    (valid : Forall encodable (added_mappings ops))
    (few : few_names 2147483648 (added_mappings ops))
    (history : caught md U (gen_new file root skip) ops ps g),
  gen_run md U (gen_new file root skip) ps = Ok g /\ added_mappings ps = added_mappings ops.
Proof. exact caught_as_passing. Qed.
Print Assumptions C111_as_passing.

Theorem C111_roundtrip : forall (md : mode) (U : UrlLib) (file root : option str) (skip : bool)
    (ops ps : list gen_op) (g : Generator) (j : SourceMapJson) (g' : Generator)
    (valid : Forall valid_mapping (added_mappings ops))
    (near : steps_fit ps)
    (few : few_names (2^30) (added_mappings ops))
    (history : caught md U (gen_new file root skip) ops ps g)
    (json : gen_as_json md U g = Ok (j, g')),
  exists r, read_json j = Some r
    /\ (forall x, In x r <-> exists m, In m (added_mappings ops) /\ x = written m)
    /\ gen_sorted r.
Proof. exact caught_roundtrip. Qed.
Print Assumptions C111_roundtrip.

(** Any mappings: sources and names are those of all add_mapping calls, ... *)
Theorem C111_arrays : forall (md : mode) (U : UrlLib) (file root : option str) (skip : bool)
    (ops ps : list gen_op) (g : Generator) (j : SourceMapJson) (g' : Generator)
    (history : caught md U (gen_new file root skip) ops ps g)
    (json : gen_as_json md U g = Ok (j, g')),
  smj_version j = 3
  /\ smj_sources j = Some (distinct (present (map m_source (added_mappings ops))))
  /\ smj_names j = Some (distinct (present (map m_name (added_mappings ops))))
  /\ smj_file j = file /\ smj_source_root j = root /\ smj_sections j = None.
Proof. exact caught_arrays. Qed.
Print Assumptions C111_arrays.

(** ... the mappings held those of the calls that passed. *)
Theorem C111_mappings : forall (md : mode) (U : UrlLib) (file root : option str) (skip : bool)
    (ops ps : list gen_op) (g : Generator)
    (history : caught md U (gen_new file root skip) ops ps g),
  Permutation (added_mappings ps) (ml_array (g_mappings g)).
Proof. intros md U file root skip ops ps g history. exact (caught_array md U _ ops ps g history). Qed.
Print Assumptions C111_mappings.

(** In release builds no add_mapping panics. *)
Theorem C111_release_keeps_all : forall (U : UrlLib) (file root : option str) (skip : bool)
    (ops ps : list gen_op) (g : Generator)
    (history : caught Release U (gen_new file root skip) ops ps g),
  Permutation (added_mappings ops) (ml_array (g_mappings g)).
Proof.
  intros U file root skip ops ps g history. rewrite <- (release_adds U _ ops ps g history).
  exact (caught_array Release U _ ops ps g history).
Qed.
Print Assumptions C111_release_keeps_all.

(** Without a root, the contents are those set, whatever panicked in between. *)
Theorem C111_contents : forall (md : mode) (U : UrlLib) (file : option str) (skip : bool)
    (ops ps : list gen_op) (g : Generator) (j : SourceMapJson) (g' : Generator)
    (history : caught md U (gen_new file None skip) ops ps g)
    (json : gen_as_json md U g = Ok (j, g')),
  exists sources, smj_sources j = Some sources
    /\ ((forall s, last_content s ops None = None) -> smj_sources_content j = None)
    /\ ((exists s, last_content s ops None <> None) ->
        smj_sources_content j = Some (present (map (fun s => last_content s ops None) sources))).
Proof. exact caught_contents. Qed.
Print Assumptions C111_contents.

(** With a root: a set_source_content call passes iff its source has a path relative to the root, whatever
    panicked before, and the contents are those of the calls that passed, for every such path ([key]). *)
Theorem C111_contents_root : forall (md : mode) (U : UrlLib) (file : option str) (root : str) (skip : bool)
    (ops ps : list gen_op) (g : Generator) (j : SourceMapJson) (g' : Generator) (key : str -> str)
    (history : caught md U (gen_new file (Some root) skip) ops ps g)
    (json : gen_as_json md U g = Ok (j, g'))
    (keys : forall s k, relative md U root s = Ok k -> key s = k),
  exists sources, smj_sources j = Some sources
    /\ (forall s c, In (GContent s c) ops -> (In (GContent s c) ps <-> exists k, relative md U root s = Ok k))
    /\ ((forall k, last_content k (renamed key ps) None = None) -> smj_sources_content j = None)
    /\ ((exists k, last_content k (renamed key ps) None <> None) ->
        (forall s, In s sources -> relative md U root s = Ok (key s))
        /\ smj_sources_content j = Some (present (map (fun s => last_content (key s) (renamed key ps) None) sources))).
Proof. exact caught_root_contents. Qed.
Print Assumptions C111_contents_root.

(** In debug builds add_mapping panics as if those before it that panicked had not been called, ... *)
Theorem C111_add : forall (U : UrlLib) (file root : option str) (skip : bool)
    (ops ps : list gen_op) (g : Generator) (m : Mapping)
    (history : caught Debug U (gen_new file root skip) ops ps g)
    (range : Forall i32_place (added_mappings ps)) (in_range : i32_place m),
  exists M, latest (places (added_mappings ps)) M
    /\ (far_before (m_generated m) M -> gen_add_mapping Debug g m = Panic POverflow)
    /\ (~ far_before (m_generated m) M -> exists g', gen_add_mapping Debug g m = Ok g').
Proof. exact caught_add. Qed.
Print Assumptions C111_add.

(** ... and the mappings are written in order even after a panic while they were sorted. *)
Theorem C111_debug_sorted : forall (U : UrlLib) (file root : option str) (skip : bool)
    (ops ps : list gen_op) (g : Generator) (a : list Mapping) (l : MappingList)
    (history : caught Debug U (gen_new file root skip) ops ps g)
    (returns : ml_to_array Debug (g_mappings g) = Ok (a, l)),
  Permutation (added_mappings ps) a /\ gen_sorted a.
Proof. exact caught_debug_sorted. Qed.
Print Assumptions C111_debug_sorted.

(** as_json panics again, unless it was sorting that panicked. *)
Theorem C111_json_panics_again : forall (md : mode) (U : UrlLib) (g : Generator) (p : panic_kind) (g1 : Generator)
    (r : list Mapping * MappingList)
    (panics : gen_as_json md U g = Panic p)
    (sorts : ml_to_array md (g_mappings g) = Ok r)
    (left : panic_leaves md U g GJson g1),
  gen_as_json md U g1 = Panic p.
Proof. exact json_panics_again. Qed.
Print Assumptions C111_json_panics_again.

(** ** Examples *)
Definition c111_m (line col : Z) (oline : Z) (s : string) (n : string) : Mapping :=
  mkMapping (mkPos line col) (Some (mkPos oline 0)) (Some (lit s)) (Some (lit n)) None.

(** One character is too short a root for [relative]: the contents cannot be set, the rest is as if nobody had tried. *)
Definition c111_ops : list gen_op :=
  [GAdd (c111_m 2 4 1 "http://h/b.js" "y"); GContent (lit "http://h/b.js") (Some (lit "B")); GJson;
   GAdd (c111_m 1 0 7 "http://h/a.js" "x"); GContent (lit "http://h/a.js") None].
Definition c111_passed : list gen_op :=
  [GAdd (c111_m 2 4 1 "http://h/b.js" "y"); GJson; GAdd (c111_m 1 0 7 "http://h/a.js" "x")].
Example C111_root_case : exists g,
  Forall valid_mapping (added_mappings c111_ops)
  /\ caught Debug RefUrl (gen_new None (Some (lit "/")) false) c111_ops c111_passed g
  /\ (let* r := gen_as_json Debug RefUrl g in Ok (smj_sources (fst r), smj_mappings (fst r), smj_sources_content (fst r)))
     = Ok (Some [lit "http://h/b.js"; lit "http://h/a.js"], Some (lit "ACMAC;IDNAD"), None).
Proof.
  eexists. split; [repeat constructor; vm_compute; congruence|]. split.
  - eapply caught_pass; [vm_compute; reflexivity|].
    eapply caught_panic; [vm_compute; reflexivity|reflexivity|].
    eapply caught_pass; [vm_compute; reflexivity|].
    eapply caught_pass; [vm_compute; reflexivity|].
    eapply caught_panic; [vm_compute; reflexivity|reflexivity|]. apply caught_none.
  - vm_compute. reflexivity.
Qed.

(** An expectation that does not hold: add_mapping that panics changes nothing.  In debug builds the distance
    of the columns overflows; the source and the name are listed all the same. *)
Definition c111_far : Mapping := c111_m 1 (-2147483648) 1 "far.js" "f".
Theorem C111_add_all_or_nothing_refuted : forall U : UrlLib, exists g1 g2,
  gen_run Debug U (gen_new None None false) [GAdd (c111_m 1 5 1 "a.js" "x")] = Ok g1
  /\ gen_add_mapping Debug g1 c111_far = Panic POverflow
  /\ caught Debug U g1 [GAdd c111_far] [] g2
  /\ (let* r := gen_as_json Debug U g1 in Ok (smj_sources (fst r), smj_names (fst r), smj_mappings (fst r)))
     = Ok (Some [lit "a.js"], Some [lit "x"], Some (lit "KAAAA"))
  /\ (let* r := gen_as_json Debug U g2 in Ok (smj_sources (fst r), smj_names (fst r), smj_mappings (fst r)))
     = Ok (Some [lit "a.js"; lit "far.js"], Some [lit "x"; lit "f"], Some (lit "KAAAA")).
Proof.
  intros U. eexists. eexists. split; [vm_compute; reflexivity|]. split; [vm_compute; reflexivity|]. split.
  - eapply caught_panic; [vm_compute; reflexivity|reflexivity|apply caught_none].
  - split; vm_compute; reflexivity.
Qed.
Print Assumptions C111_add_all_or_nothing_refuted.

(** as_json that panics in the loop leaves the mappings sorted and panics again. *)
Definition c111_apart : list gen_op :=
  [GAdd (c111_m 1 4 (-2147483648) "a.js" "x"); GAdd (c111_m 1 0 5 "a.js" "x")].
Example C111_loop_case : forall U, exists g g1,
  gen_run Debug U (gen_new None None false) c111_apart = Ok g
  /\ gen_as_json Debug U g = Panic POverflow
  /\ panic_leaves Debug U g GJson g1
  /\ ml_sorted (g_mappings g) = false /\ ml_sorted (g_mappings g1) = true
  /\ ml_array (g_mappings g1) = rev (ml_array (g_mappings g))
  /\ gen_as_json Debug U g1 = Panic POverflow.
Proof.
  intros U. eexists. eexists. split; [vm_compute; reflexivity|]. split; [vm_compute; reflexivity|].
  split; [eapply left_loop; [vm_compute; reflexivity|vm_compute; reflexivity|vm_compute; reflexivity]|]. vm_compute. repeat split; reflexivity.
Qed.

(** A refused mapping is not the last one: the same place is refused again, one nearer is not. *)
Example C111_add_case : forall U, exists g2,
  caught Debug U (gen_new None None false) [GAdd (c111_m 1 5 1 "a.js" "x"); GAdd c111_far; GContent (lit "a.js") (Some (lit "A"))]
         [GAdd (c111_m 1 5 1 "a.js" "x"); GContent (lit "a.js") (Some (lit "A"))] g2
  /\ gen_add_mapping Debug g2 c111_far = Panic POverflow
  /\ (let* g := gen_add_mapping Debug g2 (c111_m 1 2 1 "b.js" "y") in
      let* r := gen_as_json Debug U g in Ok (smj_sources (fst r), smj_sources_content (fst r), smj_mappings (fst r)))
     = Ok (Some [lit "a.js"; lit "far.js"; lit "b.js"], Some [lit "A"], Some (lit "EEAAE,GFAAF")).
Proof.
  intros U. eexists. split.
  - eapply caught_pass; [vm_compute; reflexivity|]. eapply caught_panic; [vm_compute; reflexivity|reflexivity|].
    eapply caught_pass; [vm_compute; reflexivity|apply caught_none].
  - split; vm_compute; reflexivity.
Qed.

(** A file without a path relative to the root (here: the empty name, a bad host) is refused; the contents set
    before and after are written, and the one set again under another spelling is the last. *)
Definition c111_root : str := lit "http://h/lib/src".
Definition c111_cops : list gen_op :=
  [GAdd (c111_m 1 0 1 "http://h/lib/a.js" "x"); GContent (lit "http://h/lib/a.js") (Some (lit "A0"));
   GContent [] (Some (lit "E")); GAdd (c111_m 1 4 1 "b.js" "y"); GContent (lit "b.js") (Some (lit "B"));
   GContent (lit "http://[x/b.js") None; GContent (lit "../a.js") (Some (lit "A1"))].
Definition c111_cpassed : list gen_op :=
  [GAdd (c111_m 1 0 1 "http://h/lib/a.js" "x"); GContent (lit "http://h/lib/a.js") (Some (lit "A0"));
   GAdd (c111_m 1 4 1 "b.js" "y"); GContent (lit "b.js") (Some (lit "B")); GContent (lit "../a.js") (Some (lit "A1"))].
Example C111_contents_root_case : exists g,
  caught Debug RefUrl (gen_new None (Some c111_root) false) c111_cops c111_cpassed g
  /\ (let* r := gen_as_json Debug RefUrl g in Ok (smj_sources (fst r), smj_sources_content (fst r)))
     = Ok (Some [lit "http://h/lib/a.js"; lit "b.js"], Some [lit "A1"; lit "B"]).
Proof.
  eexists. split.
  - eapply caught_pass; [vm_compute; reflexivity|]. eapply caught_pass; [vm_compute; reflexivity|].
    eapply caught_panic; [vm_compute; reflexivity|reflexivity|].
    eapply caught_pass; [vm_compute; reflexivity|]. eapply caught_pass; [vm_compute; reflexivity|].
    eapply caught_panic; [vm_compute; reflexivity|reflexivity|].
    eapply caught_pass; [vm_compute; reflexivity|]. apply caught_none.
  - vm_compute. reflexivity.
Qed.
