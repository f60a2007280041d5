(** * C19-C28: SourceMapGenerator

    [ops] is any history of add_mapping, set_source_content and JSON production;
    [U] is any behaviour of the url crate (it is not used without sourceRoot). *)
From Verif Require Import Base M_ArraySet M_Mapping M_Util M_SourceMap M_Generator
  S_Vlq S_List S_Decode S_Mapping S_Generator S_Far F_MappingList F_Generator F_GeneratorProps F_Contents.
From Coq Require Import Sorting.Sorted Sorting.Permutation.

(** C19 *)
Theorem C19_generate_never_panics : forall (md : mode) (U : UrlLib) (file root : option str) (skip : bool)
    (ops : list gen_op)
    (valid : Forall encodable (added_mappings ops))
    (few : few_names 2147483648 (added_mappings ops))
    (contents : root = None \/ no_content ops),
  exists g j g', gen_run md U (gen_new file root skip) ops = Ok g /\ gen_as_json md U g = Ok (j, g').
Proof. exact generate_total. Qed.
Print Assumptions C19_generate_never_panics.

(** C20 *)
Theorem C20_generate_roundtrip : forall (md : mode) (U : UrlLib) (file root : option str) (skip : bool)
    (ops : list gen_op)
    (valid : Forall valid_mapping (added_mappings ops))
    (near : steps_fit ops)
    (few : few_names (2^30) (added_mappings ops))
    (contents : root = None \/ no_content ops),
  exists g j g' r, gen_run md U (gen_new file root skip) ops = Ok g
    /\ gen_as_json md U g = Ok (j, g')
    /\ read_json j = Some r
    /\ (forall x, In x r <-> exists m, In m (added_mappings ops) /\ x = written m)
    /\ gen_sorted r.
Proof. exact generate_roundtrip. Qed.
Print Assumptions C20_generate_roundtrip.

Definition c20_ops : list gen_op :=
  [GAdd (mkMapping (mkPos 3 7) (Some (mkPos 2 5)) (Some (lit "b.js")) (Some (lit "x")) None);
   GContent (lit "b.js") (Some (lit "text")); GJson;
   GAdd (mkMapping (mkPos 1 0) None None None (Some 9));
   GAdd (mkMapping (mkPos 3 7) (Some (mkPos 2 5)) (Some (lit "b.js")) (Some (lit "x")) None);
   GAdd (mkMapping (mkPos 1 4) (Some (mkPos 9 1)) (Some (lit "a.js")) None None)].
Example C19_C20_case : forall U,
  Forall valid_mapping (added_mappings c20_ops) /\ Forall small_mapping (added_mappings c20_ops)
  /\ Forall encodable (added_mappings c20_ops)
  /\ (let* g := gen_run Debug U (gen_new None None false) c20_ops in
      let* r := gen_as_json Debug U g in Ok (smj_mappings (fst r), read_json (fst r)))
     = Ok (Some (lit "A,ICQC;;ODPIA"),
           Some [mkMapping (mkPos 1 0) None None None None;
                 mkMapping (mkPos 1 4) (Some (mkPos 9 1)) (Some (lit "a.js")) None None;
                 mkMapping (mkPos 3 7) (Some (mkPos 2 5)) (Some (lit "b.js")) (Some (lit "x")) None]).
Proof.
  intros U. split; [repeat constructor; vm_compute; congruence|].
  split; [repeat constructor; vm_compute; congruence|].
  split; [repeat constructor; vm_compute; congruence|]. vm_compute. reflexivity.
Qed.

(** C21: no hypothesis on the mappings *)
Theorem C21_generate_arrays : forall (md : mode) (U : UrlLib) (file root : option str) (skip : bool)
    (ops : list gen_op) (g : Generator) (j : SourceMapJson) (g' : Generator)
    (run : gen_run md U (gen_new file root skip) ops = Ok g)
    (json : gen_as_json md U g = Ok (j, g')),
  smj_version j = 3
  /\ smj_sources j = Some (distinct (present (map m_source (added_mappings ops))))
  /\ smj_names j = Some (distinct (present (map m_name (added_mappings ops))))
  /\ smj_file j = file /\ smj_source_root j = root /\ smj_sections j = None.
Proof. exact generate_arrays. Qed.
Print Assumptions C21_generate_arrays.

Example C21_case : forall U,
  (let* g := gen_run Debug U (gen_new (Some (lit "f")) None true) c20_ops in
   let* r := gen_as_json Debug U g in Ok (smj_sources (fst r), smj_names (fst r), smj_file (fst r)))
  = Ok (Some [lit "b.js"; lit "a.js"], Some [lit "x"], Some (lit "f")).
Proof. intros U. vm_compute. reflexivity. Qed.

(** C22: [a] is the sorted list kept by the generator (C16, C17). *)
Theorem C22_generate_collapsed : forall (md : mode) (U : UrlLib) (file root : option str) (skip : bool)
    (ops : list gen_op)
    (valid : Forall valid_mapping (added_mappings ops))
    (near : steps_fit ops)
    (few : few_names (2^30) (added_mappings ops))
    (contents : root = None \/ no_content ops),
  exists g j g' a r, gen_run md U (gen_new file root skip) ops = Ok g
    /\ gen_as_json md U g = Ok (j, g')
    /\ held (list_ops ops ++ [ToArray]) a
    /\ read_json j = Some r /\ collapsed (map written a) r
    /\ (NoDup (map m_generated (added_mappings ops)) -> NoDup r)
    /\ (~ In GJson ops -> ~ gen_sorted (added_mappings ops) -> NoDup r).
Proof. exact generate_held. Qed.
Print Assumptions C22_generate_collapsed.

(** Mappings at one position that differ in one thing only are all written; the
    last generated column is not a difference. *)
Definition c22_v (line column : Z) (s n : string) (last : option Z) : Mapping :=
  mkMapping (mkPos 1 0) (Some (mkPos line column)) (Some (lit s)) (Some (lit n)) last.
Example C22_case : forall U,
  (let* j := observe_json Debug U (gen_new None None false)
     [GAdd (c22_v 1 0 "a" "n" None); GAdd (c22_v 1 0 "a" "n" (Some 4)); GAdd (c22_v 2 0 "a" "n" None);
      GAdd (c22_v 2 3 "a" "n" None); GAdd (c22_v 2 3 "a" "m" None); GAdd (c22_v 2 3 "b" "m" None)] in
   Ok (smj_mappings j, read_json j))
  = Ok (Some (lit "AAAAA,AACAA,AAAGA,AAAAC,ACAAA"),
        Some [c22_v 1 0 "a" "n" None; c22_v 2 0 "a" "n" None; c22_v 2 3 "a" "n" None; c22_v 2 3 "a" "m" None;
              c22_v 2 3 "b" "m" None]).
Proof. intros U. vm_compute. reflexivity. Qed.

(** Without these two conditions the same mapping may be written twice. *)
Definition c22_m (s : string) : Mapping :=
  mkMapping (mkPos 1 0) (Some (mkPos 1 0)) (Some (lit s)) None None.
Theorem C22_no_duplicates_refuted : forall (md : mode) (U : UrlLib), exists ops r,
  Forall valid_mapping (added_mappings ops)
  /\ (let* j := observe_json md U (gen_new None None false) ops in Ok (read_json j)) = Ok (Some r)
  /\ ~ NoDup r.
Proof.
  intros md U. exists [GAdd (c22_m "a"); GAdd (c22_m "b"); GAdd (c22_m "a")], [c22_m "a"; c22_m "b"; c22_m "a"].
  split; [repeat constructor; vm_compute; congruence|].
  split; [destruct md; vm_compute; reflexivity|].
  intros H. inversion H. apply H2. right. left. reflexivity.
Qed.
Print Assumptions C22_no_duplicates_refuted.

(** C23 *)
Theorem C23_json_twice : forall (md : mode) (U : UrlLib) (g : Generator) (j : SourceMapJson) (g' : Generator)
    (json : gen_as_json md U g = Ok (j, g')),
  gen_as_json md U g' = Ok (j, g').
Proof. exact as_json_again. Qed.
Print Assumptions C23_json_twice.

Theorem C23_json_in_the_middle : forall (md : mode) (U : UrlLib) (file root : option str) (skip : bool)
    (ops : list gen_op)
    (valid : Forall valid_mapping (added_mappings ops))
    (near : steps_fit ops) (near_without : steps_fit (without_json ops))
    (few : few_names (2^30) (added_mappings ops))
    (contents : root = None \/ no_content ops),
  exists g1 j1 g1' r1 g2 j2 g2' r2,
    gen_run md U (gen_new file root skip) ops = Ok g1 /\ gen_as_json md U g1 = Ok (j1, g1')
    /\ gen_run md U (gen_new file root skip) (without_json ops) = Ok g2 /\ gen_as_json md U g2 = Ok (j2, g2')
    /\ smj_sources j1 = smj_sources j2 /\ smj_names j1 = smj_names j2
    /\ read_json j1 = Some r1 /\ read_json j2 = Some r2 /\ (forall x, In x r1 <-> In x r2).
Proof. exact json_in_the_middle. Qed.
Print Assumptions C23_json_in_the_middle.

Example C23_case : In GJson c20_ops /\ without_json c20_ops <> c20_ops
  /\ added_mappings (without_json c20_ops) = added_mappings c20_ops.
Proof. split; [vm_compute; auto|]. split; [discriminate | reflexivity]. Qed.

(** The JSON produced at two points of one history, twice at each. *)
Example C23_twice_case : forall U,
  (let* g := gen_run Debug U (gen_new None None false) (firstn 4 c20_ops) in
   let* r1 := gen_as_json Debug U g in
   let* r2 := gen_as_json Debug U (snd r1) in
   let* g3 := gen_run Debug U (snd r2) (skipn 4 c20_ops) in
   let* r3 := gen_as_json Debug U g3 in
   let* r4 := gen_as_json Debug U (snd r3) in
   Ok (map smj_mappings [fst r1; fst r2; fst r3; fst r4], map ml_array (map g_mappings [snd r1; snd r2]),
       map ml_sorted (map g_mappings [g; snd r1; g3; snd r3])))
  = Ok ([Some (lit "A;;OACKA"); Some (lit "A;;OACKA"); Some (lit "A,ICQC;;ODPIA"); Some (lit "A,ICQC;;ODPIA")],
        [[mkMapping (mkPos 1 0) None None None (Some 9);
          mkMapping (mkPos 3 7) (Some (mkPos 2 5)) (Some (lit "b.js")) (Some (lit "x")) None];
         [mkMapping (mkPos 1 0) None None None (Some 9);
          mkMapping (mkPos 3 7) (Some (mkPos 2 5)) (Some (lit "b.js")) (Some (lit "x")) None]],
        [false; true; false; true]).
Proof. intros U. vm_compute. reflexivity. Qed.

(** C24 *)
Theorem C24_generate_line_structure : forall (md : mode) (U : UrlLib) (file root : option str) (skip : bool)
    (ops : list gen_op)
    (valid : Forall encodable (added_mappings ops))
    (few : few_names 2147483648 (added_mappings ops))
    (contents : root = None \/ no_content ops),
  exists g j g' s n, gen_run md U (gen_new file root skip) ops = Ok g /\ gen_as_json md U g = Ok (j, g')
    /\ smj_mappings j = Some s
    /\ is_last_line (added_mappings ops) n
    /\ Z.of_nat (count_occ N.eq_dec s (ch ";")) = n - 1
    /\ good_text short_field s.
Proof. exact generate_line_structure. Qed.
Print Assumptions C24_generate_line_structure.

Example C24_case : is_last_line (added_mappings c20_ops) 3
  /\ count_occ N.eq_dec (lit "A,ICQC;;ODPIA") (ch ";") = 2%nat
  /\ split_on (ch ";") (lit "A,ICQC;;ODPIA") = [lit "A,ICQC"; []; lit "ODPIA"].
Proof.
  split; [|split; reflexivity]. split; [repeat constructor; vm_compute; congruence|].
  right. eexists. split; [left; reflexivity | reflexivity].
Qed.

(** C25 *)
Theorem C25_contents_alignment : forall (md : mode) (U : UrlLib) (file : option str) (skip : bool)
    (ops : list gen_op) (g : Generator) (j : SourceMapJson) (g' : Generator) (sources contents : list str)
    (run : gen_run md U (gen_new file None skip) ops = Ok g)
    (json : gen_as_json md U g = Ok (j, g'))
    (has_sources : smj_sources j = Some sources) (has_contents : smj_sources_content j = Some contents),
  aligned sources contents (fun s => last_content s ops None)
  <-> contents_first sources (fun s => last_content s ops None).
Proof. exact contents_alignment. Qed.
Print Assumptions C25_contents_alignment.

Definition c25_ops : list gen_op :=
  [GAdd (c22_m "a.js"); GAdd (c22_m "b.js"); GContent (lit "b.js") (Some (lit "text of b"))].
Theorem C25_alignment_refuted : forall (md : mode) (U : UrlLib), exists j,
  observe_json md U (gen_new None None false) c25_ops = Ok j
  /\ smj_sources j = Some [lit "a.js"; lit "b.js"]
  /\ smj_sources_content j = Some [lit "text of b"].
Proof. intros md U. eexists. split; [destruct md; vm_compute; reflexivity|]. split; reflexivity. Qed.
Print Assumptions C25_alignment_refuted.

(** A source without content in front, and one at the end. *)
Example C25_case : forall U,
  (let* j := observe_json Debug U (gen_new None None false)
     [GAdd (c22_m "a"); GAdd (c22_m "b"); GAdd (c22_m "c"); GAdd (c22_m "d"); GContent (lit "d") (Some (lit "D"));
      GContent (lit "b") (Some (lit "B")); GContent (lit "e") (Some (lit "E"))] in
   Ok (smj_sources j, smj_sources_content j))
  = Ok (Some [lit "a"; lit "b"; lit "c"; lit "d"], Some [lit "B"; lit "D"])
  /\ (let* j := observe_json Debug U (gen_new None None false)
        [GAdd (c22_m "a"); GAdd (c22_m "b"); GAdd (c22_m "c"); GContent (lit "b") (Some (lit "B"));
         GContent (lit "a") (Some (lit "A"))] in
      Ok (smj_sources j, smj_sources_content j))
     = Ok (Some [lit "a"; lit "b"; lit "c"], Some [lit "A"; lit "B"]).
Proof. intros U. vm_compute. split; reflexivity. Qed.

(** C26 *)
Theorem C26_last_content_wins : forall (md : mode) (U : UrlLib) (file : option str) (skip : bool)
    (ops : list gen_op) (g : Generator) (j : SourceMapJson) (g' : Generator)
    (run : gen_run md U (gen_new file None skip) ops = Ok g)
    (json : gen_as_json md U g = Ok (j, g')),
  exists sources, smj_sources j = Some sources
    /\ ((forall s, last_content s ops None = None) -> smj_sources_content j = None)
    /\ ((exists s, last_content s ops None <> None) ->
        smj_sources_content j = Some (present (map (fun s => last_content s ops None) sources))).
Proof. exact generate_contents. Qed.
Print Assumptions C26_last_content_wins.

Example C26_case : forall U,
  (let* j := observe_json Debug U (gen_new None None false)
     [GContent (lit "a") (Some (lit "1")); GAdd (c22_m "a"); GAdd (c22_m "b"); GContent (lit "b") (Some (lit "2"));
      GContent (lit "a") (Some (lit "3")); GContent (lit "b") None] in Ok (smj_sources_content j))
  = Ok (Some [lit "3"])
  /\ (let* j := observe_json Debug U (gen_new None None false)
        [GContent (lit "a") (Some (lit "1")); GAdd (c22_m "a"); GContent (lit "a") None] in Ok (smj_sources_content j))
     = Ok None.
Proof. intros U. vm_compute. split; reflexivity. Qed.

(** C27 *)
Theorem C27_flag_irrelevant : forall (md : mode) (U : UrlLib) (file root : option str) (ops : list gen_op),
  observe_json md U (gen_new file root true) ops = observe_json md U (gen_new file root false) ops.
Proof. exact flag_irrelevant. Qed.
Print Assumptions C27_flag_irrelevant.

Theorem C27_add_accepts_all_release : forall (g : Generator) (m : Mapping),
  exists g', gen_add_mapping Release g m = Ok g'.
Proof. exact add_release. Qed.
Print Assumptions C27_add_accepts_all_release.

(** Coordinates are only limited so that differences do not overflow; any
    combination of source, original position and name is accepted. *)
Theorem C27_add_accepts_all : forall (md : mode) (U : UrlLib) (file root : option str) (skip : bool)
    (lo hi : Z) (ms : list Mapping) (interval : window lo hi) (inside : Forall (window_mapping lo hi) ms),
  exists g, gen_run md U (gen_new file root skip) (map GAdd ms) = Ok g
    /\ ml_array (g_mappings g) = ms.
Proof.
  intros md U file root skip lo hi ms interval inside.
  exact (adds_window md U lo hi ms (gen_new file root skip) interval I inside).
Qed.
Print Assumptions C27_add_accepts_all.

Theorem C27_no_original_panics : forall (md : mode) (U : UrlLib) (file root : option str) (skip : bool)
    (lo hi : Z) (before : list Mapping) (m : Mapping) (after : list Mapping)
    (interval : window lo hi) (inside : Forall (window_mapping lo hi) (before ++ m :: after))
    (source : m_source m <> None) (no_original : m_original m = None)
    (alone : forall x, In x (before ++ after) -> m_generated x <> m_generated m),
  exists g, gen_run md U (gen_new file root skip) (map GAdd (before ++ m :: after)) = Ok g
    /\ is_panic (gen_as_json md U g).
Proof. exact no_original_panics. Qed.
Print Assumptions C27_no_original_panics.

Definition c27_bad : Mapping := mkMapping (mkPos 1 0) None (Some (lit "a")) None None.
Example C27_case : forall U,
  window 0 i32_max /\ window_mapping 0 i32_max c27_bad /\ validate_mapping c27_bad = false
  /\ observe_json Debug U (gen_new None None false) [GAdd c27_bad] = Panic PUnwrapNone.
Proof. intros U. split; [vm_compute; intuition congruence|]. split; [vm_compute; intuition congruence|]. vm_compute. split; reflexivity. Qed.

(** ... but not next to a mapping of the same source and name at that position:
    the comparison takes them for equal, and the invalid one is dropped. *)
Theorem C27_no_original_always_panics_refuted : forall (md : mode) (U : UrlLib), exists j,
  observe_json md U (gen_new None None false) [GAdd (c22_m "a"); GAdd c27_bad] = Ok j
  /\ read_json j = Some [c22_m "a"].
Proof. intros md U. eexists. split; [destruct md; vm_compute; reflexivity|]. vm_compute. reflexivity. Qed.
Print Assumptions C27_no_original_always_panics_refuted.

(** C28 *)
Theorem C28_low_line : forall (U : UrlLib) (file root : option str) (skip : bool)
    (lo hi : Z) (ms : list Mapping) (low : Z)
    (interval : window lo hi) (inside : Forall (window_mapping lo hi) ms) (shape : Forall shaped ms)
    (lowest_occurs : exists m, In m ms /\ p_line (m_generated m) = low)
    (lowest : Forall (fun m => low <= p_line (m_generated m)) ms) (below_one : low < 1),
  (exists g, gen_run Debug U (gen_new file root skip) (map GAdd ms) = Ok g
     /\ gen_as_json Debug U g = Panic POverflow)
  /\ (exists g j g' rest, gen_run Release U (gen_new file root skip) (map GAdd ms) = Ok g
     /\ gen_as_json Release U g = Ok (j, g')
     /\ smj_mappings j = Some (repeat (ch ";") (Z.to_nat (2^32 - (1 - low))) ++ rest)).
Proof. exact low_line. Qed.
Print Assumptions C28_low_line.

Example C28_case :
  let ms := [mkMapping (mkPos 2 0) None None None None; mkMapping (mkPos (-3) 5) None None None None] in
  window (-1000) 1000 /\ Forall (window_mapping (-1000) 1000) ms /\ Forall shaped ms
  /\ (exists m, In m ms /\ p_line (m_generated m) = -3)
  /\ Forall (fun m => -3 <= p_line (m_generated m)) ms.
Proof.
  cbn zeta. split; [vm_compute; intuition congruence|].
  split; [repeat constructor; vm_compute; congruence|]. split; [repeat constructor|].
  split; [eexists; split; [right; left; reflexivity | reflexivity]|].
  repeat constructor; vm_compute; congruence.
Qed.

(** C64: the validator that add_mapping does not call accepts exactly the mappings
    that can be written and read back unchanged (C20). *)
Theorem C64_validate_exact : forall (m : Mapping) (coordinates : window_mapping i32_min i32_max m),
  validate_mapping m = true <-> valid_mapping m.
Proof. exact validate_exact. Qed.
Print Assumptions C64_validate_exact.

Example C64_case :
  let a := Some (lit "a") in
  map validate_mapping
    [mkMapping (mkPos 1 0) None None None None; mkMapping (mkPos 1 0) (Some (mkPos 1 0)) a None None;
     mkMapping (mkPos 1 0) (Some (mkPos 1 0)) a a (Some 3)] = [true; true; true]
  /\ map validate_mapping
    [mkMapping (mkPos 0 0) None None None None; mkMapping (mkPos 1 (-1)) None None None None;
     mkMapping (mkPos 1 0) None a None None; mkMapping (mkPos 1 0) None None a None;
     mkMapping (mkPos 1 0) None a a None; mkMapping (mkPos 1 0) (Some (mkPos 1 0)) None None None;
     mkMapping (mkPos 1 0) (Some (mkPos 1 0)) None a None; mkMapping (mkPos 0 0) (Some (mkPos 1 0)) a None None;
     mkMapping (mkPos 1 (-1)) (Some (mkPos 1 0)) a None None; mkMapping (mkPos 1 0) (Some (mkPos 0 0)) a None None;
     mkMapping (mkPos 1 0) (Some (mkPos 1 (-1))) a None None] = repeat false 11.
Proof. split; reflexivity. Qed.

(** C65: C20 without the condition on names: a name is only written behind a
    source, so a name on a mapping without one is listed but lost. *)
Theorem C65_roundtrip_names : forall (md : mode) (U : UrlLib) (file root : option str) (skip : bool)
    (ops : list gen_op)
    (valid : Forall expressible (added_mappings ops))
    (near : steps_fit ops)
    (few : few_names (2^30) (added_mappings ops))
    (contents : root = None \/ no_content ops),
  exists g j g' r, gen_run md U (gen_new file root skip) ops = Ok g
    /\ gen_as_json md U g = Ok (j, g')
    /\ read_json j = Some r
    /\ (forall x, In x r <-> exists m, In m (added_mappings ops) /\ x = read_back m)
    /\ gen_sorted r.
Proof. exact generate_expressible. Qed.
Print Assumptions C65_roundtrip_names.

Definition c65_ops : list gen_op :=
  [GAdd (mkMapping (mkPos 1 0) None None (Some (lit "lost")) None); GAdd (mkMapping (mkPos 2 0) None None None (Some 3));
   GAdd (mkMapping (mkPos 2 4) (Some (mkPos 1 0)) (Some (lit "a")) (Some (lit "kept")) None)].
Theorem C65_names_kept_refuted : forall (md : mode) (U : UrlLib), exists j,
  Forall expressible (added_mappings c65_ops) /\ Forall small_mapping (added_mappings c65_ops)
  /\ observe_json md U (gen_new None None false) c65_ops = Ok j
  /\ smj_names j = Some [lit "lost"; lit "kept"] /\ smj_mappings j = Some (lit "A;A,IAAAC")
  /\ read_json j = Some [mkMapping (mkPos 1 0) None None None None; mkMapping (mkPos 2 0) None None None None;
                         mkMapping (mkPos 2 4) (Some (mkPos 1 0)) (Some (lit "a")) (Some (lit "kept")) None].
Proof.
  intros md U. eexists. split; [repeat constructor; vm_compute; congruence|].
  split; [repeat constructor; vm_compute; congruence|].
  split; [destruct md; vm_compute; reflexivity|]. vm_compute. repeat split; reflexivity.
Qed.
Print Assumptions C65_names_kept_refuted.

(** What is read is what C65 says: the mappings added, without the names that had no source. *)
Example C65_case : forall U,
  (let* j := observe_json Debug U (gen_new None None false) c65_ops in Ok (read_json j)) = Ok (Some (map read_back (added_mappings c65_ops)))
  /\ map m_name (map read_back (added_mappings c65_ops)) = [None; None; Some (lit "kept")]
  /\ map m_name (added_mappings c65_ops) = [Some (lit "lost"); None; Some (lit "kept")]
  /\ few_names (2^30) (added_mappings c65_ops).
Proof. intros U. repeat split; vm_compute; try reflexivity; congruence. Qed.
