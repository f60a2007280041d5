(** * C113: more mappings change only the answers they give

    The map of [ops'] has the mappings of that of [ops] and those in [new]; both have the same root, and consumers were
    opened on both under the same URL. *)
From Verif Require Import Base M_ArraySet M_Mapping M_Util M_SourceMap M_MapLib M_Generator M_Consumer M_Indexed
  S_List S_Decode S_Mapping S_Generator S_Far S_MapLib S_Consumer S_EndToEnd S_Redo F_UrlRef F_MapLibRef F_More.
From Coq Require Import Sorting.Permutation.

Theorem C113_original : forall (md : mode) (L : MapLib) (U : UrlLib) (contract : MapLibOk L)
    (file file' root : option str) (skip skip' : bool) (ops ops' : list gen_op) (new : list Mapping) (g g' : Generator) (url : option str)
    (c0 c0' : BasicConsumer L) (lookup lookup' : option str) (qs qs' : list query) (c c' : BasicConsumer L)
    (line column : Z) (b : option Bias)
    (valid : Forall valid_mapping (added_mappings ops')) (near : steps_fit ops) (near' : steps_fit ops')
    (few : few_names (2^30) (added_mappings ops')) (places : NoDup (map m_generated (added_mappings ops')))
    (more : Permutation (added_mappings ops ++ new) (added_mappings ops'))
    (run : gen_run md U (gen_new file root skip) ops = Ok g) (run' : gen_run md U (gen_new file' root skip') ops' = Ok g')
    (opens : opened_on md L U g url c0 lookup) (opens' : opened_on md L U g' url c0' lookup')
    (history : asked md L U c0 qs = Ok c) (history' : asked md L U c0' qs' = Ok c') (position : position_ok line column),
  (exists m, In m new /\ nearest (by_generated (added_mappings ops')) (line, column) (default_bias b) (Some m))
  \/ answered_lower 0 (answer (bc_original_position_for md L c (mkPos line column) b))
     = answered_lower 0 (answer (bc_original_position_for md L c' (mkPos line column) b)).
Proof. exact more_original. Qed.
Print Assumptions C113_original.

(** generated_position_for, where the name finds the same source [s] in both maps *)
Theorem C113_generated : forall (md : mode) (L : MapLib) (U : UrlLib) (contract : MapLibOk L)
    (file file' root : option str) (skip skip' : bool) (ops ops' : list gen_op) (new : list Mapping) (g g' : Generator) (url : option str)
    (c0 c0' : BasicConsumer L) (lookup lookup' : option str) (qs qs' : list query) (c c' : BasicConsumer L)
    (src : str) (i i' : nat) (s : str)
    (line column : Z) (b : option Bias) (a a' : option Mapping)
    (valid : Forall valid_mapping (added_mappings ops')) (near : steps_fit ops) (near' : steps_fit ops')
    (few : few_names (2^30) (added_mappings ops')) (places : NoDup (map snd (of_file s (added_mappings ops'))))
    (more : Permutation (added_mappings ops ++ new) (added_mappings ops'))
    (run : gen_run md U (gen_new file root skip) ops = Ok g) (run' : gen_run md U (gen_new file' root skip') ops' = Ok g')
    (opens : opened_on md L U g url c0 lookup) (opens' : opened_on md L U g' url c0' lookup')
    (history : asked md L U c0 qs = Ok c) (history' : asked md L U c0' qs' = Ok c')
    (known : source_lookup md L U c0 src = Ok (Some i)) (finds : nth_error (source_names ops) i = Some s)
    (known' : source_lookup md L U c0' src = Ok (Some i')) (finds' : nth_error (source_names ops') i' = Some s)
    (position : position_ok line column)
    (answered : answer (bc_generated_position_for md L U c src line column b) = Ok a)
    (answered' : answer (bc_generated_position_for md L U c' src line column b) = Ok a'),
  (exists m, In m new /\ nearest (of_file s (added_mappings ops')) (line, column) (default_bias b) (Some m))
  \/ option_map (fun m => (m_generated m, m_original m, m_source m)) a
     = option_map (fun m => (m_generated m, m_original m, m_source m)) a'.
Proof. exact more_generated. Qed.
Print Assumptions C113_generated.

(** Added by later calls, they do not make it panic either, and the name stays. *)
Theorem C113_later_calls : forall (md : mode) (L : MapLib) (U : UrlLib) (contract : MapLibOk L)
    (file file' root : option str) (skip skip' : bool) (ops more : list gen_op) (g g' : Generator) (url : option str)
    (c0 c0' : BasicConsumer L) (lookup lookup' : option str) (qs qs' : list query) (c c' : BasicConsumer L)
    (src : str) (i i' : nat) (s : str)
    (line column : Z) (b : option Bias) (a : option Mapping)
    (valid : Forall valid_mapping (added_mappings (ops ++ more))) (near : steps_fit ops) (near' : steps_fit (ops ++ more))
    (few : few_names (2^30) (added_mappings (ops ++ more))) (places : NoDup (map snd (of_file s (added_mappings (ops ++ more)))))
    (run : gen_run md U (gen_new file root skip) ops = Ok g) (run' : gen_run md U (gen_new file' root skip') (ops ++ more) = Ok g')
    (opens : opened_on md L U g url c0 lookup) (opens' : opened_on md L U g' url c0' lookup')
    (history : asked md L U c0 qs = Ok c) (history' : asked md L U c0' qs' = Ok c')
    (known : source_lookup md L U c0 src = Ok (Some i)) (finds : nth_error (source_names ops) i = Some s)
    (known' : source_lookup md L U c0' src = Ok (Some i')) (finds' : nth_error (source_names (ops ++ more)) i' = Some s)
    (position : position_ok line column)
    (answered : answer (bc_generated_position_for md L U c src line column b) = Ok a),
  (exists m, In m (added_mappings more)
     /\ nearest (of_file s (added_mappings (ops ++ more))) (line, column) (default_bias b) (Some m))
  \/ exists a', answer (bc_generated_position_for md L U c' src line column b) = Ok a'
     /\ option_map written a = option_map written a'.
Proof. exact more_appended. Qed.
Print Assumptions C113_later_calls.

(** all_generated_position_for gives those of the smaller map and the new ones at that place. *)
Theorem C113_all_generated : forall (md : mode) (L : MapLib) (U : UrlLib) (contract : MapLibOk L)
    (file file' root : option str) (skip skip' : bool) (ops ops' : list gen_op) (new : list Mapping) (g g' : Generator) (url : option str)
    (c0 c0' : BasicConsumer L) (lookup lookup' : option str) (qs qs' : list query) (c c' : BasicConsumer L)
    (src : str) (i i' : nat) (s : str)
    (line : Z) (column : option Z)
    (valid : Forall valid_mapping (added_mappings ops')) (near : steps_fit ops) (near' : steps_fit ops')
    (few : few_names (2^30) (added_mappings ops'))
    (more : Permutation (added_mappings ops ++ new) (added_mappings ops'))
    (run : gen_run md U (gen_new file root skip) ops = Ok g) (run' : gen_run md U (gen_new file' root skip') ops' = Ok g')
    (opens : opened_on md L U g url c0 lookup) (opens' : opened_on md L U g' url c0' lookup')
    (history : asked md L U c0 qs = Ok c) (history' : asked md L U c0' qs' = Ok c')
    (known : source_lookup md L U c0 src = Ok (Some i)) (finds : nth_error (source_names ops) i = Some s)
    (known' : source_lookup md L U c0' src = Ok (Some i')) (finds' : nth_error (source_names ops') i' = Some s),
  let col := match column with Some z => z | None => 0 end in
  position_ok line col -> (exists m, In (m, (line + 1, col)) (of_file s (added_mappings ops))) ->
  exists l l' r r',
    answer (bc_all_generated_position_for md L U c src line column) = Ok l
    /\ answer (bc_all_generated_position_for md L U c' src line column) = Ok l'
    /\ resolve (source_names ops) (symbol_names ops) l = Some r
    /\ resolve (source_names ops') (symbol_names ops') l' = Some r'
    /\ forall x, In x r' <-> In x r \/ exists m, In (m, (line + 1, col)) (of_file s new) /\ x = written m.
Proof. exact more_all_generated. Qed.
Print Assumptions C113_all_generated.

(** ** Examples *)
Definition c113_m (line column oline ocolumn : Z) (s n : string) : Mapping :=
  mkMapping (mkPos line column) (Some (mkPos oline ocolumn)) (Some (lit s)) (Some (lit n)) None.
Definition c113_ops : list gen_op := [GAdd (c113_m 2 0 3 0 "a.js" "x"); GAdd (c113_m 4 6 5 2 "a.js" "y")].
Definition c113_new : Mapping := c113_m 3 4 4 0 "a.js" "z".
Definition c113_asks {A} (ops : list gen_op) (f : BasicConsumer RefLib -> res A) : res A :=
  let* g := gen_run Debug RefUrl (gen_new None None false) ops in
  let* r := bc_from_source_map Debug RefLib RefUrl g None in f (fst r).
Definition c113_original (line column : Z) (c : BasicConsumer RefLib) : res (option Mapping) :=
  answer (bc_original_position_for Debug RefLib c (mkPos line column) (Some LeastUpperBound)).
Definition c113_generated (line column : Z) (c : BasicConsumer RefLib) : res (option Mapping) :=
  answer (bc_generated_position_for Debug RefLib RefUrl c (lit "a.js") line column (Some LeastUpperBound)).
Definition c113_all (line : Z) (column : option Z) (c : BasicConsumer RefLib) : res (list RawMapping) :=
  answer (bc_all_generated_position_for Debug RefLib RefUrl c (lit "a.js") line column).

Example C113_case :
  let ops' := GAdd c113_new :: c113_ops in
  (* the new mapping is not the nearest *)
  c113_asks c113_ops (c113_original 1 5) = Ok (Some (c113_m 2 0 3 0 "a.js" "x"))
  /\ c113_asks ops' (c113_original 1 5) = Ok (Some (c113_m 2 0 3 0 "a.js" "x"))
  /\ c113_asks c113_ops (c113_original 3 5) = Ok (Some (c113_m 4 6 5 2 "a.js" "y"))
  /\ c113_asks ops' (c113_original 3 5) = Ok (Some (c113_m 4 6 5 2 "a.js" "y"))
  (* it is *)
  /\ c113_asks c113_ops (c113_original 2 1) = Ok None /\ c113_asks ops' (c113_original 2 1) = Ok (Some c113_new)
  /\ c113_asks c113_ops (c113_generated 4 0) = Ok (Some (mkMapping (mkPos 4 6) (Some (mkPos 4 2)) (Some (lit "a.js")) (Some (lit "x")) None))
  /\ c113_asks ops' (c113_generated 4 0) = Ok (Some (mkMapping (mkPos 3 4) (Some (mkPos 3 0)) (Some (lit "a.js")) (Some (lit "z")) None))
  (* another name, because names are looked up by the number of the source; not if the mapping is added last *)
  /\ c113_asks c113_ops (c113_generated 5 1) = Ok (Some (mkMapping (mkPos 4 6) (Some (mkPos 4 2)) (Some (lit "a.js")) (Some (lit "x")) None))
  /\ c113_asks ops' (c113_generated 5 1) = Ok (Some (mkMapping (mkPos 4 6) (Some (mkPos 4 2)) (Some (lit "a.js")) (Some (lit "z")) None))
  /\ c113_asks (c113_ops ++ [GAdd c113_new]) (c113_generated 5 1)
     = Ok (Some (mkMapping (mkPos 4 6) (Some (mkPos 4 2)) (Some (lit "a.js")) (Some (lit "x")) None)).
Proof. cbv zeta. repeat split; vm_compute; reflexivity. Qed.

Example C113_all_case :
  let ops' := GAdd (c113_m 9 9 5 2 "a.js" "w") :: c113_ops in
  (let* l := c113_asks c113_ops (c113_all 4 (Some 2)) in Ok (resolve (source_names c113_ops) (symbol_names c113_ops) l))
  = Ok (Some [c113_m 4 6 5 2 "a.js" "y"])
  /\ (let* l := c113_asks ops' (c113_all 4 (Some 2)) in Ok (resolve (source_names ops') (symbol_names ops') l))
  = Ok (Some [c113_m 4 6 5 2 "a.js" "y"; c113_m 9 9 5 2 "a.js" "w"]).
Proof. cbv zeta. split; vm_compute; reflexivity. Qed.

Example C113_instance : let ops' := GAdd c113_new :: c113_ops in
  Permutation (added_mappings c113_ops ++ [c113_new]) (added_mappings ops') /\ Forall valid_mapping (added_mappings ops')
  /\ NoDup (map m_generated (added_mappings ops')) /\ NoDup (map snd (of_file (lit "a.js") (added_mappings ops')))
  /\ few_names (2^30) (added_mappings ops').
Proof.
  cbv zeta. split; [symmetry; exact (Permutation_cons_append (added_mappings c113_ops) c113_new)|].
  split; [repeat constructor; vm_compute; congruence|].
  split; [repeat constructor; cbn; intuition discriminate|].
  split; [vm_compute; repeat constructor; cbn; intuition discriminate|]. split; vm_compute; congruence.
Qed.

(** An expectation that does not hold: more mappings never take an answer away.  Only mappings of the next line are
    answers (C40); a new one on the same line hides them. *)
Theorem C113_monotone_refuted : exists (ops : list gen_op) (m : Mapping) (line column : Z) (a : Mapping),
  NoDup (map m_generated (added_mappings (ops ++ [GAdd m])))
  /\ c113_asks ops (c113_original line column) = Ok (Some a)
  /\ c113_asks (ops ++ [GAdd m]) (c113_original line column) = Ok None.
Proof.
  exists c113_ops, c113_new, 3, 2, (c113_m 4 6 5 2 "a.js" "y").
  split; [repeat constructor; cbn; intuition discriminate|]. split; vm_compute; reflexivity.
Qed.
Print Assumptions C113_monotone_refuted.
