(** * C112: what a generated map depends on *)
From Verif Require Import Base M_ArraySet M_Mapping M_Util M_SourceMap M_MapLib M_Generator M_Consumer M_Indexed
  S_List S_Decode S_Mapping S_Generator S_Far S_Writable S_Contents S_MapLib S_Consumer S_EndToEnd S_Redo S_Order
  F_UrlRef F_MapLibRef F_Order F_OrderQueries.
From Coq Require Import Sorting.Permutation.

(** The same mappings in any order, in between contents and earlier JSON: the same map, or the same panic. *)
Theorem C112_same_map : forall (md : mode) (U : UrlLib) (file root : option str) (skip : bool) (ops ops' : list gen_op)
    (g g' : Generator)
    (coordinates : Forall natural (added_mappings ops)) (places : NoDup (map m_generated (added_mappings ops)))
    (same : Permutation (added_mappings ops) (added_mappings ops'))
    (first_uses : same_first_uses (added_mappings ops) (added_mappings ops'))
    (contents : same_contents md U root ops ops')
    (run : gen_run md U (gen_new file root skip) ops = Ok g)
    (run' : gen_run md U (gen_new file root skip) ops' = Ok g'),
  (let* r := gen_as_json md U g in Ok (fst r)) = (let* r := gen_as_json md U g' in Ok (fst r)).
Proof. exact same_map. Qed.
Print Assumptions C112_same_map.

(** Mappings with coordinates of any size: the same map, if both histories give one. *)
Theorem C112_same_map_debug : forall (U : UrlLib) (file root : option str) (skip : bool) (ops ops' : list gen_op)
    (j j' : SourceMapJson) (places : NoDup (map m_generated (added_mappings ops)))
    (same : Permutation (added_mappings ops) (added_mappings ops'))
    (first_uses : same_first_uses (added_mappings ops) (added_mappings ops'))
    (contents : same_contents Debug U root ops ops')
    (json : observe_json Debug U (gen_new file root skip) ops = Ok j)
    (json' : observe_json Debug U (gen_new file root skip) ops' = Ok j'),
  j = j'.
Proof. exact same_map_debug. Qed.
Print Assumptions C112_same_map_debug.

(** Sources and names first used in another order: other lists and another text, but the same mappings are read. *)
Theorem C112_same_reading : forall (md : mode) (U : UrlLib) (file root : option str) (skip : bool) (ops ops' : list gen_op)
    (g g' : Generator) (j j' : SourceMapJson) (h h' : Generator)
    (valid : Forall valid_mapping (added_mappings ops)) (near : steps_fit ops) (near' : steps_fit ops')
    (few : few_names (2^30) (added_mappings ops)) (places : NoDup (map m_generated (added_mappings ops)))
    (same : Permutation (added_mappings ops) (added_mappings ops'))
    (run : gen_run md U (gen_new file root skip) ops = Ok g) (json : gen_as_json md U g = Ok (j, h))
    (run' : gen_run md U (gen_new file root skip) ops' = Ok g') (json' : gen_as_json md U g' = Ok (j', h')),
  (exists r, read_json j = Some r /\ read_json j' = Some r)
  /\ exists s n s' n', smj_sources j = Some s /\ smj_names j = Some n /\ smj_sources j' = Some s' /\ smj_names j' = Some n'
     /\ Permutation s s' /\ Permutation n n'.
Proof. exact same_reading. Qed.
Print Assumptions C112_same_reading.

(** original_position_for answers the same on both maps, last columns aside, whatever the consumers were asked before;
    last columns too if the column spans were computed. *)
Theorem C112_original : forall (md : mode) (L : MapLib) (U : UrlLib) (contract : MapLibOk L)
    (file file' root : option str) (skip skip' : bool) (ops ops' : list gen_op) (g g' : Generator) (url : option str)
    (c0 c0' : BasicConsumer L) (lookup lookup' : option str) (qs qs' : list query) (c c' : BasicConsumer L)
    (line column : Z) (b : option Bias)
    (valid : Forall valid_mapping (added_mappings ops)) (near : steps_fit ops) (near' : steps_fit ops')
    (few : few_names (2^30) (added_mappings ops)) (places : NoDup (map m_generated (added_mappings ops)))
    (same : Permutation (added_mappings ops) (added_mappings ops'))
    (run : gen_run md U (gen_new file root skip) ops = Ok g) (run' : gen_run md U (gen_new file' root skip') ops' = Ok g')
    (opens : opened_on md L U g url c0 lookup) (opens' : opened_on md L U g' url c0' lookup')
    (history : asked md L U c0 qs = Ok c) (history' : asked md L U c0' qs' = Ok c') (position : position_ok line column),
  answered_lower 0 (answer (bc_original_position_for md L c (mkPos line column) b))
  = answered_lower 0 (answer (bc_original_position_for md L c' (mkPos line column) b))
  /\ (In QSpans qs -> In QSpans qs' ->
      answer (bc_original_position_for md L c (mkPos line column) b)
      = answer (bc_original_position_for md L c' (mkPos line column) b)).
Proof. exact same_original. Qed.
Print Assumptions C112_original.

(** generated_position_for, where the name finds the same source in both maps and no two mappings share a place in it:
    if both answer, the answers differ at most in the name and the last column. *)
Theorem C112_generated : forall (md : mode) (L : MapLib) (U : UrlLib) (contract : MapLibOk L)
    (file file' root : option str) (skip skip' : bool) (ops ops' : list gen_op) (g g' : Generator) (url : option str)
    (c0 c0' : BasicConsumer L) (lookup lookup' : option str) (qs qs' : list query) (c c' : BasicConsumer L)
    (src : str) (i i' : nat) (s : str) (line column : Z) (b : option Bias) (a a' : option Mapping)
    (valid : Forall valid_mapping (added_mappings ops)) (near : steps_fit ops) (near' : steps_fit ops')
    (few : few_names (2^30) (added_mappings ops)) (places : NoDup (map snd (of_file s (added_mappings ops))))
    (same : Permutation (added_mappings ops) (added_mappings ops'))
    (run : gen_run md U (gen_new file root skip) ops = Ok g) (run' : gen_run md U (gen_new file' root skip') ops' = Ok g')
    (opens : opened_on md L U g url c0 lookup) (opens' : opened_on md L U g' url c0' lookup')
    (history : asked md L U c0 qs = Ok c) (history' : asked md L U c0' qs' = Ok c')
    (known : source_lookup md L U c0 src = Ok (Some i)) (finds : nth_error (source_names ops) i = Some s)
    (known' : source_lookup md L U c0' src = Ok (Some i')) (finds' : nth_error (source_names ops') i' = Some s)
    (position : position_ok line column)
    (answered : answer (bc_generated_position_for md L U c src line column b) = Ok a)
    (answered' : answer (bc_generated_position_for md L U c' src line column b) = Ok a'),
  option_map (fun m => (m_generated m, m_original m, m_source m)) a
  = option_map (fun m => (m_generated m, m_original m, m_source m)) a'.
Proof. exact same_generated. Qed.
Print Assumptions C112_generated.

(** all_generated_position_for, at a place with mappings: the same mappings. *)
Theorem C112_all_generated : forall (md : mode) (L : MapLib) (U : UrlLib) (contract : MapLibOk L)
    (file file' root : option str) (skip skip' : bool) (ops ops' : list gen_op) (g g' : Generator) (url : option str)
    (c0 c0' : BasicConsumer L) (lookup lookup' : option str) (qs qs' : list query) (c c' : BasicConsumer L)
    (src : str) (i i' : nat) (s : str) (line : Z) (column : option Z)
    (valid : Forall valid_mapping (added_mappings ops)) (near : steps_fit ops) (near' : steps_fit ops')
    (few : few_names (2^30) (added_mappings ops))
    (same : Permutation (added_mappings ops) (added_mappings ops'))
    (run : gen_run md U (gen_new file root skip) ops = Ok g) (run' : gen_run md U (gen_new file' root skip') ops' = Ok g')
    (opens : opened_on md L U g url c0 lookup) (opens' : opened_on md L U g' url c0' lookup')
    (history : asked md L U c0 qs = Ok c) (history' : asked md L U c0' qs' = Ok c')
    (known : source_lookup md L U c0 src = Ok (Some i)) (finds : nth_error (source_names ops) i = Some s)
    (known' : source_lookup md L U c0' src = Ok (Some i')) (finds' : nth_error (source_names ops') i' = Some s),
  let col := match column with Some z => z | None => 0 end in
  position_ok line col -> (exists m, In (m, (line + 1, col)) (of_file s (added_mappings ops))) ->
  exists l l' r r',
    answer (bc_all_generated_position_for md L U c src line column) = Ok l
    /\ answer (bc_all_generated_position_for md L U c' src line column) = Ok l'
    /\ resolve (source_names ops) (symbol_names ops) l = Some r
    /\ resolve (source_names ops') (symbol_names ops') l' = Some r'
    /\ forall x, In x r <-> In x r'.
Proof. exact same_all_generated. Qed.
Print Assumptions C112_all_generated.

Definition c112_m (line column : Z) (s n : string) : Mapping :=
  mkMapping (mkPos line column) (Some (mkPos line 0)) (Some (lit s)) (Some (lit n)) None.

(** Two mappings at one place: the order of the calls shows. *)
Definition c112_places : list gen_op := [GAdd (c112_m 1 0 "a" "x"); GAdd (c112_m 1 1 "b" "y")].
Theorem C112_one_place_refuted : forall (md : mode) (U : UrlLib), exists (ops ops' : list gen_op) (j j' : SourceMapJson),
  Forall natural (added_mappings ops) /\ Permutation (added_mappings ops) (added_mappings ops')
  /\ same_first_uses (added_mappings ops) (added_mappings ops') /\ same_contents md U None ops ops'
  /\ observe_json md U (gen_new None None false) ops = Ok j /\ observe_json md U (gen_new None None false) ops' = Ok j'
  /\ smj_mappings j = Some (lit "AAAAA,CCAAC;AACAD,ADAAC") /\ smj_mappings j' = Some (lit "AAAAA,CCAAC;ADCAA,ACAAD").
Proof.
  intros md U. exists (c112_places ++ [GAdd (c112_m 2 0 "b" "x"); GAdd (c112_m 2 0 "a" "y")]),
    (c112_places ++ [GAdd (c112_m 2 0 "a" "y"); GAdd (c112_m 2 0 "b" "x")]).
  exists (mkSMJ 3 (Some [lit "a"; lit "b"]) (Some [lit "x"; lit "y"]) (Some (lit "AAAAA,CCAAC;AACAD,ADAAC")) None None None None).
  exists (mkSMJ 3 (Some [lit "a"; lit "b"]) (Some [lit "x"; lit "y"]) (Some (lit "AAAAA,CCAAC;ADCAA,ACAAD")) None None None None).
  split; [repeat constructor; vm_compute; congruence|].
  split; [cbn; do 2 apply perm_skip; apply perm_swap|].
  split; [split; reflexivity|]. split; [intros s; reflexivity|].
  destruct md; (split; [vm_compute; reflexivity|]; split; [vm_compute; reflexivity|]; split; reflexivity).
Qed.
Print Assumptions C112_one_place_refuted.

(** generated_position_for looks for a name by the number of the source (C67): whether it panics depends on the order. *)
Definition c112_generated (ops : list gen_op) : res (option (option str)) :=
  let* g := gen_run Debug RefUrl (gen_new None None false) ops in
  let* r := bc_from_source_map Debug RefLib RefUrl g None in
  let* a := answer (bc_generated_position_for Debug RefLib RefUrl (fst r) (lit "b.js") 2 0 None) in
  Ok (option_map m_name a).
Theorem C112_generated_refuted : exists (ops ops' : list gen_op),
  Permutation (added_mappings ops) (added_mappings ops') /\ NoDup (map m_generated (added_mappings ops))
  /\ c112_generated ops = Panic PIndex /\ c112_generated ops' = Ok (Some (Some (lit "x"))).
Proof.
  exists [GAdd (c112_m 1 0 "a.js" "x"); GAdd (c112_m 2 0 "b.js" "x")], [GAdd (c112_m 2 0 "b.js" "x"); GAdd (c112_m 1 0 "a.js" "x")].
  split; [apply perm_swap|]. split; [repeat constructor; cbn; intuition discriminate|]. split; vm_compute; reflexivity.
Qed.
Print Assumptions C112_generated_refuted.

(** Two histories: contents set over and again, JSON produced in between, mappings added in another order *)
Definition c112_ops : list gen_op :=
  [GAdd (c112_m 1 0 "http://h/src/a.js" "x"); GContent (lit "http://h/src/b.js") (Some (lit "old"));
   GAdd (c112_m 3 2 "http://h/src/b.js" "y"); GAdd (c112_m 2 4 "http://h/src/a.js" "y");
   GContent (lit "http://h/src/b.js") (Some (lit "B"))].
Definition c112_ops' : list gen_op :=
  [GContent (lit "http://h/src/./b.js") (Some (lit "B")); GAdd (c112_m 1 0 "http://h/src/a.js" "x");
   GAdd (c112_m 2 4 "http://h/src/a.js" "y"); GJson; GAdd (c112_m 3 2 "http://h/src/b.js" "y")].

Example C112_case :
  Forall natural (added_mappings c112_ops) /\ NoDup (map m_generated (added_mappings c112_ops))
  /\ Permutation (added_mappings c112_ops) (added_mappings c112_ops')
  /\ same_first_uses (added_mappings c112_ops) (added_mappings c112_ops')
  /\ same_contents Debug RefUrl (Some (lit "http://h/src")) c112_ops c112_ops'
  /\ (let* j := observe_json Debug RefUrl (gen_new None (Some (lit "http://h/src")) false) c112_ops in
      Ok (smj_sources_content j, smj_mappings j)) = Ok (Some [lit "B"], Some (lit "AAAAA;IACAC;ECCAA"))
  /\ (let* j := observe_json Debug RefUrl (gen_new None (Some (lit "http://h/src")) false) c112_ops' in
      Ok (smj_sources_content j, smj_mappings j)) = Ok (Some [lit "B"], Some (lit "AAAAA;IACAC;ECCAA")).
Proof.
  split; [repeat constructor; vm_compute; congruence|].
  split; [repeat constructor; cbn; intuition discriminate|].
  split; [cbn; apply perm_skip, perm_swap|]. split; [split; reflexivity|].
  split; [|split; vm_compute; reflexivity].
  exists (fun s => match relative Debug RefUrl (lit "http://h/src") s with Ok k => k | Panic _ => [] end).
  split; [intros s k E; rewrite E; reflexivity|]. intros k.
  cbn [c112_ops c112_ops' renamed].
  replace (relative Debug RefUrl (lit "http://h/src") (lit "http://h/src/b.js")) with (Ok (lit "b.js")) by (vm_compute; reflexivity).
  replace (relative Debug RefUrl (lit "http://h/src") (lit "http://h/src/./b.js")) with (Ok (lit "b.js")) by (vm_compute; reflexivity).
  cbn [last_content c112_ops c112_ops']. destruct (str_eqb k (lit "b.js")); reflexivity.
Qed.

(** The mappings added backwards: other lists, another text, the same mappings *)
Example C112_reading_case :
  let back := [GAdd (c112_m 3 2 "http://h/src/b.js" "y"); GAdd (c112_m 2 4 "http://h/src/a.js" "y");
               GAdd (c112_m 1 0 "http://h/src/a.js" "x")] in
  Permutation (added_mappings c112_ops) (added_mappings back) /\ Forall valid_mapping (added_mappings c112_ops)
  /\ (let* j := observe_json Debug RefUrl (gen_new None None false) back in Ok (smj_sources j, smj_names j, smj_mappings j))
     = Ok (Some [lit "http://h/src/b.js"; lit "http://h/src/a.js"], Some [lit "y"; lit "x"], Some (lit "ACAAC;IACAD;EDCAA"))
  /\ (let* j := observe_json Debug RefUrl (gen_new None None false) back in Ok (read_json j))
     = (let* j := observe_json Debug RefUrl (gen_new None None false) c112_ops in Ok (read_json j)).
Proof.
  cbn zeta. split; [exact (Permutation_cons_append [_; _] _)|].
  split; [repeat constructor; vm_compute; congruence|]. split; vm_compute; reflexivity.
Qed.

Example C112_original_case :
  let back := [GAdd (c112_m 3 2 "http://h/src/b.js" "y"); GAdd (c112_m 2 4 "http://h/src/a.js" "y");
               GAdd (c112_m 1 0 "http://h/src/a.js" "x")] in
  let asks ops := let* g := gen_run Debug RefUrl (gen_new None None false) ops in
    let* r := bc_from_source_map Debug RefLib RefUrl g None in
    answer (bc_original_position_for Debug RefLib (fst r) (mkPos 2 5) (Some LeastUpperBound)) in
  asks back = asks c112_ops /\ asks back = Ok (Some (c112_m 3 2 "http://h/src/b.js" "y")).
Proof. cbv zeta. split; vm_compute; reflexivity. Qed.

(** Added backwards the sources have other numbers; the answers are the same. *)
Example C112_generated_case :
  let back := [GAdd (c112_m 3 2 "http://h/src/b.js" "y"); GAdd (c112_m 2 4 "http://h/src/a.js" "y");
               GAdd (c112_m 1 0 "http://h/src/a.js" "x")] in
  let asks A ops (f : BasicConsumer RefLib -> res A) :=
    let* g := gen_run Debug RefUrl (gen_new None None false) ops in
    let* r := bc_from_source_map Debug RefLib RefUrl g None in f (fst r) in
  let generated c := answer (bc_generated_position_for Debug RefLib RefUrl c (lit "http://h/src/a.js") 2 0 None) in
  let all c := answer (bc_all_generated_position_for Debug RefLib RefUrl c (lit "http://h/src/a.js") 1 None) in
  map snd (of_file (lit "http://h/src/a.js") (added_mappings c112_ops)) = [(1, 0); (2, 0)]
  /\ asks _ c112_ops generated = Ok (Some (mkMapping (mkPos 2 4) (Some (mkPos 1 0)) (Some (lit "http://h/src/a.js")) (Some (lit "x")) None))
  /\ asks _ back generated = Ok (Some (mkMapping (mkPos 2 4) (Some (mkPos 1 0)) (Some (lit "http://h/src/a.js")) (Some (lit "x")) None))
  /\ (let* l := asks _ c112_ops all in Ok (resolve (source_names c112_ops) (symbol_names c112_ops) l))
     = Ok (Some [c112_m 2 4 "http://h/src/a.js" "y"])
  /\ (let* l := asks _ back all in Ok (resolve (source_names back) (symbol_names back) l))
     = Ok (Some [c112_m 2 4 "http://h/src/a.js" "y"]).
Proof. cbv zeta. repeat split; vm_compute; reflexivity. Qed.
