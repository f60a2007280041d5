(** * C100: consumers on maps of mappings with any combination of fields

    Everything is as if only what is left of the mappings had been added (C99),
    except that names and sources are numbered as they were added. *)
From Verif Require Import Base M_ArraySet M_Mapping M_Util M_SourceMap M_Generator M_Json M_MapLib M_Consumer
  M_Indexed  S_Vlq S_List S_Decode S_Mapping S_Generator S_Far S_Contents S_MapLib S_Consumer S_EndToEnd S_Writable
  F_UrlRef F_MapLibRef F_Writable.

(** Opening such a map fails only at a source that has no URL. *)
Theorem C100_opens : forall (md : mode) (L : MapLib) (U : UrlLib)
    (file root : option str) (skip : bool) (ops : list gen_op) (url : option str)
    (coordinates : Forall natural (added_mappings ops))
    (writable_all : Forall writable (added_mappings ops))
    (few : few_names 2147483648 (added_mappings ops)) (contents : root = None \/ no_content ops),
  exists g s g', gen_run md U (gen_new file root skip) ops = Ok g /\ gen_as_string md U g = Ok (s, g') /\
  match mapM (fun s => compute_source_url md U root s url) (source_names ops) with
  | Panic p => bc_from_source_map md L U g url = Panic p
               /\ forall order, create_consumer md L U order s url = Panic p
  | Ok urls => (exists c, bc_from_source_map md L U g url = Ok (c, g') /\ bc_get_sources L c = urls)
               /\ exists c, bc_get_sources L c = urls
                  /\ forall order, create_consumer md L U order s url = Ok (Some (CBasic c))
  end.
Proof. exact left_opens. Qed.
Print Assumptions C100_opens.

(** each_mapping *)
Theorem C100_reported : forall (md : mode) (L : MapLib) (U : UrlLib) (contract : MapLibOk L)
    (file root : option str) (skip : bool) (ops : list gen_op) (g : Generator) (url : option str)
    (c0 : BasicConsumer L) (lookup : option str) (qs : list query) (c : BasicConsumer L)
    (coordinates : Forall natural (added_mappings ops))
    (valid : Forall valid_mapping (map left_of (added_mappings ops)))
    (small : Forall small_mapping (map left_of (added_mappings ops)))
    (few : few_names (2^30) (added_mappings ops))
    (run : gen_run md U (gen_new file root skip) ops = Ok g)
    (opens : opened_on md L U g url c0 lookup) (history : asked md L U c0 qs = Ok c),
  exists l r, reports L c l /\ resolve (source_names ops) (symbol_names ops) l = Some r
    /\ (forall x, In x r <-> exists m, In m (added_mappings ops) /\ x = left_of m)
    /\ gen_sorted r.
Proof.
  exact (fun md L U contract file root skip ops g url c0 lookup qs c H1 H2 H3 H4 =>
    left_reported md L U contract file root skip ops g url c0 lookup qs c (conj H1 (conj H2 (conj H3 H4)))).
Qed.
Print Assumptions C100_reported.

(** original_position_for *)
Theorem C100_original : forall (md : mode) (L : MapLib) (U : UrlLib) (contract : MapLibOk L)
    (file root : option str) (skip : bool) (ops : list gen_op) (g : Generator) (url : option str)
    (c0 : BasicConsumer L) (lookup : option str) (qs : list query) (c : BasicConsumer L)
    (line column : Z) (b : option Bias)
    (coordinates : Forall natural (added_mappings ops))
    (valid : Forall valid_mapping (map left_of (added_mappings ops)))
    (small : Forall small_mapping (map left_of (added_mappings ops)))
    (few : few_names (2^30) (added_mappings ops))
    (run : gen_run md U (gen_new file root skip) ops = Ok g)
    (opens : opened_on md L U g url c0 lookup) (history : asked md L U c0 qs = Ok c)
    (position : position_ok line column),
  let ms := map left_of (added_mappings ops) in
  let ends m last := (last = None \/ column_end ms m last) /\ (In QSpans qs -> column_end ms m last) in
  exists found, nearest (by_generated ms) (line, column) (default_bias b) found
    /\ original_reply md U root url ends line found (answer (bc_original_position_for md L c (mkPos line column) b)).
Proof.
  exact (fun md L U contract file root skip ops g url c0 lookup qs c line column b H1 H2 H3 H4 =>
    left_original md L U contract file root skip ops g url c0 lookup qs c line column b (conj H1 (conj H2 (conj H3 H4)))).
Qed.
Print Assumptions C100_original.

(** generated_position_for *)
Theorem C100_generated : forall (md : mode) (L : MapLib) (U : UrlLib) (contract : MapLibOk L)
    (file root : option str) (skip : bool) (ops : list gen_op) (g : Generator) (url : option str)
    (c0 : BasicConsumer L) (lookup : option str) (qs : list query) (c : BasicConsumer L)
    (src : str) (i : nat) (line column : Z) (b : option Bias)
    (coordinates : Forall natural (added_mappings ops))
    (valid : Forall valid_mapping (map left_of (added_mappings ops)))
    (small : Forall small_mapping (map left_of (added_mappings ops)))
    (few : few_names (2^30) (added_mappings ops))
    (run : gen_run md U (gen_new file root skip) ops = Ok g)
    (opens : opened_on md L U g url c0 lookup) (history : asked md L U c0 qs = Ok c)
    (known : source_lookup md L U c0 src = Ok (Some i)) (position : position_ok line column),
  let ms := map left_of (added_mappings ops) in
  let ends m shown := exists last, (last = None \/ column_end ms m last)
    /\ (In QSpans qs -> shown = Some match last with Some e => e | None => -1 end)
    /\ (~ In QSpans qs -> shown = last) in
  exists s u found, nth_error (source_names ops) i = Some s /\ asks_for md U root url lookup src s u
    /\ nearest (of_file s ms) (line, column) (default_bias b) found
    /\ generated_reply ends (symbol_names ops) i u found (answer (bc_generated_position_for md L U c src line column b)).
Proof.
  exact (fun md L U contract file root skip ops g url c0 lookup qs c src i line column b H1 H2 H3 H4 =>
    left_generated_for md L U contract file root skip ops g url c0 lookup qs c src i line column b
      (conj H1 (conj H2 (conj H3 H4)))).
Qed.
Print Assumptions C100_generated.

(** all_generated_position_for *)
Theorem C100_all_generated : forall (md : mode) (L : MapLib) (U : UrlLib) (contract : MapLibOk L)
    (file root : option str) (skip : bool) (ops : list gen_op) (g : Generator) (url : option str)
    (c0 : BasicConsumer L) (lookup : option str) (qs : list query) (c : BasicConsumer L)
    (src : str) (i : nat) (line : Z) (column : option Z)
    (coordinates : Forall natural (added_mappings ops))
    (valid : Forall valid_mapping (map left_of (added_mappings ops)))
    (small : Forall small_mapping (map left_of (added_mappings ops)))
    (few : few_names (2^30) (added_mappings ops))
    (run : gen_run md U (gen_new file root skip) ops = Ok g)
    (opens : opened_on md L U g url c0 lookup) (history : asked md L U c0 qs = Ok c)
    (known : source_lookup md L U c0 src = Ok (Some i)),
  let ms := map left_of (added_mappings ops) in
  let col := match column with Some z => z | None => 0 end in
  position_ok line col ->
  exists s u l, nth_error (source_names ops) i = Some s /\ asks_for md U root url lookup src s u
    /\ answer (bc_all_generated_position_for md L U c src line column) = Ok l
    /\ ((exists m, In (m, (line + 1, col)) (of_file s ms)) ->
        exists r, resolve (source_names ops) (symbol_names ops) l = Some r
          /\ forall x, In x r <-> exists m, In (m, (line + 1, col)) (of_file s ms) /\ x = written m).
Proof.
  exact (fun md L U contract file root skip ops g url c0 lookup qs c src i line column H1 H2 H3 H4 =>
    left_all_generated md L U contract file root skip ops g url c0 lookup qs c src i line column
      (conj H1 (conj H2 (conj H3 H4)))).
Qed.
Print Assumptions C100_all_generated.

(** An original position without a source, a name without one, and both at the
    place of an ordinary mapping *)
Definition c100_ops : list gen_op :=
  [GAdd (mkMapping (mkPos 1 3) (Some (mkPos 9 9)) None None None);
   GAdd (mkMapping (mkPos 2 4) None None (Some (lit "lost")) None);
   GAdd (mkMapping (mkPos 3 0) (Some (mkPos 2 5)) (Some (lit "a.js")) (Some (lit "n")) None);
   GAdd (mkMapping (mkPos 2 0) (Some (mkPos 7 1)) (Some (lit "b.js")) None None);
   GAdd (mkMapping (mkPos 2 0) (Some (mkPos 8 8)) None (Some (lit "gone")) None)].
Definition c100_after {A} (qs : list query) (f : BasicConsumer RefLib -> res (A * BasicConsumer RefLib)) : res A :=
  let* g := gen_run Debug RefUrl (gen_new None None false) c100_ops in
  let* r := bc_from_source_map Debug RefLib RefUrl g None in
  let* c := asked Debug RefLib RefUrl (fst r) qs in answer (f c).

Example C100_case :
  source_names c100_ops = [lit "a.js"; lit "b.js"] /\ symbol_names c100_ops = [lit "lost"; lit "n"; lit "gone"]
  (* what is reported *)
  /\ (let* l := c100_after [] (fun c => bc_each_mapping RefLib c GeneratedOrd) in
      Ok (resolve (source_names c100_ops) (symbol_names c100_ops) l))
     = Ok (Some [mkMapping (mkPos 1 3) None None None None;
                 mkMapping (mkPos 2 0) (Some (mkPos 7 1)) (Some (lit "b.js")) None None;
                 mkMapping (mkPos 2 0) None None None None;
                 mkMapping (mkPos 2 4) None None None None;
                 mkMapping (mkPos 3 0) (Some (mkPos 2 5)) (Some (lit "a.js")) (Some (lit "n")) None])
  (* the next mapping has no source, although it was given an original position *)
  /\ c100_after [] (fun c => bc_original_position_for Debug RefLib c (mkPos 1 0) (Some LeastUpperBound)) = Ok None
  (* the next mapping is on the next line *)
  /\ c100_after [] (fun c => bc_original_position_for Debug RefLib c (mkPos 2 5) (Some LeastUpperBound))
     = Ok (Some (mkMapping (mkPos 3 0) (Some (mkPos 2 5)) (Some (lit "a.js")) (Some (lit "n")) None))
  (* a name that is nowhere in the map's mappings *)
  /\ c100_after [] (fun c => bc_generated_position_for Debug RefLib RefUrl c (lit "a.js") 2 5 None)
     = Ok (Some (mkMapping (mkPos 3 0) (Some (mkPos 1 5)) (Some (lit "a.js")) (Some (lit "lost")) None))
  /\ (let* l := c100_after [] (fun c => bc_all_generated_position_for Debug RefLib RefUrl c (lit "b.js") 6 (Some 1)) in
      Ok (resolve (source_names c100_ops) (symbol_names c100_ops) l))
     = Ok (Some [mkMapping (mkPos 2 0) (Some (mkPos 7 1)) (Some (lit "b.js")) None None]).
Proof. vm_compute. repeat split; reflexivity. Qed.

Example C100_instance : Forall natural (added_mappings c100_ops)
  /\ Forall valid_mapping (map left_of (added_mappings c100_ops))
  /\ Forall small_mapping (map left_of (added_mappings c100_ops))
  /\ Forall writable (added_mappings c100_ops)
  /\ few_names (2^30) (added_mappings c100_ops)
  /\ ~ Forall valid_mapping (added_mappings c100_ops).
Proof.
  split; [repeat constructor; vm_compute; congruence|]. split; [repeat constructor; vm_compute; congruence|].
  split; [repeat constructor; vm_compute; congruence|]. split; [repeat constructor; vm_compute; congruence|].
  split; [split; vm_compute; congruence|].
  intros H. cbn [added_mappings c100_ops] in H. apply Forall_inv in H. vm_compute in H. tauto.
Qed.
