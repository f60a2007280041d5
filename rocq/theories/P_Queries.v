(** * C66-C70, C72: asking about the mappings and contents given to a generator

    [ops] is any history of calls on the generator, [qs] any history of calls on
    the consumer that was opened on its output. *)
From Verif Require Import Base M_ArraySet M_Mapping M_Util M_SourceMap M_Generator M_Json M_MapLib M_Consumer
  M_Indexed  S_Vlq S_List S_Decode S_Mapping S_Generator S_Far S_Contents S_MapLib S_Consumer S_EndToEnd F_Generator F_UrlRef F_MapLibRef
  F_Queries.

(** ** C66: original_position_for *)
Theorem C66_original_end : forall (md : mode) (L : MapLib) (U : UrlLib) (contract : MapLibOk L)
    (file root : option str) (skip : bool) (ops : list gen_op) (g : Generator) (url : option str)
    (c0 : BasicConsumer L) (lookup : option str) (qs : list query) (c : BasicConsumer L)
    (line column : Z) (b : option Bias)
    (valid : Forall valid_mapping (added_mappings ops))
    (near : steps_fit ops)
    (few : few_names (2^30) (added_mappings ops))
    (run : gen_run md U (gen_new file root skip) ops = Ok g)
    (opens : opened_on md L U g url c0 lookup) (history : asked md L U c0 qs = Ok c)
    (position : position_ok line column),
  let ends m last := (last = None \/ column_end (added_mappings ops) m last)
                     /\ (In QSpans qs -> column_end (added_mappings ops) m last) in
  exists found, nearest (by_generated (added_mappings ops)) (line, column) (default_bias b) found
    /\ original_reply md U root url ends line found (answer (bc_original_position_for md L c (mkPos line column) b)).
Proof. exact original_end. Qed.
Print Assumptions C66_original_end.

Definition c66_m (l c ol oc : Z) (s n : string) : gen_op :=
  GAdd (mkMapping (mkPos l c) (Some (mkPos ol oc)) (Some (lit s)) (Some (lit n)) None).
Definition c66_ops : list gen_op :=
  [c66_m 3 7 2 5 "b.js" "x"; GJson; GAdd (mkMapping (mkPos 2 0) None None None (Some 9));
   GContent (lit "a.js") (Some (lit "text of a"));
   c66_m 2 6 1 0 "a.js" "y"; c66_m 5 0 2 5 "b.js" "z"; c66_m 3 9 4 0 "b.js" "x"].
Definition c66_after {A} (root url : option str) (qs : list query)
    (f : BasicConsumer RefLib -> res (A * BasicConsumer RefLib)) : res A :=
  let* g := gen_run Debug RefUrl (gen_new None root false) c66_ops in
  let* r := bc_from_source_map Debug RefLib RefUrl g url in
  let* c := asked Debug RefLib RefUrl (fst r) qs in answer (f c).

Example C66_case :
  let ask l c b := c66_after None (Some (lit "http://h/d/m.map")) [QEach OriginalOrd]
                     (fun x => bc_original_position_for Debug RefLib x (mkPos l c) b) in
  (* nothing at line 2 from column 7 on: line 3, column 7 *)
  ask 2 7 (Some LeastUpperBound)
  = Ok (Some (mkMapping (mkPos 3 7) (Some (mkPos 2 5)) (Some (lit "http://h/d/b.js")) (Some (lit "x")) None))
  (* a mapping on the line *)
  /\ ask 3 8 (Some LeastUpperBound) = Ok None
  /\ ask 3 7 (Some LeastUpperBound) = Ok None /\ ask 3 7 None = Ok None
  (* the next mapping is two lines on *)
  /\ ask 3 10 (Some LeastUpperBound) = Ok None
  /\ ask 4 0 (Some LeastUpperBound)
     = Ok (Some (mkMapping (mkPos 5 0) (Some (mkPos 2 5)) (Some (lit "http://h/d/b.js")) (Some (lit "z")) None))
  (* the mapping on the next line has no source *)
  /\ ask 1 0 (Some LeastUpperBound) = Ok None
  /\ ask 5 1 (Some LeastUpperBound) = Ok None.
Proof. vm_compute. repeat split; reflexivity. Qed.
Example C66_spans_case :
  c66_after None None [QSpans] (fun x => bc_original_position_for Debug RefLib x (mkPos 2 7) (Some LeastUpperBound))
  = Ok (Some (mkMapping (mkPos 3 7) (Some (mkPos 2 5)) (Some (lit "b.js")) (Some (lit "x")) (Some 9))).
Proof. vm_compute. reflexivity. Qed.
Example C66_instance : Forall valid_mapping (added_mappings c66_ops) /\ Forall small_mapping (added_mappings c66_ops)
  /\ few_names (2^30) (added_mappings c66_ops)
  /\ nearest (by_generated (added_mappings c66_ops)) (2, 7) LeastUpperBound
       (Some (mkMapping (mkPos 3 7) (Some (mkPos 2 5)) (Some (lit "b.js")) (Some (lit "x")) None)).
Proof.
  split; [repeat constructor; vm_compute; congruence|].
  split; [repeat constructor; vm_compute; congruence|]. split; [split; vm_compute; congruence|].
  exists (3, 7). split; [left; reflexivity|]. right. split.
  - intros a p H. cbn in H. repeat (destruct H as [H|H]; [injection H as <- <-; discriminate|]). destruct H.
  - unfold loc_lt, loc_le. cbn [fst snd]. split; [lia|]. intros a p H.
    cbn in H. unfold loc_lt.
    repeat (destruct H as [H|H]; [injection H as <- <-; unfold place; cbn; (lia || (right; reflexivity))|]). destruct H.
Qed.

(** ** C67: generated_position_for *)
Theorem C67_generated_end : forall (md : mode) (L : MapLib) (U : UrlLib) (contract : MapLibOk L)
    (file root : option str) (skip : bool) (ops : list gen_op) (g : Generator) (url : option str)
    (c0 : BasicConsumer L) (lookup : option str) (qs : list query) (c : BasicConsumer L)
    (src : str) (i : nat) (line column : Z) (b : option Bias)
    (valid : Forall valid_mapping (added_mappings ops))
    (near : steps_fit ops)
    (few : few_names (2^30) (added_mappings ops))
    (run : gen_run md U (gen_new file root skip) ops = Ok g)
    (opens : opened_on md L U g url c0 lookup) (history : asked md L U c0 qs = Ok c)
    (known : source_lookup md L U c0 src = Ok (Some i)) (position : position_ok line column),
  let ends m shown := exists last, (last = None \/ column_end (added_mappings ops) m last)
    /\ (In QSpans qs -> shown = Some match last with Some e => e | None => -1 end)
    /\ (~ In QSpans qs -> shown = last) in
  exists s u found, nth_error (source_names ops) i = Some s /\ asks_for md U root url lookup src s u
    /\ nearest (of_file s (added_mappings ops)) (line, column) (default_bias b) found
    /\ generated_reply ends (symbol_names ops) i u found (answer (bc_generated_position_for md L U c src line column b)).
Proof. exact generated_end. Qed.
Print Assumptions C67_generated_end.

Example C67_case :
  let ask s l c b := c66_after (Some (lit "http://h/d/src")) (Some (lit "http://h/d/m.map")) []
                     (fun x => bc_generated_position_for Debug RefLib RefUrl x s l c b) in
  source_names c66_ops = [lit "b.js"; lit "a.js"] /\ symbol_names c66_ops = [lit "x"; lit "y"; lit "z"]
  (* original line 4 is reported as 3 *)
  /\ ask (lit "b.js") 4 0 None
     = Ok (Some (mkMapping (mkPos 3 9) (Some (mkPos 3 0)) (Some (lit "http://h/d/src/b.js")) (Some (lit "x")) None))
  /\ ask (lit "b.js") 3 3 (Some LeastUpperBound)
     = Ok (Some (mkMapping (mkPos 3 9) (Some (mkPos 3 0)) (Some (lit "http://h/d/src/b.js")) (Some (lit "x")) None))
  /\ ask (lit "b.js") 4 1 (Some LeastUpperBound) = Ok None
  /\ ask (lit "b.js") 2 4 None = Ok None
  (* other ways to ask for the same source *)
  /\ ask (lit "src/a.js") 7 7 None
     = Ok (Some (mkMapping (mkPos 2 6) (Some (mkPos 0 0)) (Some (lit "http://h/d/src/a.js")) (Some (lit "y")) None))
  /\ ask (lit "http://h/d/src/a.js") 7 7 None = ask (lit "a.js") 1 0 (Some LeastUpperBound).
Proof. vm_compute. repeat split; reflexivity. Qed.
Example C67_reply_case :
  asks_for Debug RefUrl (Some (lit "http://h/d/src")) (Some (lit "http://h/d/m.map"))
    (Some (lit "http://h/d/m.map")) (lit "src/a.js") (lit "a.js") (lit "http://h/d/src/a.js")
  /\ map snd (of_file (lit "b.js") (added_mappings c66_ops)) = [(2, 5); (2, 5); (4, 0)].
Proof. split; [split; [|left]; vm_compute; reflexivity | vm_compute; reflexivity]. Qed.

(** The name that was added with the only mapping of the place does not come
    back: here there is one name and two sources. *)
Theorem C67_name_refuted : exists (ops : list gen_op) (src : str) (m : Mapping),
  of_file src (added_mappings ops) = [(m, (1, 0))] /\ m_name m = None
  /\ (let* g := gen_run Debug RefUrl (gen_new None None false) ops in
      let* r := bc_from_source_map Debug RefLib RefUrl g None in
      let* a := answer (bc_generated_position_for Debug RefLib RefUrl (fst r) src 1 0 None) in
      Ok (option_map m_name a)) = Ok (Some (Some (lit "x"))).
Proof.
  exists [GAdd (mkMapping (mkPos 1 0) (Some (mkPos 1 0)) (Some (lit "a.js")) None None); c66_m 2 0 1 0 "b.js" "x"],
    (lit "a.js"), (mkMapping (mkPos 1 0) (Some (mkPos 1 0)) (Some (lit "a.js")) None None).
  vm_compute. repeat split; reflexivity.
Qed.
Print Assumptions C67_name_refuted.

(** ** C68: all_generated_positions_for *)
Theorem C68_all_generated_end : forall (md : mode) (L : MapLib) (U : UrlLib) (contract : MapLibOk L)
    (file root : option str) (skip : bool) (ops : list gen_op) (g : Generator) (url : option str)
    (c0 : BasicConsumer L) (lookup : option str) (qs : list query) (c : BasicConsumer L)
    (src : str) (i : nat) (line : Z) (column : option Z)
    (valid : Forall valid_mapping (added_mappings ops))
    (near : steps_fit ops)
    (few : few_names (2^30) (added_mappings ops))
    (run : gen_run md U (gen_new file root skip) ops = Ok g)
    (opens : opened_on md L U g url c0 lookup) (history : asked md L U c0 qs = Ok c)
    (known : source_lookup md L U c0 src = Ok (Some i)),
  let col := match column with Some z => z | None => 0 end in
  position_ok line col ->
  exists s u l, nth_error (source_names ops) i = Some s /\ asks_for md U root url lookup src s u
    /\ answer (bc_all_generated_position_for md L U c src line column) = Ok l
    /\ ((exists m, In (m, (line + 1, col)) (of_file s (added_mappings ops))) ->
        exists r, resolve (source_names ops) (symbol_names ops) l = Some r
          /\ forall x, In x r <-> exists m, In (m, (line + 1, col)) (of_file s (added_mappings ops)) /\ x = written m).
Proof. exact all_generated_end. Qed.
Print Assumptions C68_all_generated_end.

Example C68_case :
  let ask s l c := c66_after None None [QSpans]
                     (fun x => bc_all_generated_position_for Debug RefLib RefUrl x s l c) in
  (* both mappings of original line 2, column 5 *)
  (let* l := ask (lit "b.js") 1 (Some 5) in Ok (resolve (source_names c66_ops) (symbol_names c66_ops) l))
  = Ok (Some [mkMapping (mkPos 3 7) (Some (mkPos 2 5)) (Some (lit "b.js")) (Some (lit "x")) None;
              mkMapping (mkPos 5 0) (Some (mkPos 2 5)) (Some (lit "b.js")) (Some (lit "z")) None])
  (* no column stands for column 0 *)
  /\ ask (lit "b.js") 3 None = ask (lit "b.js") 3 (Some 0)
  /\ (let* l := ask (lit "b.js") 3 None in Ok (resolve (source_names c66_ops) (symbol_names c66_ops) l))
     = Ok (Some [mkMapping (mkPos 3 9) (Some (mkPos 4 0)) (Some (lit "b.js")) (Some (lit "x")) None]).
Proof. vm_compute. repeat split; reflexivity. Qed.

(** Mappings of the first original line are not found. *)
Theorem C68_first_line_refuted : exists m,
  of_file (lit "a.js") (added_mappings c66_ops) = [(m, (1, 0))]
  /\ c66_after None None [] (fun x => bc_all_generated_position_for Debug RefLib RefUrl x (lit "a.js") 1 (Some 0)) = Ok []
  /\ c66_after None None [] (fun x => bc_all_generated_position_for Debug RefLib RefUrl x (lit "a.js") 0 (Some 0)) = Panic PLine.
Proof. eexists. split; [vm_compute; reflexivity|]. vm_compute. split; reflexivity. Qed.
Print Assumptions C68_first_line_refuted.

(** ** C69: source_content_for *)
Theorem C69_content_end : forall (md : mode) (L : MapLib) (U : UrlLib)
    (file : option str) (skip : bool) (ops : list gen_op) (g : Generator) (url : option str)
    (c0 : BasicConsumer L) (lookup : option str) (qs : list query) (c : BasicConsumer L)
    (src : str) (i : nat) (panic_on_missing : option bool)
    (run : gen_run md U (gen_new file None skip) ops = Ok g)
    (opens : opened_on md L U g url c0 lookup) (history : asked md L U c0 qs = Ok c)
    (few_sources : len (bc_get_sources L c0) < 2^31)
    (known : source_lookup md L U c0 src = Ok (Some i)),
  exists s u, nth_error (source_names ops) i = Some s /\ asks_for md U None url lookup src s u
    /\ ((forall f, last_content f ops None = None) ->
        answer (bc_source_content_for md L U c src panic_on_missing) = Ok None)
    /\ ((exists f, last_content f ops None <> None) ->
        content_reply (source_names ops) (fun f => last_content f ops None) i
          (answer (bc_source_content_for md L U c src panic_on_missing))).
Proof. exact content_end. Qed.
Print Assumptions C69_content_end.

(** With a root, texts are left for paths relative to it, C62. *)
Theorem C69_content_end_root : forall (md : mode) (L : MapLib) (U : UrlLib)
    (file : option str) (root : str) (skip : bool) (ops : list gen_op) (g : Generator) (url : option str)
    (c0 : BasicConsumer L) (lookup : option str) (qs : list query) (c : BasicConsumer L)
    (src : str) (i : nat) (panic_on_missing : option bool) (key : str -> str)
    (run : gen_run md U (gen_new file (Some root) skip) ops = Ok g)
    (opens : opened_on md L U g url c0 lookup) (history : asked md L U c0 qs = Ok c)
    (few_sources : len (bc_get_sources L c0) < 2^31)
    (known : source_lookup md L U c0 src = Ok (Some i))
    (relative_to_root : forall f k, relative md U root f = Ok k -> key f = k),
  let text f := last_content (key f) (renamed key ops) None in
  exists s u, nth_error (source_names ops) i = Some s /\ asks_for md U (Some root) url lookup src s u
    /\ ((forall k, last_content k (renamed key ops) None = None) ->
        answer (bc_source_content_for md L U c src panic_on_missing) = Ok None)
    /\ ((exists k, last_content k (renamed key ops) None <> None) ->
        content_reply (source_names ops) text i (answer (bc_source_content_for md L U c src panic_on_missing))).
Proof. exact content_end_root. Qed.
Print Assumptions C69_content_end_root.

Definition c69_content (root : option str) (ops : list gen_op) (src : string) : res (option str) :=
  let* g := gen_run Debug RefUrl (gen_new None root false) ops in
  let* r := bc_from_source_map Debug RefLib RefUrl g None in
  answer (bc_source_content_for Debug RefLib RefUrl (fst r) (lit src) None).
Example C69_case :
  let ops := [c66_m 1 0 1 0 "b.js" "x"; GContent (lit "b.js") (Some (lit "old")); c66_m 2 0 1 0 "a.js" "x"; GJson;
              GContent (lit "a.js") (Some (lit "A")); GContent (lit "b.js") (Some (lit "B")); c66_m 3 0 1 0 "c.js" "x"] in
  map (c69_content None ops) ["a.js"; "b.js"; "c.js"; "d.js"]%string
  = [Ok (Some (lit "A")); Ok (Some (lit "B")); Panic PIndex; Panic PMissing]
  /\ c69_content None [c66_m 1 0 1 0 "b.js" "x"] "b.js" = Ok None.
Proof. vm_compute. repeat split; reflexivity. Qed.
Example C69_root_case :
  let ops := [c66_m 1 0 1 0 "http://h/lib/src/b.js" "x"; c66_m 2 0 1 0 "http://h/lib/./src/a.js" "x";
              GContent (lit "http://h/lib/src/a.js") (Some (lit "A")); GContent (lit "http://h/lib/src/./b.js") (Some (lit "B"))] in
  map (c69_content (Some (lit "http://h/lib/src")) ops)
      ["http://h/lib/src/a.js"; "http://h/lib/src/b.js"; "b.js"]%string
  = [Ok (Some (lit "A")); Ok (Some (lit "B")); Ok (Some (lit "B"))].
Proof. vm_compute. reflexivity. Qed.

(** A source without text is answered with the text of another one, and that one
    with a panic. *)
Theorem C69_own_text_refuted : exists (ops : list gen_op),
  last_content (lit "b.js") ops None = None /\ last_content (lit "a.js") ops None = Some (lit "A")
  /\ c69_content None ops "b.js" = Ok (Some (lit "A")) /\ c69_content None ops "a.js" = Panic PIndex.
Proof.
  exists [c66_m 1 0 1 0 "b.js" "x"; c66_m 2 0 1 0 "a.js" "x"; GContent (lit "a.js") (Some (lit "A"))].
  vm_compute. repeat split; reflexivity.
Qed.
Print Assumptions C69_own_text_refuted.

(** ** C70: last columns

    The last column of a mapping is where the next added mapping on its line
    starts. *)
Theorem C70_last_column : forall (md : mode) (L : MapLib) (U : UrlLib) (contract : MapLibOk L)
    (file root : option str) (skip : bool) (ops : list gen_op) (g : Generator) (url : option str)
    (c0 : BasicConsumer L) (lookup : option str) (qs : list query) (c : BasicConsumer L)
    (line column : Z) (b : option Bias) (a : Mapping)
    (valid : Forall valid_mapping (added_mappings ops))
    (near : steps_fit ops)
    (few : few_names (2^30) (added_mappings ops))
    (run : gen_run md U (gen_new file root skip) ops = Ok g)
    (opens : opened_on md L U g url c0 lookup) (history : asked md L U c0 qs = Ok c)
    (position : position_ok line column)
    (answered : answer (bc_original_position_for md L c (mkPos line column) b) = Ok (Some a)),
  exists m, In m (added_mappings ops) /\ m_generated a = m_generated m
    /\ (m_last_generated_column a = None \/ column_end (added_mappings ops) m (m_last_generated_column a))
    /\ (In QSpans qs -> column_end (added_mappings ops) m (m_last_generated_column a)).
Proof. exact original_last. Qed.
Print Assumptions C70_last_column.

Theorem C70_each_last_column : forall (md : mode) (L : MapLib) (U : UrlLib) (contract : MapLibOk L)
    (file root : option str) (skip : bool) (ops : list gen_op) (g : Generator) (url : option str)
    (c0 : BasicConsumer L) (lookup : option str) (qs : list query) (c : BasicConsumer L)
    (l : list RawMapping) (a : RawMapping)
    (valid : Forall valid_mapping (added_mappings ops))
    (near : steps_fit ops)
    (few : few_names (2^30) (added_mappings ops))
    (run : gen_run md U (gen_new file root skip) ops = Ok g)
    (opens : opened_on md L U g url c0 lookup) (history : asked md L U c0 qs = Ok c)
    (reported : reports L c l) (among : In a l),
  exists m, In m (added_mappings ops) /\ m_generated m = mkPos (rm_line a + 1) (rm_column a)
    /\ (rm_last_column a = None \/ column_end (added_mappings ops) m (rm_last_column a))
    /\ (In QSpans qs -> column_end (added_mappings ops) m (rm_last_column a)).
Proof. exact each_last. Qed.
Print Assumptions C70_each_last_column.

Theorem C70_original_order_last_column : forall (md : mode) (L : MapLib) (U : UrlLib) (contract : MapLibOk L)
    (file root : option str) (skip : bool) (ops : list gen_op) (g : Generator) (url : option str)
    (c0 : BasicConsumer L) (lookup : option str) (qs : list query) (c : BasicConsumer L)
    (l : list RawMapping) (a : RawMapping)
    (valid : Forall valid_mapping (added_mappings ops))
    (near : steps_fit ops)
    (few : few_names (2^30) (added_mappings ops))
    (run : gen_run md U (gen_new file root skip) ops = Ok g)
    (opens : opened_on md L U g url c0 lookup) (history : asked md L U c0 qs = Ok c)
    (reported : answer (bc_each_mapping L c OriginalOrd) = Ok l) (among : In a l),
  exists m, In m (added_mappings ops) /\ m_generated m = mkPos (rm_line a + 1) (rm_column a)
    /\ (rm_last_column a = None \/ column_end (added_mappings ops) m (rm_last_column a)).
Proof. exact each_original_last. Qed.
Print Assumptions C70_original_order_last_column.

(** all_generated_position_for, also for a place without mapping; for
    generated_position_for see C67. *)
Theorem C70_all_generated_last_column : forall (md : mode) (L : MapLib) (U : UrlLib) (contract : MapLibOk L)
    (file root : option str) (skip : bool) (ops : list gen_op) (g : Generator) (url : option str)
    (c0 : BasicConsumer L) (lookup : option str) (qs : list query) (c : BasicConsumer L)
    (src : str) (line : Z) (column : option Z) (l : list RawMapping) (a : RawMapping)
    (valid : Forall valid_mapping (added_mappings ops))
    (near : steps_fit ops)
    (few : few_names (2^30) (added_mappings ops))
    (run : gen_run md U (gen_new file root skip) ops = Ok g)
    (opens : opened_on md L U g url c0 lookup) (history : asked md L U c0 qs = Ok c)
    (position : position_ok line (match column with Some z => z | None => 0 end))
    (answered : answer (bc_all_generated_position_for md L U c src line column) = Ok l) (among : In a l),
  rm_last_column a = None
  \/ exists m, In m (added_mappings ops) /\ m_generated m = mkPos (rm_line a + 1) (rm_column a)
     /\ column_end (added_mappings ops) m (rm_last_column a).
Proof. exact all_generated_last. Qed.
Print Assumptions C70_all_generated_last_column.

Example C70_case :
  (let* l := c66_after None None [QSpans; QEach OriginalOrd] (fun x => bc_each_mapping RefLib x GeneratedOrd) in
   Ok (map (fun a => (rm_line a + 1, rm_column a, rm_last_column a)) l))
  = Ok [(2, 0, Some 6); (2, 6, None); (3, 7, Some 9); (3, 9, None); (5, 0, None)]
  /\ (let* a := c66_after None None [QSpans] (fun x => bc_original_position_for Debug RefLib x (mkPos 4 0) (Some LeastUpperBound)) in
      Ok (option_map m_last_generated_column a)) = Ok (Some None).
Proof. vm_compute. split; reflexivity. Qed.
Example C70_end_case : let ms := added_mappings c66_ops in
  forall m, In m ms -> m_generated m = mkPos 3 7 ->
  column_end ms m (Some 9) /\ only_at_its_place ms m
  /\ ~ column_end ms m (Some 7) /\ ~ column_end ms m (Some 8) /\ ~ column_end ms m None.
Proof.
  intros ms m H E. cbn in H.
  assert (only_at_its_place ms m).
  { exists [], (tl ms). destruct H as [<-|H].
    - split; [reflexivity|]. intros m' H. cbn in H. repeat (destruct H as [<-|H]; [discriminate|]). destruct H.
    - repeat (destruct H as [<-|H]; [discriminate|]). destruct H. }
  assert (column_end ms m (Some 9)).
  { unfold column_end. rewrite E. cbn [p_line p_column]. split; [lia|]. split; [eexists; split; [do 4 right; left; reflexivity | reflexivity]|].
    split; [|lia]. intros m' H' L1 L2. cbn in H'. repeat (destruct H' as [<-|H']; [cbn in *; lia|]). destruct H'. }
  split; [assumption|]. split; [assumption|]. unfold column_end. rewrite E. cbn [p_line p_column]. split; [|split].
  - intros [_ [_ [_ X]]]. specialize (X H0). lia.
  - intros [_ [[m' [X1 X2]] _]]. cbn in X1. repeat (destruct X1 as [<-|X1]; [discriminate|]). destruct X1.
  - intros X. specialize (X (mkMapping (mkPos 3 9) (Some (mkPos 4 0)) (Some (lit "b.js")) (Some (lit "x")) None)).
    cbn [m_generated p_line p_column] in X. assert (9 <= 7); [|lia]. apply X; [do 4 right; left; reflexivity | reflexivity].
Qed.
(** Mappings found by source *)
Example C70_by_source_case :
  let ask qs l c := c66_after None None qs (fun x => bc_generated_position_for Debug RefLib RefUrl x (lit "b.js") l c None) in
  let ends r := let* a := r in Ok (option_map (fun a => (m_generated a, m_last_generated_column a)) a) in
  ends (ask [QSpans] 2 5) = Ok (Some (mkPos 3 7, Some 9))
  /\ ends (ask [] 2 5) = Ok (Some (mkPos 3 7, None))
  /\ ends (ask [QSpans] 4 0) = Ok (Some (mkPos 3 9, Some (-1)))
  /\ (let* l := c66_after None None [QSpans] (fun x => bc_all_generated_position_for Debug RefLib RefUrl x (lit "b.js") 1 (Some 5)) in
      Ok (map (fun a => (rm_line a + 1, rm_column a, rm_last_column a)) l)) = Ok [(3, 7, Some 9); (5, 0, None)]
  /\ (let* l := c66_after None None [QSpans] (fun x => bc_each_mapping RefLib x OriginalOrd) in
      Ok (map (fun a => (rm_line a + 1, rm_column a, rm_last_column a)) l))
     = Ok [(3, 7, Some 9); (5, 0, None); (3, 9, None); (2, 6, None)].
Proof. vm_compute. repeat split; reflexivity. Qed.
(** Two mappings at one place: the first ends where it starts. *)
Example C70_same_place_case :
  let ops := [c66_m 1 4 1 0 "a.js" "x"; c66_m 1 4 2 0 "a.js" "x"; c66_m 1 9 3 0 "a.js" "x"] in
  (let* g := gen_run Debug RefUrl (gen_new None None false) ops in
   let* r := bc_from_source_map Debug RefLib RefUrl g None in
   let* c := asked Debug RefLib RefUrl (fst r) [QSpans] in
   let* l := answer (bc_each_mapping RefLib c GeneratedOrd) in
   Ok (map (fun a => (rm_column a, rm_last_column a)) l)) = Ok [(4, Some 4); (4, Some 9); (9, None)].
Proof. vm_compute. reflexivity. Qed.

(** ** create_consumer: the listed URLs use the map URL, lookups do not *)
Definition c66_created {A} (root url : option str) (qs : list query)
    (f : BasicConsumer RefLib -> res (A * BasicConsumer RefLib)) : res A :=
  let* g := gen_run Debug RefUrl (gen_new None root false) c66_ops in
  let* r := gen_as_string Debug RefUrl g in
  let* o := create_consumer Debug RefLib RefUrl [] (fst r) url in
  match o with
  | Some (CBasic c) => let* c := asked Debug RefLib RefUrl c qs in answer (f c)
  | _ => Panic PMissing
  end.
Example C66_created_case :
  let ask url s := c66_created None url [] (fun x => bc_generated_position_for Debug RefLib RefUrl x (lit s) 4 0 None) in
  let found u := Ok (Some (mkMapping (mkPos 3 9) (Some (mkPos 3 0)) (Some (lit u)) (Some (lit "x")) None)) in
  ask None "b.js"%string = found "b.js"%string
  /\ ask (Some (lit "http://h/d/m.map")) "http://h/d/b.js"%string = found "http://h/d/b.js"%string
  /\ ask (Some (lit "http://h/d/m.map")) "b.js"%string = Ok None
  /\ c66_created None (Some (lit "http://h/d/m.map")) [QSpans]
       (fun x => bc_original_position_for Debug RefLib x (mkPos 2 7) (Some LeastUpperBound))
     = Ok (Some (mkMapping (mkPos 3 7) (Some (mkPos 2 5)) (Some (lit "http://h/d/b.js")) (Some (lit "x")) (Some 9))).
Proof. vm_compute. repeat split; reflexivity. Qed.

(** ** C72: asking for a source by the name it was added with

    [opens] with the URL used for lookups too: any from_source_map, or
    create_consumer without a URL. *)
Theorem C72_known_by_name : forall (md : mode) (L : MapLib) (U : UrlLib)
    (file root : option str) (skip : bool) (ops : list gen_op) (g : Generator) (url : option str)
    (c0 : BasicConsumer L) (qs : list query) (c : BasicConsumer L) (i : nat) (s u0 : str)
    (run : gen_run md U (gen_new file root skip) ops = Ok g)
    (opens : opened_on md L U g url c0 url) (history : asked md L U c0 qs = Ok c)
    (few_sources : len (source_names ops) < 2^31)
    (added : nth_error (source_names ops) i = Some s)
    (relative_to_the_map : compute_source_url md U None s url = Ok u0),
  exists k u, source_lookup md L U c0 s = Ok (Some k)
    /\ answer (bc_find_source_index md L U c s) = Ok (Some (Z.of_nat k))
    /\ nth_error (bc_get_sources L c) k = Some u
    /\ (u = u0 \/ compute_source_url md U root s url = Ok u)
    /\ (NoDup (bc_get_sources L c) -> root = None \/ ~ In u0 (bc_get_sources L c) -> k = i).
Proof. exact known_by_name. Qed.
Print Assumptions C72_known_by_name.

Example C72_case :
  let find root url s := c66_after root url [QSpans] (fun x => bc_find_source_index Debug RefLib RefUrl x (lit s)) in
  map (find None None) ["b.js"; "a.js"; "c.js"]%string = [Ok (Some 0); Ok (Some 1); Ok None]
  /\ map (find (Some (lit "http://h/d/src")) (Some (lit "http://h/d/m.map"))) ["b.js"; "a.js"]%string = [Ok (Some 0); Ok (Some 1)]
  /\ map (find (Some (lit "/d")) (Some (lit "http://h/d/m.map"))) ["b.js"; "a.js"]%string = [Ok (Some 0); Ok (Some 1)].
Proof. vm_compute. repeat split; reflexivity. Qed.
(** Two names of one file: both find the first. *)
Example C72_same_file_case :
  let ops := [c66_m 1 4 1 0 "a.js" "x"; c66_m 1 6 2 0 "d/../a.js" "x"; c66_m 1 9 3 0 "b.js" "x"] in
  (let* g := gen_run Debug RefUrl (gen_new None None false) ops in
   let* r := bc_from_source_map Debug RefLib RefUrl g None in
   Ok (map (fun s => answer (bc_find_source_index Debug RefLib RefUrl (fst r) (lit s))) ["a.js"; "d/../a.js"; "b.js"]%string))
  = Ok [Ok (Some 0); Ok (Some 0); Ok (Some 2)].
Proof. vm_compute. reflexivity. Qed.
(** With a root the name of one source may be the URL of another. *)
Theorem C72_other_source_refuted : exists (ops : list gen_op) (root : option str) (s : str),
  nth_error (source_names ops) 1 = Some s
  /\ (let* g := gen_run Debug RefUrl (gen_new None root false) ops in
      let* r := bc_from_source_map Debug RefLib RefUrl g None in
      let* k := answer (bc_find_source_index Debug RefLib RefUrl (fst r) s) in
      Ok (bc_get_sources RefLib (fst r), k)) = Ok ([lit "xx/a.js"; lit "xx/xx/a.js"], Some 0).
Proof.
  exists [c66_m 1 4 1 0 "a.js" "x"; c66_m 1 6 2 0 "xx/a.js" "x"], (Some (lit "xx")), (lit "xx/a.js").
  vm_compute. split; reflexivity.
Qed.
Print Assumptions C72_other_source_refuted.
