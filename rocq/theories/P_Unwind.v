(** * C110: consumers after caught panics *)
From Verif Require Import F_Base M_Mapping M_Util M_SourceMap M_Json M_MapLib M_Consumer M_Indexed M_Unwind
  S_Mapping S_MapLib S_Consumer S_Indexed S_Alias S_Quiet S_Unwind F_UrlRef F_MapLibRef F_Unwind F_UnwindSpans.
From Coq Require Import Sorting.Sorted Sorting.Permutation.

(** The states of M_Unwind.v are those of M_Consumer.v and M_Indexed.v when no call panics. *)
Theorem C110_no_panic : forall (md : mode) (L : MapLib) (U : UrlLib) (qs : list query) (c d : BasicConsumer L)
    (history : asked md L U c qs = Ok d),
  lived md L U c qs = d.
Proof. exact lived_ok. Qed.
Print Assumptions C110_no_panic.

Theorem C110_no_panic_indexed : forall (md : mode) (L : MapLib) (U : UrlLib) (c0 : IndexedConsumer L) (qs : list iquery)
    (c : IndexedConsumer L) (fresh : iopened md L U c0) (history : iasked md L U c0 qs = Ok c),
  ilived md L U c0 qs = c.
Proof. exact ilived_ok. Qed.
Print Assumptions C110_no_panic_indexed.

(** A call that panicked, other than generated_position_for, leaves no trace. *)
Theorem C110_no_trace : forall (md : mode) (L : MapLib) (U : UrlLib) (c0 : BasicConsumer L) (qs : list query) (q : query) (p : panic_kind)
    (fresh : opened md L U c0) (caught : ask md L U (lived md L U c0 qs) q = Panic p)
    (other : forall s line column b, q <> QGenerated s line column b),
  same_answers md L U c0 (lived md L U c0 (qs ++ [q])) (lived md L U c0 qs).
Proof. exact no_trace. Qed.
Print Assumptions C110_no_trace.

(** As if only the calls that pass had been made: they do pass without the others, and leave the same answers. *)
Theorem C110_as_passing : forall (md : mode) (L : MapLib) (U : UrlLib) (c0 : BasicConsumer L) (qs : list query)
    (fresh : opened md L U c0) (reverse : reverse_passes md L U c0 qs),
  exists c', asked md L U c0 (passing md L U c0 qs) = Ok c' /\ same_answers md L U c0 (lived md L U c0 qs) c'.
Proof. exact as_passing. Qed.
Print Assumptions C110_as_passing.

(** Whatever the calls, and whichever of them panicked: sources are found as in a fresh consumer, *)
Theorem C110_source_lookup : forall (md : mode) (L : MapLib) (U : UrlLib) (c0 : BasicConsumer L) (qs : list query) (src : str)
    (fresh : opened md L U c0) (few_sources : len (bc_get_sources L c0) < 2^31),
  bc_get_sources L (lived md L U c0 qs) = bc_get_sources L c0
  /\ answer (bc_find_source_index md L U (lived md L U c0 qs) src)
     = match source_lookup md L U c0 src with
       | Ok r => Ok (option_map Z.of_nat r)
       | Panic p => Panic p
       end.
Proof. exact lived_lookup. Qed.
Print Assumptions C110_source_lookup.

(** contents too, *)
Theorem C110_source_content_for : forall (md : mode) (L : MapLib) (U : UrlLib) (c0 : BasicConsumer L) (qs : list query) (src : str)
    (p : option bool) (fresh : opened md L U c0) (few_sources : len (bc_get_sources L c0) < 2^31),
  answer (bc_source_content_for md L U (lived md L U c0 qs) src p)
  = match smj_sources_content (bc_source_map c0) with
    | None => Ok None
    | Some contents =>
        match source_lookup md L U c0 src with
        | Panic p => Panic p
        | Ok None => match p with Some false => Ok None | _ => Panic PMissing end
        | Ok (Some i) =>
            match nth_error contents i with Some text => Ok (Some text) | None => Panic PIndex end
        end
    end.
Proof. exact lived_content. Qed.
Print Assumptions C110_source_content_for.

(** each_mapping reports the mappings of the map, *)
Theorem C110_each_mapping : forall (md : mode) (L : MapLib) (U : UrlLib) (contract : MapLibOk L) (c0 : BasicConsumer L) (qs : list query)
    (l l0 : list RawMapping) (fresh : opened md L U c0) (before : reports L c0 l0) (now : reports L (lived md L U c0 qs) l),
  (StronglySorted raw_le l /\ Forall raw_u32 l /\ map strip l = map strip l0)
  /\ (forall lo, answer (bc_each_mapping L (lived md L U c0 qs) OriginalOrd) = Ok lo ->
        Permutation (map strip lo) (filter has_original (map strip l)) /\ StronglySorted orig_le lo
        /\ Forall (ends_right l) lo).
Proof. exact lived_each. Qed.
Print Assumptions C110_each_mapping.

(** and the three lookups answer from the mappings reported (C41, C42, C44). *)
Theorem C110_original_position_for : forall (md : mode) (L : MapLib) (U : UrlLib) (contract : MapLibOk L) (c0 : BasicConsumer L)
    (qs : list query) (g : Position) (b : option Bias) (l : list RawMapping)
    (fresh : opened md L U c0) (few_sources : len (bc_get_sources L c0) < 2^31) (parses : readable L (bc_source_map c0))
    (mappings : reports L (lived md L U c0 qs) l) (small : Forall raw_i31 l)
    (position : position_ok (p_line g) (p_column g)),
  exists found, nearest (by_place l) (p_line g - 1, p_column g) (default_bias b) found
    /\ answer (bc_original_position_for md L (lived md L U c0 qs) g b)
       = original_outcome (bc_source_map c0) (bc_get_sources L c0) (p_line g) found.
Proof. exact lived_original. Qed.
Print Assumptions C110_original_position_for.

Theorem C110_generated_position_for : forall (md : mode) (L : MapLib) (U : UrlLib) (contract : MapLibOk L) (c0 : BasicConsumer L)
    (qs : list query) (src : str) (i : nat) (line column : Z) (b : option Bias) (l : list RawMapping)
    (fresh : opened md L U c0) (few_sources : len (bc_get_sources L c0) < 2^31) (parses : readable L (bc_source_map c0))
    (mappings : reports L (lived md L U c0 qs) l) (small : Forall raw_i31 l)
    (known : source_lookup md L U c0 src = Ok (Some i)) (position : position_ok line column),
  exists found last, nearest (of_source (Z.of_nat i) l) (line - 1, column) (default_bias b) found
    /\ answer (bc_generated_position_for md L U (lived md L U c0 qs) src line column b)
       = generated_outcome (bc_source_map c0) (bc_get_sources L c0) i found last
    /\ end_shown (In QSpans qs) l found last.
Proof. exact lived_generated. Qed.
Print Assumptions C110_generated_position_for.

Theorem C110_all_generated : forall (md : mode) (L : MapLib) (U : UrlLib) (contract : MapLibOk L) (c0 : BasicConsumer L)
    (qs : list query) (src : str) (i : nat) (line : Z) (column : option Z) (l : list RawMapping)
    (fresh : opened md L U c0) (few_sources : len (bc_get_sources L c0) < 2^31) (parses : readable L (bc_source_map c0))
    (mappings : reports L (lived md L U c0 qs) l) (known : source_lookup md L U c0 src = Ok (Some i)),
  let col := match column with Some z => z | None => 0 end in
  position_ok line col ->
  exists r, answer (bc_all_generated_position_for md L U (lived md L U c0 qs) src line column) = Ok r /\ Forall (ends_right l) r
    /\ (at_place (line, col) (of_source (Z.of_nat i) l) <> [] ->
        Permutation (map strip r) (at_place (line, col) (of_source (Z.of_nat i) l))).
Proof. exact lived_all. Qed.
Print Assumptions C110_all_generated.

(** An indexed consumer: as if at most computed_column_spans had been called, provided that call passes. *)
Theorem C110_indexed : forall (md : mode) (L : MapLib) (U : UrlLib) (c0 : IndexedConsumer L) (qs : list iquery)
    (fresh : iopened md L U c0) (spans : calls_spans qs = true -> exists d, ic_computed_column_spans L c0 = Ok d),
  exists c', iasked md L U c0 (if calls_spans qs then [ISpans] else []) = Ok c'
    /\ same_ianswers md L U (ilived md L U c0 qs) c'.
Proof. exact ilived_as_passing. Qed.
Print Assumptions C110_indexed.

(** Whether or not it passes: only whether computed_column_spans was called matters. *)
Theorem C110_indexed_alike : forall (md : mode) (L : MapLib) (U : UrlLib) (c0 : IndexedConsumer L) (qs qs' : list iquery)
    (fresh : iopened md L U c0) (spans : calls_spans qs = calls_spans qs'),
  same_ianswers md L U (ilived md L U c0 qs) (ilived md L U c0 qs').
Proof. exact ilived_alike. Qed.
Print Assumptions C110_indexed_alike.

(** A position is answered by its section's own map.  computed_column_spans has reached that map if it was called
    and passes on the maps of the sections up to this one. *)
Theorem C110_indexed_section : forall (md : mode) (L : MapLib) (U : UrlLib) (j : SourceMapJson) (url : option str)
    (l : list JSection) (c0 : IndexedConsumer L) (qs : list iquery) (g : Position) (b : option Bias)
    (sections : smj_sections j = Some l) (offsets : Forall small_offset l) (few : len l < 2147483647)
    (fresh : ic_from_source_map_json md L U (seq 0 (length l)) j url = Ok c0)
    (reach : in_reach (map start_of (map js_offset l)) g),
  ((forall s, In s l -> ~ starts_before (js_offset s) g)
     /\ answer (ic_original_position_for md L (ilived md L U c0 qs) g b) = Ok None)
  \/ (exists k s c1 c2, nth_error l k = Some s /\ starts_before (js_offset s) g
        /\ (forall s', In s' l -> starts_before (js_offset s') g -> pos_le (js_offset s') (js_offset s))
        /\ (forall k' s', nth_error l k' = Some s' -> js_offset s' = js_offset s -> (k <= k')%nat)
        /\ bc_from_source_map_json md L U (js_map s) url = Ok c1
        /\ ((calls_spans qs = true /\ spans_reach md L U url l k /\ bc_compute_column_spans L c1 = Ok c2)
            \/ (~ (calls_spans qs = true /\ spans_reach md L U url l k) /\ c2 = c1))
        /\ answer (ic_original_position_for md L (ilived md L U c0 qs) g b)
           = answer (bc_original_position_for md L c2 (relative_position (js_offset s) g) b)).
Proof. exact lived_section. Qed.
Print Assumptions C110_indexed_section.

(* fewer names than sources: generated_position_for panics for b.js *)
Definition c110_map : SourceMapJson :=
  mkSMJ 3 (Some [lit "a.js"; lit "b.js"]) (Some [lit "x"]) (Some (lit ";AAAA,ICQC;;OAPI")) None
        None (Some [lit "text of a"]) None.
Definition c110_open : res (BasicConsumer RefLib) := bc_from_source_map_json Debug RefLib RefUrl c110_map None.
Definition c110_after {A} (qs : list query) (q : BasicConsumer RefLib -> res (A * BasicConsumer RefLib)) : res A :=
  let* c0 := c110_open in answer (q (lived Debug RefLib RefUrl c0 qs)).
Definition c110_passing (qs : list query) : res (list query) :=
  let* c0 := c110_open in Ok (passing Debug RefLib RefUrl c0 qs).
Definition c110_asked (qs : list query) : res unit :=
  let* c0 := c110_open in let* _ := asked Debug RefLib RefUrl c0 qs in Ok tt.
Definition c110_panicky : list query :=
  [QOriginal (mkPos 0 0) None; QOriginal (mkPos 1 (-1)) None; QContent (lit "no.js") None; QContent (lit "b.js") None;
   QAll (lit "a.js") 0 None; QGenerated (lit "a.js") 1 0 None; QSpans].
Definition c110_late : list query := [QGenerated (lit "b.js") 9 1 None].

Example C110_case :
  map c110_asked [[QOriginal (mkPos 0 0) None]; [QOriginal (mkPos 1 (-1)) None]; [QContent (lit "no.js") None];
                  [QContent (lit "b.js") None]; [QAll (lit "a.js") 0 None]; c110_late]
    = [Panic PLine; Panic PColumn; Panic PMissing; Panic PIndex; Panic PLine; Panic PIndex]
  /\ c110_passing c110_panicky = Ok [QGenerated (lit "a.js") 1 0 None; QSpans]
  (* the answers afterwards *)
  /\ map (fun qs => c110_after qs (fun c => bc_original_position_for Debug RefLib c (mkPos 1 3) (Some LeastUpperBound)))
         [c110_panicky; [QGenerated (lit "a.js") 1 0 None; QSpans]; [QSpans]; c110_late ++ [QSpans]]
     = repeat (Ok (Some (mkMapping (mkPos 2 0) (Some (mkPos 1 0)) (Some (lit "a.js")) None (Some 4)))) 4
  /\ map (fun qs => c110_after qs (fun c => bc_generated_position_for Debug RefLib RefUrl c (lit "a.js") 1 0 None))
         [[]; c110_late; c110_late ++ [QOriginal (mkPos 0 0) None]]
     = repeat (Ok (Some (mkMapping (mkPos 2 0) (Some (mkPos 0 0)) (Some (lit "a.js")) (Some (lit "x")) None))) 3
  /\ map (fun qs => c110_after qs (fun c => bc_source_content_for Debug RefLib RefUrl c (lit "a.js") None)) [[]; c110_panicky; c110_late]
     = repeat (Ok (Some (lit "text of a"))) 3.
Proof. vm_compute. repeat split; reflexivity. Qed.

Definition c110_json (last : SourceMapJson) : SourceMapJson :=
  mkSMJ 3 None None None None None None
    (Some [mkJSection (mkPos 0 0) c110_map None; mkJSection (mkPos 4 2) last None]).
Definition c110_broken : SourceMapJson := mkSMJ 3 (Some [lit "o.js"]) (Some []) (Some (lit "!")) None None None None.
Definition c110_sections {A} (last : SourceMapJson) (qs : list iquery) (q : IndexedConsumer RefLib -> res (A * IndexedConsumer RefLib)) : res A :=
  let* c0 := ic_from_source_map_json Debug RefLib RefUrl [0%nat; 1%nat] (c110_json last) None in
  answer (q (ilived Debug RefLib RefUrl c0 qs)).
Definition c110_icalls : list iquery :=
  [IGenerated (lit "a.js") 1 0 None; IOriginal (mkPos 1 (-3)) None; IContent (lit "b.js") (Some false); IAll (lit "a.js") 1 None;
   IEach OriginalOrd; IOriginal (mkPos 1 3) (Some LeastUpperBound)].

Example C110_indexed_case :
  map (fun x => c110_sections (fst x) (snd x) (fun c => ic_original_position_for Debug RefLib c (mkPos 1 3) (Some LeastUpperBound)))
      [(c110_map, []); (c110_map, c110_icalls); (c110_broken, c110_icalls)]
    = repeat (Ok (Some (mkMapping (mkPos 2 0) (Some (mkPos 1 0)) (Some (lit "a.js")) None None))) 3
  /\ map (fun x => c110_sections (fst x) (snd x) (fun c => ic_original_position_for Debug RefLib c (mkPos 1 3) (Some LeastUpperBound)))
         [(c110_map, [ISpans]); (c110_map, c110_icalls ++ [ISpans] ++ c110_icalls)]
     = repeat (Ok (Some (mkMapping (mkPos 2 0) (Some (mkPos 1 0)) (Some (lit "a.js")) None (Some 4)))) 2
  (* computed_column_spans panics at the second section and leaves the first one with its spans *)
  /\ c110_sections c110_broken [] (fun c => let* d := ic_computed_column_spans RefLib c in Ok (tt, d)) = Panic PUnwrapNone
  /\ c110_sections c110_broken [ISpans] (fun c => ic_original_position_for Debug RefLib c (mkPos 1 3) (Some LeastUpperBound))
     = Ok (Some (mkMapping (mkPos 2 0) (Some (mkPos 1 0)) (Some (lit "a.js")) None (Some 4))).
Proof. vm_compute. repeat split; reflexivity. Qed.

(* three sections, the second one unreadable: after computed_column_spans the first has its spans, the third not *)
Definition c110_three : SourceMapJson :=
  mkSMJ 3 None None None None None None
    (Some [mkJSection (mkPos 0 0) c110_map None; mkJSection (mkPos 4 2) c110_broken None; mkJSection (mkPos 9 0) c110_map None]).
Example C110_partial_spans_case :
  map (fun g => let* c0 := ic_from_source_map_json Debug RefLib RefUrl [0%nat; 1%nat; 2%nat] c110_three None in
                answer (ic_original_position_for Debug RefLib (ilived Debug RefLib RefUrl c0 [ISpans; ISources; ISpans]) g (Some LeastUpperBound)))
      [mkPos 1 3; mkPos 6 0; mkPos 10 3]
  = [Ok (Some (mkMapping (mkPos 2 0) (Some (mkPos 1 0)) (Some (lit "a.js")) None (Some 4)));
     Panic PUnwrapNone;
     Ok (Some (mkMapping (mkPos 2 0) (Some (mkPos 1 0)) (Some (lit "a.js")) None None))].
Proof. vm_compute. reflexivity. Qed.

(** the hypotheses of C110_as_passing *)
Example C110_instance : exists c0, opened Debug RefLib RefUrl c0 /\ reverse_passes Debug RefLib RefUrl c0 c110_panicky.
Proof.
  destruct c110_open as [c0|p] eqn:E.
  2: { assert (X : c110_asked [] = Ok tt) by (vm_compute; reflexivity). unfold c110_asked in X. rewrite E in X. discriminate X. }
  exists c0. split; [right; exists c110_map, None; exact E|].
  assert (X : match c110_open with Ok c0 => match ask Debug RefLib RefUrl (lived Debug RefLib RefUrl c0 (firstn 5 c110_panicky))
                (QGenerated (lit "a.js") 1 0 None) with Ok _ => true | Panic _ => false end | Panic _ => false end = true)
    by (vm_compute; reflexivity).
  rewrite E in X. cbn [firstn c110_panicky lived fold_left] in X.
  cbn [c110_panicky reverse_passes]. repeat (split; [exact I|]). split; [|auto].
  match type of X with match ?a with _ => _ end = _ => destruct a as [d|] eqn:Ed; [|discriminate X] end.
  exists d. reflexivity.
Qed.
