(** * C109: calls that leave no trace *)
From Verif Require Import Base M_Mapping M_Util M_SourceMap M_Json M_MapLib M_Consumer M_Indexed
  S_Mapping S_MapLib S_Consumer S_Indexed S_Alias S_Quiet F_UrlRef F_MapLibRef F_Quiet.

(** original_position_for, source_content_for and each_mapping in generated order change no later answer:
    without them the other calls pass too, and all questions are answered alike.  No crate need keep any contract. *)
Theorem C109_quiet_calls : forall (md : mode) (L : MapLib) (U : UrlLib) (c0 : BasicConsumer L) (qs : list query) (c : BasicConsumer L)
    (fresh : opened md L U c0) (history : asked md L U c0 qs = Ok c),
  exists c', asked md L U c0 (loud qs) = Ok c' /\ same_answers md L U c0 c c'.
Proof. exact quiet_calls. Qed.
Print Assumptions C109_quiet_calls.

Theorem C109_same_loud_calls : forall (md : mode) (L : MapLib) (U : UrlLib) (c0 : BasicConsumer L) (qs qs' : list query)
    (c c' : BasicConsumer L) (fresh : opened md L U c0)
    (history : asked md L U c0 qs = Ok c) (history' : asked md L U c0 qs' = Ok c') (but_for_quiet : loud qs = loud qs'),
  same_answers md L U c0 c c'.
Proof. exact same_loud. Qed.
Print Assumptions C109_same_loud_calls.

(** Of the calls on an indexed consumer only computed_column_spans matters. *)
Theorem C109_indexed : forall (md : mode) (L : MapLib) (U : UrlLib) (c0 : IndexedConsumer L) (qs qs' : list iquery)
    (c c' : IndexedConsumer L) (fresh : iopened md L U c0)
    (history : iasked md L U c0 qs = Ok c) (history' : iasked md L U c0 qs' = Ok c') (spans : calls_spans qs = calls_spans qs'),
  same_ianswers md L U c c'.
Proof. exact indexed_quiet. Qed.
Print Assumptions C109_indexed.

(** The answer for a position is that of a fresh consumer of its section's own map, on which at most
    compute_column_spans was called: the other sections and the other calls do not matter. *)
Theorem C109_own_section : forall (md : mode) (L : MapLib) (U : UrlLib) (j : SourceMapJson) (url : option str)
    (l : list JSection) (c0 : IndexedConsumer L) (qs : list iquery) (c : IndexedConsumer L) (g : Position) (b : option Bias)
    (sections : smj_sections j = Some l) (offsets : Forall small_offset l) (few : len l < 2147483647)
    (fresh : ic_from_source_map_json md L U (seq 0 (length l)) j url = Ok c0)
    (history : iasked md L U c0 qs = Ok c)
    (reach : in_reach (map start_of (map js_offset l)) g),
  ((forall s, In s l -> ~ starts_before (js_offset s) g)
     /\ answer (ic_original_position_for md L c g b) = Ok None)
  \/ (exists k s c1 c2, nth_error l k = Some s /\ starts_before (js_offset s) g
        /\ (forall s', In s' l -> starts_before (js_offset s') g -> pos_le (js_offset s') (js_offset s))
        /\ (forall k' s', nth_error l k' = Some s' -> js_offset s' = js_offset s -> (k <= k')%nat)
        /\ bc_from_source_map_json md L U (js_map s) url = Ok c1
        /\ asked md L U c1 (if calls_spans qs then [QSpans] else []) = Ok c2
        /\ answer (ic_original_position_for md L c g b)
           = answer (bc_original_position_for md L c2 (relative_position (js_offset s) g) b)).
Proof. exact own_section. Qed.
Print Assumptions C109_own_section.

Definition c109_map : SourceMapJson :=
  mkSMJ 3 (Some [lit "a.js"; lit "b.js"]) (Some [lit "x"; lit "y"]) (Some (lit ";AAAA,ICQCA;;OAPI")) None
        None (Some [lit "text of a"; lit "text of b"]) None.
Definition c109_after {A} (qs : list query) (q : BasicConsumer RefLib -> res (A * BasicConsumer RefLib)) : res A :=
  let* c0 := bc_from_source_map_json Debug RefLib RefUrl c109_map None in
  let* c := asked Debug RefLib RefUrl c0 qs in answer (q c).
Definition c109_history : list query :=
  [QEach GeneratedOrd; QContent (lit "b.js") None; QOriginal (mkPos 1 3) (Some LeastUpperBound);
   QGenerated (lit "a.js") 1 0 None; QOriginal (mkPos 9 9) None; QAll (lit "b.js") 9 None; QContent (lit "no.js") (Some false)].

Example C109_case :
  loud c109_history = [QGenerated (lit "a.js") 1 0 None; QAll (lit "b.js") 9 None]
  /\ map (fun qs => c109_after qs (fun c => bc_original_position_for Debug RefLib c (mkPos 1 3) (Some LeastUpperBound)))
         [[]; c109_history; loud c109_history]
     = repeat (Ok (Some (mkMapping (mkPos 2 0) (Some (mkPos 1 0)) (Some (lit "a.js")) None None))) 3
  /\ map (fun qs => c109_after qs (fun c => bc_generated_position_for Debug RefLib RefUrl c (lit "a.js") 1 0 None))
         [[]; c109_history; loud c109_history]
     = repeat (Ok (Some (mkMapping (mkPos 2 0) (Some (mkPos 0 0)) (Some (lit "a.js")) (Some (lit "x")) None))) 3
  (* compute_column_spans does leave a trace *)
  /\ c109_after [QSpans] (fun c => bc_original_position_for Debug RefLib c (mkPos 1 3) (Some LeastUpperBound))
     = Ok (Some (mkMapping (mkPos 2 0) (Some (mkPos 1 0)) (Some (lit "a.js")) None (Some 4))).
Proof. vm_compute. repeat split; reflexivity. Qed.

Definition c109_json (other : SourceMapJson) : SourceMapJson :=
  mkSMJ 3 None None None None None None
    (Some [mkJSection (mkPos 0 0) other None; mkJSection (mkPos 4 2) c109_map None; mkJSection (mkPos 9 0) other None]).
Definition c109_other : SourceMapJson := mkSMJ 3 (Some [lit "o.js"]) (Some []) (Some (lit "AAAA;;AACA")) None None None None.
Definition c109_sections {A} (j : SourceMapJson) (qs : list iquery) (q : IndexedConsumer RefLib -> res (A * IndexedConsumer RefLib)) : res A :=
  let* c0 := ic_from_source_map_json Debug RefLib RefUrl [0%nat; 1%nat; 2%nat] j None in
  let* c := iasked Debug RefLib RefUrl c0 qs in answer (q c).
Definition c109_icalls : list iquery :=
  [IOriginal (mkPos 12 0) None; IContent (lit "a.js") (Some false); IOriginal (mkPos 5 7) (Some LeastUpperBound); ISources; IHasContents].

Example C109_indexed_case :
  (* whatever the other sections and the calls before *)
  map (fun x => c109_sections (c109_json (fst x)) (snd x)
         (fun c => ic_original_position_for Debug RefLib c (mkPos 5 7) (Some LeastUpperBound)))
      [(c109_other, []); (c109_other, c109_icalls); (c109_map, c109_icalls); (c109_map, c109_icalls ++ c109_icalls)]
    = repeat (c109_after [] (fun c => bc_original_position_for Debug RefLib c (mkPos 1 5) (Some LeastUpperBound))) 4
  /\ map (fun qs => c109_sections (c109_json c109_other) qs
            (fun c => ic_original_position_for Debug RefLib c (mkPos 5 7) (Some LeastUpperBound)))
         [[ISpans]; c109_icalls ++ [ISpans]; ISpans :: c109_icalls ++ [ISpans]]
     = repeat (c109_after [QSpans] (fun c => bc_original_position_for Debug RefLib c (mkPos 1 5) (Some LeastUpperBound))) 3
  /\ c109_after [] (fun c => bc_original_position_for Debug RefLib c (mkPos 1 5) (Some LeastUpperBound))
     = Ok (Some (mkMapping (mkPos 2 0) (Some (mkPos 1 0)) (Some (lit "a.js")) None None)).
Proof. vm_compute. repeat split; reflexivity. Qed.

Example C109_instance : exists c0 c c',
  iopened Debug RefLib RefUrl c0
  /\ iasked Debug RefLib RefUrl c0 (c109_icalls ++ [ISpans]) = Ok c
  /\ iasked Debug RefLib RefUrl c0 [ISpans] = Ok c'
  /\ calls_spans (c109_icalls ++ [ISpans]) = calls_spans [ISpans].
Proof.
  destruct (ic_from_source_map_json Debug RefLib RefUrl [0%nat; 1%nat; 2%nat] (c109_json c109_other) None) as [c0|p] eqn:E.
  2: { assert (X : c109_sections (c109_json c109_other) [] (fun c => Ok (tt, c)) = Ok tt) by (vm_compute; reflexivity).
       unfold c109_sections in X. rewrite E in X. discriminate X. }
  assert (X : c109_sections (c109_json c109_other) (c109_icalls ++ [ISpans]) (fun c => Ok (tt, c)) = Ok tt) by (vm_compute; reflexivity).
  assert (Y : c109_sections (c109_json c109_other) [ISpans] (fun c => Ok (tt, c)) = Ok tt) by (vm_compute; reflexivity).
  unfold c109_sections in X, Y. rewrite E in X, Y. cbn [bind] in X, Y.
  destruct (iasked Debug RefLib RefUrl c0 (c109_icalls ++ [ISpans])) as [c|p] eqn:E1; [|discriminate X].
  destruct (iasked Debug RefLib RefUrl c0 [ISpans]) as [c'|p] eqn:E2; [|discriminate Y].
  exists c0, c, c'. split; [|repeat split; assumption || reflexivity].
  exists [0%nat; 1%nat; 2%nat], (c109_json c109_other), None. eexists. split; [reflexivity|].
  split; [unfold schedule; cbn; reflexivity|]. split; [|exact E].
  repeat constructor; unfold i32_min, i32_max; cbn; discriminate.
Qed.
