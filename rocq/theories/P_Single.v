(** * C108: a map as the only section of an indexed map *)
From Verif Require Import Base M_Mapping M_Util M_SourceMap M_Json M_MapLib M_Consumer M_Indexed
  S_MapLib S_Consumer S_Indexed S_Single F_UrlRef F_MapLibRef F_Single.

(** It opens if the map does, and panics with the same panic otherwise. *)
Theorem C108_opens : forall (md : mode) (L : MapLib) (U : UrlLib) (o : SourceMapJson) (offset : Position) (j : SourceMapJson)
    (url : option str) (place : natural_pos offset) (only_section : wraps o offset j),
  match bc_from_source_map_json md L U j url with
  | Ok _ => exists c, ic_from_source_map_json md L U [0%nat] o url = Ok c
  | Panic p => ic_from_source_map_json md L U [0%nat] o url = Panic p
  end.
Proof. exact opened_alike. Qed.
Print Assumptions C108_opens.

(** After any calls it answers as the map's own consumer does after the calls it has passed on. *)
Theorem C108_answers : forall (md : mode) (L : MapLib) (U : UrlLib) (o : SourceMapJson) (offset : Position) (j : SourceMapJson)
    (url : option str) (b0 : BasicConsumer L) (c0 : IndexedConsumer L) (qs : list iquery) (c : IndexedConsumer L)
    (place : natural_pos offset) (only_section : wraps o offset j)
    (opens : bc_from_source_map_json md L U j url = Ok b0) (opens_o : ic_from_source_map_json md L U [0%nat] o url = Ok c0)
    (positions : Forall real_call qs) (history : iasked md L U c0 qs = Ok c),
  exists b, asked md L U b0 (flat_map (asks_inside offset) qs) = Ok b /\ answers_through md L U offset j b c.
Proof. exact single_history. Qed.
Print Assumptions C108_answers.

(** At (0,0) nothing changes for original_position_for, but at the first column of the first line. *)
Theorem C108_at_start : forall (md : mode) (L : MapLib) (U : UrlLib) (o : SourceMapJson) (j : SourceMapJson)
    (url : option str) (b0 : BasicConsumer L) (c0 : IndexedConsumer L) (qs : list iquery) (c : IndexedConsumer L)
    (g : Position) (bias : option Bias) (only_section : wraps o (mkPos 0 0) j)
    (opens : bc_from_source_map_json md L U j url = Ok b0) (opens_o : ic_from_source_map_json md L U [0%nat] o url = Ok c0)
    (positions : Forall real_call qs) (history : iasked md L U c0 qs = Ok c) (position : real_position g),
  exists b, asked md L U b0 (flat_map (asks_inside (mkPos 0 0)) qs) = Ok b
  /\ (g <> mkPos 1 0 -> answer (ic_original_position_for md L c g bias) = answer (bc_original_position_for md L b g bias))
  /\ (g = mkPos 1 0 -> answer (ic_original_position_for md L c g bias) = Ok None).
Proof. exact single_at_start. Qed.
Print Assumptions C108_at_start.

Definition c108_map : SourceMapJson :=
  mkSMJ 3 (Some [lit "a.js"; lit "b.js"]) (Some [lit "x"]) (Some (lit ";AAAA,ICQCA;;OAPI")) None
        (Some (lit "src")) (Some [lit "text of a"]) None.
Definition c108_at (offset : Position) : SourceMapJson :=
  mkSMJ 3 None None None (Some (lit "out.js")) None None (Some [mkJSection offset c108_map None]).
Definition c108_own {A} (qs : list query) (q : BasicConsumer RefLib -> res (A * BasicConsumer RefLib)) : res A :=
  let* b0 := bc_from_source_map_json Debug RefLib RefUrl c108_map None in
  let* b := asked Debug RefLib RefUrl b0 qs in answer (q b).
Definition c108_ask {A} (offset : Position) (qs : list iquery)
    (q : IndexedConsumer RefLib -> res (A * IndexedConsumer RefLib)) : res A :=
  let* c0 := ic_from_source_map_json Debug RefLib RefUrl [0%nat] (c108_at offset) None in
  let* c := iasked Debug RefLib RefUrl c0 qs in answer (q c).
Definition c108_history : list iquery :=
  [ISpans; IOriginal (mkPos 5 9) None; IOriginal (mkPos 1 0) (Some LeastUpperBound); IContent (lit "nowhere.js") (Some false); ISources].

Example C108_case :
  let own g := c108_own (flat_map (asks_inside (mkPos 0 0)) c108_history)
                 (fun b => bc_original_position_for Debug RefLib b g (Some LeastUpperBound)) in
  let at_ o g := c108_ask o c108_history (fun c => ic_original_position_for Debug RefLib c g (Some LeastUpperBound)) in
  (* the calls passed on *)
  flat_map (asks_inside (mkPos 0 0)) c108_history
    = [QSpans; QOriginal (mkPos 5 9) None; QContent (lit "nowhere.js") (Some false)]
  (* the first line but for its first column *)
  /\ own (mkPos 1 1) = Ok (Some (mkMapping (mkPos 2 0) (Some (mkPos 1 0)) (Some (lit "src/a.js")) None (Some 4)))
  /\ at_ (mkPos 0 0) (mkPos 1 1) = own (mkPos 1 1)
  /\ own (mkPos 1 0) = own (mkPos 1 1) /\ at_ (mkPos 0 0) (mkPos 1 0) = Ok None
  (* further down *)
  /\ at_ (mkPos 10 4) (mkPos 11 5) = own (mkPos 1 1) /\ at_ (mkPos 10 4) (mkPos 11 4) = Ok None
  /\ at_ (mkPos 10 4) (mkPos 13 0) = own (mkPos 3 0)
  /\ own (mkPos 3 0) = Ok (Some (mkMapping (mkPos 4 7) (Some (mkPos 2 5)) (Some (lit "src/b.js")) None None))
  (* contents *)
  /\ c108_ask (mkPos 0 0) [] (fun c => ic_source_content_for Debug RefLib RefUrl c (lit "src/a.js") None) = Ok (Some (lit "text of a"))
  /\ c108_ask (mkPos 0 0) [] (fun c => ic_source_content_for Debug RefLib RefUrl c (lit "nowhere.js") None) = Panic PMissing
  (* sources as written, not in the root *)
  /\ c108_ask (mkPos 0 0) [] (fun c => ic_get_sources RefLib c) = Ok [lit "a.js"; lit "b.js"]
  /\ c108_ask (mkPos 0 0) [] (fun c => ic_generated_position_for Debug RefLib RefUrl c (lit "src/a.js") 1 0 None) = Panic PBorrowMut.
Proof. vm_compute. repeat split; reflexivity. Qed.

Example C108_instance : wraps (c108_at (mkPos 10 4)) (mkPos 10 4) c108_map /\ natural_pos (mkPos 10 4)
  /\ (exists b0, bc_from_source_map_json Debug RefLib RefUrl c108_map None = Ok b0)
  /\ (exists c0, ic_from_source_map_json Debug RefLib RefUrl [0%nat] (c108_at (mkPos 10 4)) None = Ok c0
       /\ exists c, iasked Debug RefLib RefUrl c0 c108_history = Ok c)
  /\ Forall real_call c108_history.
Proof.
  split; [split; reflexivity|]. split; [unfold natural_pos, i32_max; cbn; lia|].
  split.
  { destruct (bc_from_source_map_json Debug RefLib RefUrl c108_map None) as [b0|p] eqn:E; [eauto|].
    assert (X : c108_own [] (fun b => Ok (tt, b)) = Ok tt) by (vm_compute; reflexivity). unfold c108_own in X. rewrite E in X. discriminate X. }
  split.
  { assert (X : c108_ask (mkPos 10 4) c108_history (fun c => Ok (tt, c)) = Ok tt) by (vm_compute; reflexivity). unfold c108_ask in X.
    destruct (ic_from_source_map_json Debug RefLib RefUrl [0%nat] (c108_at (mkPos 10 4)) None) as [c0|p]; [|discriminate X].
    exists c0. split; [reflexivity|]. cbn [bind] in X.
    destruct (iasked Debug RefLib RefUrl c0 c108_history) as [c|p]; [eauto | discriminate X]. }
  unfold c108_history. repeat constructor; cbn; unfold i32_max; lia.
Qed.
