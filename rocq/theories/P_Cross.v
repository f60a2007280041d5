(** * C117: answers never cross

    [l0] are the mappings of the map; the two consumers come from the same one, after any calls. *)
From Verif Require Import Base M_ArraySet M_Mapping M_Util M_SourceMap M_Json M_MapLib M_Consumer M_Indexed
  S_Mapping S_MapLib S_Consumer F_UrlRef F_MapLibRef F_Cross.

(** A position at or behind another gets an answer at or behind the other's. *)
Theorem C117_original : forall (md : mode) (L : MapLib) (U : UrlLib) (contract : MapLibOk L)
    (c0 : BasicConsumer L) (qs qs' : list query) (c c' : BasicConsumer L) (l0 : list RawMapping) (g g' : Position) (b : option Bias)
    (a a' : Mapping) (fresh : opened md L U c0) (history : asked md L U c0 qs = Ok c) (history' : asked md L U c0 qs' = Ok c')
    (few_sources : len (bc_get_sources L c0) < 2^31) (parses : readable L (bc_source_map c0))
    (mappings : reports L c0 l0) (small : Forall raw_i31 l0)
    (position : position_ok (p_line g) (p_column g)) (position' : position_ok (p_line g') (p_column g')) (order : pos_le g g')
    (answered : answer (bc_original_position_for md L c g b) = Ok (Some a))
    (answered' : answer (bc_original_position_for md L c' g' b) = Ok (Some a')),
  pos_le (m_generated a) (m_generated a').
Proof. exact original_cross. Qed.
Print Assumptions C117_original.

(** So too for original positions of one source *)
Theorem C117_generated : forall (md : mode) (L : MapLib) (U : UrlLib) (contract : MapLibOk L)
    (c0 : BasicConsumer L) (qs qs' : list query) (c c' : BasicConsumer L) (l0 : list RawMapping) (src : str)
    (line column line' column' : Z) (b : option Bias) (a a' : Mapping)
    (fresh : opened md L U c0) (history : asked md L U c0 qs = Ok c) (history' : asked md L U c0 qs' = Ok c')
    (few_sources : len (bc_get_sources L c0) < 2^31) (parses : readable L (bc_source_map c0))
    (mappings : reports L c0 l0) (small : Forall raw_i31 l0)
    (position : position_ok line column) (position' : position_ok line' column') (order : pos_le (mkPos line column) (mkPos line' column'))
    (answered : answer (bc_generated_position_for md L U c src line column b) = Ok (Some a))
    (answered' : answer (bc_generated_position_for md L U c' src line' column' b) = Ok (Some a')),
  exists o o', m_original a = Some o /\ m_original a' = Some o' /\ pos_le o o'.
Proof. exact generated_cross. Qed.
Print Assumptions C117_generated.

(** Where nothing is found, nothing is found further on in the direction of the bias. *)
Theorem C117_generated_none : forall (md : mode) (L : MapLib) (U : UrlLib) (contract : MapLibOk L)
    (c0 : BasicConsumer L) (qs qs' : list query) (c c' : BasicConsumer L) (l0 : list RawMapping) (src : str)
    (line column line' column' : Z) (b : option Bias)
    (fresh : opened md L U c0) (history : asked md L U c0 qs = Ok c) (history' : asked md L U c0 qs' = Ok c')
    (few_sources : len (bc_get_sources L c0) < 2^31) (parses : readable L (bc_source_map c0))
    (mappings : reports L c0 l0) (small : Forall raw_i31 l0)
    (position : position_ok line column) (position' : position_ok line' column')
    (order : match default_bias b with
             | GreatestLowerBound => pos_le (mkPos line' column') (mkPos line column)
             | LeastUpperBound => pos_le (mkPos line column) (mkPos line' column')
             end)
    (nothing : answer (bc_generated_position_for md L U c src line column b) = Ok None),
  answer (bc_generated_position_for md L U c' src line' column' b) = Ok None.
Proof. exact generated_none. Qed.
Print Assumptions C117_generated_none.

(** ** Examples *)
(** original lines 1 (column 4), 2 (column 0) and 5 of a.js, on lines 2, 3 and 4 *)
Definition c117_map : SourceMapJson :=
  mkSMJ 3 (Some [lit "a.js"]) (Some [lit "n"]) (Some (lit ";AAAI;AACJ;IAGA")) None None None None.
Definition c117_ask {A} (qs : list query) (q : BasicConsumer RefLib -> res (A * BasicConsumer RefLib)) : res A :=
  let* c0 := bc_from_source_map_json Debug RefLib RefUrl c117_map None in
  let* c := asked Debug RefLib RefUrl c0 qs in answer (q c).
Definition c117_original (g : Z * Z) : res (option Position) :=
  let* a := c117_ask [] (fun c => bc_original_position_for Debug RefLib c (mkPos (fst g) (snd g)) (Some LeastUpperBound)) in
  Ok (option_map m_generated a).
Definition c117_generated (b : Bias) (g : Z * Z) : res (option Position) :=
  let* a := c117_ask [QSpans] (fun c => bc_generated_position_for Debug RefLib RefUrl c (lit "a.js") (fst g) (snd g) (Some b)) in
  Ok (match a with Some m => m_original m | None => None end).

Example C117_case :
  map c117_original [(1, 0); (1, 9); (2, 1); (3, 0); (3, 2); (9, 0)]
  = [Ok (Some (mkPos 2 0)); Ok (Some (mkPos 2 0)); Ok (Some (mkPos 3 0)); Ok None; Ok (Some (mkPos 4 4)); Ok None]
  /\ map (c117_generated LeastUpperBound) [(1, 0); (1, 5); (2, 0); (2, 1); (4, 9); (7, 0); (8, 0)]
  = [Ok (Some (mkPos 0 4)); Ok (Some (mkPos 1 0)); Ok (Some (mkPos 1 0)); Ok (Some (mkPos 4 0)); Ok (Some (mkPos 4 0)); Ok None; Ok None]
  /\ map (c117_generated GreatestLowerBound) [(1, 0); (1, 3); (1, 5); (2, 0); (2, 1); (4, 9); (7, 0)]
  = [Ok None; Ok None; Ok (Some (mkPos 0 4)); Ok (Some (mkPos 1 0)); Ok (Some (mkPos 1 0)); Ok (Some (mkPos 1 0)); Ok (Some (mkPos 4 0))].
Proof. vm_compute. repeat split; reflexivity. Qed.

(** In an indexed map answers do cross: the generated position in an answer is the one within the section. *)
Definition c117_sections : SourceMapJson :=
  mkSMJ 3 None None None None None None (Some [mkJSection (mkPos 0 0) c117_map None; mkJSection (mkPos 10 4) c117_map None]).
Definition c117_indexed (g : Position) : res (option Position) :=
  let* c := ic_from_source_map_json Debug RefLib RefUrl [0; 1]%nat c117_sections None in
  let* a := answer (ic_original_position_for Debug RefLib c g (Some LeastUpperBound)) in Ok (option_map m_generated a).
Theorem C117_indexed_refuted : exists (g g' a a' : Position), pos_lt g g'
  /\ c117_indexed g = Ok (Some a) /\ c117_indexed g' = Ok (Some a') /\ pos_lt a' a.
Proof.
  exists (mkPos 3 2), (mkPos 12 2), (mkPos 4 4), (mkPos 3 0).
  split; [left; reflexivity|]. split; [vm_compute; reflexivity|]. split; [vm_compute; reflexivity|left; reflexivity].
Qed.
Print Assumptions C117_indexed_refuted.

Definition c117_raw (line column oline ocolumn : Z) : RawMapping := mkRaw line column None (Some (mkOrig 0 oline ocolumn None)).
Example C117_instance : exists c0 l0, opened Debug RefLib RefUrl c0 /\ len (bc_get_sources RefLib c0) < 2^31
  /\ readable RefLib (bc_source_map c0) /\ reports RefLib c0 l0 /\ Forall raw_i31 l0 /\ length l0 = 3%nat.
Proof.
  assert (X : c117_ask [] (fun c => bc_each_mapping RefLib c GeneratedOrd) = Ok [c117_raw 1 0 0 4; c117_raw 2 0 1 0; c117_raw 3 4 4 0])
    by (vm_compute; reflexivity).
  assert (Y : (let* c := bc_from_source_map_json Debug RefLib RefUrl c117_map None in Ok (len (bc_get_sources RefLib c))) = Ok 1)
    by (vm_compute; reflexivity).
  assert (Z : match smj_mappings c117_map with Some s => is_some (lm_parse RefLib s) | None => false end = true) by (vm_compute; reflexivity).
  unfold c117_ask in X. destruct (bc_from_source_map_json Debug RefLib RefUrl c117_map None) as [c0|p] eqn:E; [|discriminate Y].
  cbn [bind asked] in X, Y. exists c0. eexists. split; [right; eauto|]. split; [injection Y as ->; reflexivity|].
  split.
  { assert (M : bc_source_map c0 = c117_map).
    { unfold bc_from_source_map_json in E. destruct (compute_absolute_sources Debug RefUrl c117_map None); [|discriminate E].
      cbn [bind] in E. injection E as <-. reflexivity. }
    rewrite M. destruct (smj_mappings c117_map) as [s|] eqn:Em; [|discriminate Z].
    destruct (lm_parse RefLib s) as [t|] eqn:Ep; [|discriminate Z]. exists s, t. auto. }
  split; [exact X|]. split; [repeat constructor; vm_compute; congruence|reflexivity].
Qed.
