(** * C38-C44, C46-C48, C58: BasicConsumer

    [L] and [U] stand for the crates source-map-mappings and url.  [c0] is a
    consumer as one of the constructors returns it, [qs] any history of calls that
    leads from [c0] to [c]. *)
From Verif Require Import Base M_ArraySet M_Mapping M_Util M_SourceMap M_Generator M_Json M_MapLib M_Consumer
  S_Vlq S_List S_Decode S_MapLib S_Consumer F_UrlRef F_MapLibRef F_ConsumerProps.
From Coq Require Import Sorting.Sorted Sorting.Permutation.

(** The contract of the mappings library can be met. *)
Theorem C40_contract_can_be_met : MapLibOk RefLib.
Proof. exact RefLib_ok. Qed.
Print Assumptions C40_contract_can_be_met.

(** a map used in the examples *)
Definition c38_json : SourceMapJson :=
  mkSMJ 3 (Some [lit "b.js"; lit "a.js"]) (Some [lit "x"]) (Some (lit "A,ICQC;;ODPIA")) None
        (Some (lit "src")) (Some [lit "text of b"; lit "text of a"]) None.
Definition c38_url : option str := Some (lit "http://h/d/m.map").
(** [c38_after qs f]: open the map, ask [qs], then answer [f] *)
Definition c38_after {A} (qs : list query) (f : BasicConsumer RefLib -> res (A * BasicConsumer RefLib)) : res A :=
  let* c0 := bc_new Debug RefLib RefUrl (smj_to_string c38_json) c38_url in
  let* c := asked Debug RefLib RefUrl c0 qs in answer (f c).

(** give the value of a call as a witness *)
Ltac give r := let v := eval vm_compute in r in match v with Ok ?a => exists a end.

(** C38 *)
Theorem C38_source_lookup : forall (md : mode) (L : MapLib) (U : UrlLib) (c0 : BasicConsumer L)
    (qs : list query) (c : BasicConsumer L) (src : str)
    (fresh : opened md L U c0) (history : asked md L U c0 qs = Ok c)
    (few_sources : len (bc_get_sources L c0) < 2^31),
  bc_get_sources L c = bc_get_sources L c0
  /\ answer (bc_find_source_index md L U c src)
     = match source_lookup md L U c0 src with
       | Ok r => Ok (option_map Z.of_nat r)
       | Panic p => Panic p
       end
  /\ (forall i, source_lookup md L U c0 src = Ok (Some i) -> (i < length (bc_get_sources L c))%nat).
Proof. exact source_lookup_stable. Qed.
Print Assumptions C38_source_lookup.

Definition c38_history : list query :=
  [QContent (lit "b.js") None; QGenerated (lit "no.js") 1 0 None; QGenerated (lit "b.js") 2 5 None;
   QSpans; QEach OriginalOrd; QAll (lit "src/a.js") 8 (Some 1)].
Example C38_case :
  c38_after c38_history (fun c => bc_find_source_index Debug RefLib RefUrl c (lit "b.js")) = Ok (Some 0)
  /\ c38_after c38_history (fun c => bc_find_source_index Debug RefLib RefUrl c (lit "src/a.js")) = Ok (Some 1)
  /\ c38_after [] (fun c => bc_find_source_index Debug RefLib RefUrl c (lit "http://h/d/src/a.js")) = Ok (Some 1)
  /\ c38_after c38_history (fun c => bc_find_source_index Debug RefLib RefUrl c (lit "no.js")) = Ok None
  /\ c38_after c38_history (fun c => bc_find_source_index Debug RefLib RefUrl c (lit "a")) = Panic PUnwrapNone.
Proof. vm_compute. repeat split; reflexivity. Qed.

(** C39 *)
Theorem C39_constructors : forall (md : mode) (L : MapLib) (U : UrlLib) (s : str) (url : option str)
    (c : BasicConsumer L) (new : bc_new md L U s url = Ok c),
  exists j c', smj_from_str s = Some j /\ bc_from_source_map_json md L U j url = Ok c'
    /\ bc_source_map c = j /\ bc_source_map c' = j
    /\ bc_get_sources L c' = bc_get_sources L c
    /\ bc_source_map_url c = url /\ bc_source_map_url c' = None.
Proof. exact constructors. Qed.
Print Assumptions C39_constructors.

(** The same map and URL, the same sources, but a source is only found by one of
    the two consumers. *)
Theorem C39_same_answers_refuted : exists (s : str) (url : option str) (j : SourceMapJson) (src : str),
  let new := bc_new Debug RefLib RefUrl s url in
  let from_json := bc_from_source_map_json Debug RefLib RefUrl j url in
  smj_from_str s = Some j /\ is_ok new = true
  /\ (let* c := new in Ok (bc_get_sources RefLib c)) = (let* c := from_json in Ok (bc_get_sources RefLib c))
  /\ (let* c := new in answer (bc_source_content_for Debug RefLib RefUrl c src (Some false)))
     = Ok (Some (lit "text of b"))
  /\ (let* c := from_json in answer (bc_source_content_for Debug RefLib RefUrl c src (Some false))) = Ok None.
Proof.
  exists (smj_to_string c38_json), c38_url, c38_json, (lit "b.js"). vm_compute. repeat split; reflexivity.
Qed.
Print Assumptions C39_same_answers_refuted.

(** C40 *)
Theorem C40_original_never_answers : forall (md : mode) (L : MapLib) (U : UrlLib) (contract : MapLibOk L)
    (c0 : BasicConsumer L) (qs : list query) (c : BasicConsumer L) (g : Position) (b : option Bias)
    (fresh : opened md L U c0) (history : asked md L U c0 qs = Ok c)
    (i32_line : p_line g <= i32_max) (i32_column : p_column g <= i32_max)
    (default : default_bias b = GreatestLowerBound),
  let r := answer (bc_original_position_for md L c g b) in
  (p_line g < 1 -> r = Panic PLine)
  /\ (1 <= p_line g -> p_column g < 0 -> r = Panic PColumn)
  /\ (1 <= p_line g -> 0 <= p_column g -> ~ readable L (bc_source_map c0) -> r = Panic PUnwrapNone)
  /\ (1 <= p_line g -> 0 <= p_column g -> readable L (bc_source_map c0) -> r = Ok None).
Proof. exact original_never. Qed.
Print Assumptions C40_original_never_answers.

Example C40_case :
  let ask l c b := c38_after [] (fun x => bc_original_position_for Debug RefLib x (mkPos l c) b) in
  ask 2 0 None = Ok None /\ ask 2 0 (Some GreatestLowerBound) = Ok None
  /\ (let* r := ask 2 0 (Some LeastUpperBound) in Ok (is_some r)) = Ok true
  /\ ask 0 0 None = Panic PLine /\ ask 1 (-1) None = Panic PColumn
  /\ (let* c := bc_new Debug RefLib RefUrl (lit "{""version"":3,""sources"":[]}") None in
      answer (bc_original_position_for Debug RefLib c (mkPos 1 0) None)) = Panic PUnwrapNone.
Proof. vm_compute. repeat split; reflexivity. Qed.

(** even for the exact position of a mapping *)
Theorem C40_exact_hit_refuted :
  exists l m o, c38_after [] (fun c => bc_each_mapping RefLib c GeneratedOrd) = Ok l
    /\ In m l /\ rm_original m = Some o
    /\ c38_after [] (fun c => bc_original_position_for Debug RefLib c (mkPos (rm_line m + 1) (rm_column m)) None)
       = Ok None.
Proof.
  give (c38_after [] (fun c => bc_each_mapping RefLib c GeneratedOrd)).
  exists (mkRaw 0 4 None (Some (mkOrig 1 8 1 None))), (mkOrig 1 8 1 None).
  split; [vm_compute; reflexivity|]. split; [right; left; reflexivity|].
  split; [reflexivity|]. vm_compute. reflexivity.
Qed.
Print Assumptions C40_exact_hit_refuted.

(** C41: refusals, whatever the bias *)
Theorem C41_refuses : forall (md : mode) (L : MapLib) (U : UrlLib) (contract : MapLibOk L)
    (c0 : BasicConsumer L) (qs : list query) (c : BasicConsumer L) (g : Position) (b : option Bias)
    (fresh : opened md L U c0) (history : asked md L U c0 qs = Ok c)
    (i32_line : p_line g <= i32_max) (i32_column : p_column g <= i32_max),
  let r := answer (bc_original_position_for md L c g b) in
  (p_line g < 1 -> r = Panic PLine)
  /\ (1 <= p_line g -> p_column g < 0 -> r = Panic PColumn)
  /\ (1 <= p_line g -> 0 <= p_column g -> ~ readable L (bc_source_map c0) -> r = Panic PUnwrapNone).
Proof. exact original_refuses. Qed.
Print Assumptions C41_refuses.

(** C41: both biases; for the default one this says less than C40 *)
Theorem C41_original_position_for : forall (md : mode) (L : MapLib) (U : UrlLib) (contract : MapLibOk L)
    (c0 : BasicConsumer L) (qs : list query) (c : BasicConsumer L) (g : Position) (b : option Bias)
    (l : list RawMapping)
    (fresh : opened md L U c0) (history : asked md L U c0 qs = Ok c)
    (few_sources : len (bc_get_sources L c0) < 2^31) (parses : readable L (bc_source_map c0))
    (mappings : reports L c l) (small : Forall raw_i31 l)
    (position : position_ok (p_line g) (p_column g)),
  exists found, nearest (by_place l) (p_line g - 1, p_column g) (default_bias b) found
    /\ answer (bc_original_position_for md L c g b)
       = original_outcome (bc_source_map c0) (bc_get_sources L c0) (p_line g) found.
Proof. exact original_spec. Qed.
Print Assumptions C41_original_position_for.

Example C41_case :
  c38_after [QSpans] (fun c => bc_each_mapping RefLib c GeneratedOrd)
  = Ok [mkRaw 0 0 (Some 4) None; mkRaw 0 4 None (Some (mkOrig 1 8 1 None));
        mkRaw 2 7 None (Some (mkOrig 0 1 5 (Some 0)))]
  /\ c38_after [] (fun c => bc_original_position_for Debug RefLib c (mkPos 2 0) (Some LeastUpperBound))
     = Ok (Some (mkMapping (mkPos 3 7) (Some (mkPos 2 5)) (Some (lit "http://h/d/src/b.js")) (Some (lit "x")) None))
  /\ c38_after [] (fun c => bc_original_position_for Debug RefLib c (mkPos 3 7) (Some LeastUpperBound)) = Ok None
  (* spans are reported *)
  /\ (let j := mkSMJ 3 (Some [lit "b.js"]) None (Some (lit "A;AAAA,IAAE;I")) None None None None in
      let* c := bc_from_source_map_json Debug RefLib RefUrl j None in
      let* c := asked Debug RefLib RefUrl c [QSpans] in
      answer (bc_original_position_for Debug RefLib c (mkPos 1 1) (Some LeastUpperBound)))
     = Ok (Some (mkMapping (mkPos 2 0) (Some (mkPos 1 0)) (Some (lit "b.js")) None (Some 4)))
  /\ c38_after [] (fun c => bc_original_position_for Debug RefLib c (mkPos 1 4) (Some LeastUpperBound)) = Ok None.
Proof. vm_compute. repeat split; reflexivity. Qed.

(** C42: [i] is the number of the source, C38.  The source has no mapping in the
    direction of the bias exactly when nothing is found. *)
Theorem C42_generated_position_for : forall (md : mode) (L : MapLib) (U : UrlLib) (contract : MapLibOk L)
    (c0 : BasicConsumer L) (qs : list query) (c : BasicConsumer L) (src : str) (i : nat) (line column : Z)
    (b : option Bias) (l : list RawMapping)
    (fresh : opened md L U c0) (history : asked md L U c0 qs = Ok c)
    (few_sources : len (bc_get_sources L c0) < 2^31) (parses : readable L (bc_source_map c0))
    (mappings : reports L c l) (small : Forall raw_i31 l)
    (known : source_lookup md L U c0 src = Ok (Some i)) (position : position_ok line column),
  exists found last, nearest (of_source (Z.of_nat i) l) (line - 1, column) (default_bias b) found
    /\ answer (bc_generated_position_for md L U c src line column b)
       = generated_outcome (bc_source_map c0) (bc_get_sources L c0) i found last
    /\ end_shown (In QSpans qs) l found last.
Proof. exact generated_spec. Qed.
Print Assumptions C42_generated_position_for.

(** C42: all other cases *)
Theorem C42_source_query_guards : forall (md : mode) (L : MapLib) (U : UrlLib)
    (c0 : BasicConsumer L) (qs : list query) (c : BasicConsumer L) (src : str)
    (fresh : opened md L U c0) (history : asked md L U c0 qs = Ok c)
    (few_sources : len (bc_get_sources L c0) < 2^31),
  (forall p, source_lookup md L U c0 src = Panic p ->
     (forall line column b, answer (bc_generated_position_for md L U c src line column b) = Panic p)
     /\ (forall line column, answer (bc_all_generated_position_for md L U c src line column) = Panic p))
  /\ (source_lookup md L U c0 src = Ok None ->
     (forall line column b, answer (bc_generated_position_for md L U c src line column b) = Ok None)
     /\ (forall line column, answer (bc_all_generated_position_for md L U c src line column) = Ok []))
  /\ (forall i, source_lookup md L U c0 src = Ok (Some i) ->
     (forall line column b, line < 1 -> answer (bc_generated_position_for md L U c src line column b) = Panic PLine)
     /\ (forall line column b, 1 <= line -> column < 0 ->
          answer (bc_generated_position_for md L U c src line column b) = Panic PColumn)
     /\ (forall line column b, 1 <= line -> 0 <= column -> ~ readable L (bc_source_map c0) ->
          answer (bc_generated_position_for md L U c src line column b) = Panic PUnwrapNone)
     /\ (forall line column, line < 1 -> answer (bc_all_generated_position_for md L U c src line column) = Panic PLine)
     /\ (forall line column, 1 <= line -> column < 0 ->
          answer (bc_all_generated_position_for md L U c src line (Some column)) = Panic PColumn)
     /\ (forall line column, 1 <= line -> match column with Some z => 0 <= z | None => True end ->
          ~ readable L (bc_source_map c0) ->
          answer (bc_all_generated_position_for md L U c src line column) = Panic PUnwrapNone)).
Proof. exact source_query_guards. Qed.
Print Assumptions C42_source_query_guards.

Example C42_case :
  c38_after [] (fun c => bc_generated_position_for Debug RefLib RefUrl c (lit "b.js") 2 9 None)
  = Ok (Some (mkMapping (mkPos 3 7) (Some (mkPos 1 5)) (Some (lit "http://h/d/src/b.js")) (Some (lit "x")) None))
  /\ c38_after c38_history (fun c => bc_generated_position_for Debug RefLib RefUrl c (lit "b.js") 2 9 None)
     = Ok (Some (mkMapping (mkPos 3 7) (Some (mkPos 1 5)) (Some (lit "http://h/d/src/b.js")) (Some (lit "x")) (Some (-1))))
  /\ c38_after [] (fun c => bc_generated_position_for Debug RefLib RefUrl c (lit "b.js") 2 9 (Some LeastUpperBound))
     = Ok None
  /\ c38_after [] (fun c => bc_generated_position_for Debug RefLib RefUrl c (lit "b.js") 1 0 None) = Ok None
  (* line 2, column 5 is mapped; before that is nothing, after that is nothing *)
  /\ c38_after [] (fun c => bc_generated_position_for Debug RefLib RefUrl c (lit "b.js") 2 4 None) = Ok None
  /\ (let* r := c38_after [] (fun c => bc_generated_position_for Debug RefLib RefUrl c (lit "b.js") 2 5 None) in
      Ok (option_map m_generated r)) = Ok (Some (mkPos 3 7))
  /\ (let* r := c38_after [] (fun c => bc_generated_position_for Debug RefLib RefUrl c (lit "b.js") 2 5 (Some LeastUpperBound)) in
      Ok (option_map m_generated r)) = Ok (Some (mkPos 3 7))
  /\ c38_after [] (fun c => bc_generated_position_for Debug RefLib RefUrl c (lit "b.js") 2 6 (Some LeastUpperBound)) = Ok None
  /\ c38_after [] (fun c => bc_generated_position_for Debug RefLib RefUrl c (lit "no.js") 0 (-1) None) = Ok None
  /\ c38_after [] (fun c => bc_generated_position_for Debug RefLib RefUrl c (lit "b.js") 0 (-1) None) = Panic PLine
  (* the source is number 1, there is only one name *)
  /\ c38_after [] (fun c => bc_generated_position_for Debug RefLib RefUrl c (lit "a.js") 9 1 None) = Panic PIndex.
Proof. vm_compute. repeat split; reflexivity. Qed.

(** C43: for a place that has a mapping, the original line that comes back is one
    less than the one asked for, and the name is the one with the number of the
    source. *)
Theorem C43_generated_misreports : forall (md : mode) (L : MapLib) (U : UrlLib) (contract : MapLibOk L)
    (c0 : BasicConsumer L) (qs : list query) (c : BasicConsumer L) (src : str) (i : nat) (line column : Z)
    (b : option Bias) (l : list RawMapping)
    (fresh : opened md L U c0) (history : asked md L U c0 qs = Ok c)
    (few_sources : len (bc_get_sources L c0) < 2^31) (parses : readable L (bc_source_map c0))
    (mappings : reports L c l) (small : Forall raw_i31 l)
    (known : source_lookup md L U c0 src = Ok (Some i)) (position : position_ok line column)
    (mapped : at_place (line - 1, column) (of_source (Z.of_nat i) l) <> []),
  match find_name (smj_names (bc_source_map c0)) (Some (Z.of_nat i)) with
  | Panic p => answer (bc_generated_position_for md L U c src line column b) = Panic p
  | Ok name => exists a, answer (bc_generated_position_for md L U c src line column b) = Ok (Some a)
      /\ m_original a = Some (mkPos (line - 1) column) /\ m_name a = name
      /\ m_source a = nth_error (bc_get_sources L c0) i
  end.
Proof. exact generated_exact. Qed.
Print Assumptions C43_generated_misreports.

Example C43_case :
  map fst (of_source 0 [mkRaw 0 0 (Some 4) None; mkRaw 0 4 None (Some (mkOrig 1 8 1 None));
                        mkRaw 2 7 None (Some (mkOrig 0 1 5 None))])
  = [mkRaw 2 7 None (Some (mkOrig 0 1 5 None))]
  /\ (let j := mkSMJ 3 (Some [lit "b.js"; lit "a.js"]) (Some [lit "x"]) (Some (lit "A,ICQC;;ODPI")) None None None None in
      let* c := bc_from_source_map_json Debug RefLib RefUrl j None in
      answer (bc_generated_position_for Debug RefLib RefUrl c (lit "b.js") 2 5 None))
     = Ok (Some (mkMapping (mkPos 3 7) (Some (mkPos 1 5)) (Some (lit "b.js")) (Some (lit "x")) None)).
Proof. vm_compute. repeat split; reflexivity. Qed.

(** C44: places of the library are 0-based: line [line] of [at_place] is the
    1-based line [line + 1]. *)
Theorem C44_all_generated : forall (md : mode) (L : MapLib) (U : UrlLib) (contract : MapLibOk L)
    (c0 : BasicConsumer L) (qs : list query) (c : BasicConsumer L) (src : str) (i : nat) (line : Z)
    (column : option Z) (l : list RawMapping)
    (fresh : opened md L U c0) (history : asked md L U c0 qs = Ok c)
    (few_sources : len (bc_get_sources L c0) < 2^31) (parses : readable L (bc_source_map c0))
    (mappings : reports L c l) (known : source_lookup md L U c0 src = Ok (Some i)),
  let col := match column with Some z => z | None => 0 end in
  position_ok line col ->
  exists r, answer (bc_all_generated_position_for md L U c src line column) = Ok r /\ Forall (ends_right l) r
    /\ (at_place (line, col) (of_source (Z.of_nat i) l) <> [] ->
        Permutation (map strip r) (at_place (line, col) (of_source (Z.of_nat i) l))).
Proof. exact all_generated_spec. Qed.
Print Assumptions C44_all_generated.

(** The mapping of the source at line 9, column 1 is not found there. *)
Theorem C44_asked_line_refuted :
  exists l, c38_after [] (fun c => bc_each_mapping RefLib c GeneratedOrd) = Ok l
  /\ at_place (9 - 1, 1) (of_source 1 l) = [mkRaw 0 4 None (Some (mkOrig 1 8 1 None))]
  /\ c38_after [] (fun c => bc_all_generated_position_for Debug RefLib RefUrl c (lit "a.js") 9 (Some 1)) = Ok []
  /\ c38_after [] (fun c => bc_all_generated_position_for Debug RefLib RefUrl c (lit "a.js") 8 (Some 1))
     = Ok [mkRaw 0 4 None (Some (mkOrig 1 8 1 None))].
Proof.
  give (c38_after [] (fun c => bc_each_mapping RefLib c GeneratedOrd)). vm_compute. repeat split; reflexivity.
Qed.
Print Assumptions C44_asked_line_refuted.

Example C44_case :
  let ask l c := c38_after [] (fun x => bc_all_generated_position_for Debug RefLib RefUrl x (lit "b.js") l c) in
  ask 1 (Some 5) = Ok [mkRaw 2 7 None (Some (mkOrig 0 1 5 (Some 0)))]
  /\ ask 1 (Some 6) = Ok [] /\ ask 2 (Some 5) = Ok []
  /\ ask 0 None = Panic PLine /\ ask 1 (Some (-1)) = Panic PColumn
  /\ c38_after [] (fun x => bc_all_generated_position_for Debug RefLib RefUrl x (lit "no.js") 0 (Some (-1))) = Ok [].
Proof. vm_compute. repeat split; reflexivity. Qed.

(** C46 *)
Theorem C46_column_spans : forall (md : mode) (L : MapLib) (U : UrlLib) (contract : MapLibOk L)
    (c0 : BasicConsumer L) (qs : list query) (c : BasicConsumer L)
    (fresh : opened md L U c0) (history : asked md L U c0 qs = Ok c),
  (readable L (bc_source_map c0) -> exists c', bc_compute_column_spans L c = Ok c')
  /\ (~ readable L (bc_source_map c0) -> bc_compute_column_spans L c = Panic PUnwrapNone)
  /\ (forall c', bc_compute_column_spans L c = Ok c' ->
      bc_compute_column_spans L c' = Ok c'
      /\ (forall l l', reports L c l -> reports L c' l' -> map strip l' = map strip l)
      /\ (forall qs' c2 l, asked md L U c' qs' = Ok c2 -> reports L c2 l -> spans l)).
Proof. exact spans_spec. Qed.
Print Assumptions C46_column_spans.

Example C46_case :
  c38_after [] (fun c => bc_each_mapping RefLib c GeneratedOrd)
  = Ok [mkRaw 0 0 None None; mkRaw 0 4 None (Some (mkOrig 1 8 1 None)); mkRaw 2 7 None (Some (mkOrig 0 1 5 (Some 0)))]
  /\ c38_after [QSpans; QContent (lit "a.js") None] (fun c => bc_each_mapping RefLib c GeneratedOrd)
     = Ok [mkRaw 0 0 (Some 4) None; mkRaw 0 4 None (Some (mkOrig 1 8 1 None)); mkRaw 2 7 None (Some (mkOrig 0 1 5 (Some 0)))].
Proof. vm_compute. repeat split; reflexivity. Qed.

(** C47 *)
Theorem C47_source_content_for : forall (md : mode) (L : MapLib) (U : UrlLib)
    (c0 : BasicConsumer L) (qs : list query) (c : BasicConsumer L) (src : str) (panic_on_missing : option bool)
    (fresh : opened md L U c0) (history : asked md L U c0 qs = Ok c)
    (few_sources : len (bc_get_sources L c0) < 2^31),
  answer (bc_source_content_for md L U c src panic_on_missing)
  = match smj_sources_content (bc_source_map c0) with
    | None => Ok None
    | Some contents =>
        match source_lookup md L U c0 src with
        | Panic p => Panic p
        | Ok None => match panic_on_missing with Some false => Ok None | _ => Panic PMissing end
        | Ok (Some i) =>
            match nth_error contents i with Some text => Ok (Some text) | None => Panic PIndex end
        end
    end.
Proof. exact content_spec. Qed.
Print Assumptions C47_source_content_for.

Theorem C47_has_contents : forall (md : mode) (L : MapLib) (U : UrlLib)
    (c0 : BasicConsumer L) (qs : list query) (c : BasicConsumer L)
    (fresh : opened md L U c0) (history : asked md L U c0 qs = Ok c)
    (few_sources : len (bc_get_sources L c0) < 2^31),
  exists b, bc_has_contents_of_all_sources L c = Ok b
    /\ (b = true <-> exists contents, smj_sources_content (bc_source_map c0) = Some contents
          /\ (length (bc_get_sources L c) <= length contents)%nat)
    /\ (b = true -> forall src p i, source_lookup md L U c0 src = Ok (Some i) ->
        exists contents text, smj_sources_content (bc_source_map c0) = Some contents
          /\ nth_error contents i = Some text
          /\ answer (bc_source_content_for md L U c src p) = Ok (Some text)).
Proof. exact has_contents_spec. Qed.
Print Assumptions C47_has_contents.

Example C47_case :
  c38_after c38_history (fun c => bc_source_content_for Debug RefLib RefUrl c (lit "a.js") None) = Ok (Some (lit "text of a"))
  /\ c38_after [] (fun c => bc_source_content_for Debug RefLib RefUrl c (lit "src/b.js") None) = Ok (Some (lit "text of b"))
  /\ c38_after [] (fun c => bc_source_content_for Debug RefLib RefUrl c (lit "no.js") None) = Panic PMissing
  /\ c38_after [] (fun c => bc_source_content_for Debug RefLib RefUrl c (lit "no.js") (Some false)) = Ok None
  /\ c38_after [] (fun c => let* b := bc_has_contents_of_all_sources RefLib c in Ok (b, c)) = Ok true
  /\ (let j := mkSMJ 3 (Some [lit "b.js"; lit "a.js"]) None None None None (Some [lit "text of b"]) None in
      let* c := bc_from_source_map_json Debug RefLib RefUrl j None in
      answer (bc_source_content_for Debug RefLib RefUrl c (lit "a.js") (Some false))) = Panic PIndex.
Proof. vm_compute. repeat split; reflexivity. Qed.

(** C48 *)
Theorem C48_malformed : forall (md : mode) (L : MapLib) (U : UrlLib) (contract : MapLibOk L)
    (c0 : BasicConsumer L) (qs : list query) (c : BasicConsumer L) (s : str)
    (fresh : opened md L U c0) (history : asked md L U c0 qs = Ok c)
    (few_sources : len (bc_get_sources L c0) < 2^31)
    (mappings : smj_mappings (bc_source_map c0) = Some s) (malformed : lm_parse L s = None),
  (forall ord, bc_each_mapping L c ord = Ok ([], c))
  /\ (forall g b, position_ok (p_line g) (p_column g) ->
       bc_original_position_for md L c g b = Panic PUnwrapNone)
  /\ (forall src i line column b, source_lookup md L U c0 src = Ok (Some i) -> position_ok line column ->
       bc_generated_position_for md L U c src line column b = Panic PUnwrapNone
       /\ bc_all_generated_position_for md L U c src line (Some column) = Panic PUnwrapNone)
  /\ bc_compute_column_spans L c = Panic PUnwrapNone.
Proof. exact malformed. Qed.
Print Assumptions C48_malformed.

(** a text with a character other than base64 digits, commas and semicolons *)
Theorem C48_bad_character : forall (L : MapLib) (contract : MapLibOk L) (s : str) (x : char)
    (occurs : In x s) (bad : ~ text_char x),
  lm_parse L s = None.
Proof. exact bad_char_unreadable. Qed.
Print Assumptions C48_bad_character.

Example C48_case :
  ~ text_char (ch "!")
  /\ (let j := mkSMJ 3 (Some [lit "b.js"]) None (Some (lit "AAAA,!")) None None None None in
      let* c := bc_from_source_map_json Debug RefLib RefUrl j None in
      answer (bc_generated_position_for Debug RefLib RefUrl c (lit "b.js") 1 0 None)) = Panic PUnwrapNone
  /\ (let j := mkSMJ 3 (Some [lit "b.js"]) None (Some (lit "AAAA,!")) None None None None in
      let* c := bc_from_source_map_json Debug RefLib RefUrl j None in
      answer (bc_each_mapping RefLib c GeneratedOrd)) = Ok []
  (* without mappings *)
  /\ (let j := mkSMJ 3 (Some [lit "b.js"]) None None None None None None in
      let* c := bc_from_source_map_json Debug RefLib RefUrl j None in
      answer (bc_each_mapping RefLib c GeneratedOrd)) = Panic PUnwrapNone.
Proof.
  split; [|vm_compute; repeat split; reflexivity].
  intros [H|[H|[d H]]]; [discriminate H | discriminate H |]. vm_compute in H. discriminate.
Qed.

(** C58 *)
Theorem C58_each_mapping_generated : forall (md : mode) (L : MapLib) (U : UrlLib) (contract : MapLibOk L)
    (c0 : BasicConsumer L) (qs : list query) (c : BasicConsumer L) (l l0 : list RawMapping)
    (fresh : opened md L U c0) (history : asked md L U c0 qs = Ok c)
    (before : reports L c0 l0) (now : reports L c l),
  StronglySorted raw_le l /\ Forall raw_u32 l /\ map strip l = map strip l0.
Proof. exact each_mapping_generated. Qed.
Print Assumptions C58_each_mapping_generated.

Theorem C58_each_mapping_original : forall (md : mode) (L : MapLib) (U : UrlLib) (contract : MapLibOk L)
    (c0 : BasicConsumer L) (qs : list query) (c : BasicConsumer L) (l lo : list RawMapping)
    (fresh : opened md L U c0) (history : asked md L U c0 qs = Ok c)
    (generated : reports L c l) (original : answer (bc_each_mapping L c OriginalOrd) = Ok lo),
  Permutation (map strip lo) (filter has_original (map strip l)) /\ StronglySorted orig_le lo
  /\ Forall (ends_right l) lo.
Proof. exact each_mapping_original. Qed.
Print Assumptions C58_each_mapping_original.

Example C58_case :
  c38_after c38_history (fun c => bc_each_mapping RefLib c OriginalOrd)
  = Ok [mkRaw 2 7 None (Some (mkOrig 0 1 5 (Some 0))); mkRaw 0 4 None (Some (mkOrig 1 8 1 None))]
  /\ c38_after c38_history (fun c => bc_each_mapping RefLib c GeneratedOrd)
     = Ok [mkRaw 0 0 (Some 4) None; mkRaw 0 4 None (Some (mkOrig 1 8 1 None)); mkRaw 2 7 None (Some (mkOrig 0 1 5 (Some 0)))].
Proof. vm_compute. repeat split; reflexivity. Qed.

(** The hypotheses of C38-C48, C58 hold for the map and history of the examples. *)
Example C38_to_C58_instance : exists c0 c l,
  opened Debug RefLib RefUrl c0 /\ asked Debug RefLib RefUrl c0 c38_history = Ok c
  /\ len (bc_get_sources RefLib c0) < 2^31 /\ readable RefLib (bc_source_map c0)
  /\ reports RefLib c l /\ Forall raw_i31 l
  /\ source_lookup Debug RefLib RefUrl c0 (lit "b.js") = Ok (Some 0%nat)
  /\ at_place (2 - 1, 5) (of_source 0 l) <> [].
Proof.
  destruct (bc_new Debug RefLib RefUrl (smj_to_string c38_json) c38_url) as [c0|p] eqn:E0.
  2: { assert (X : is_ok (bc_new Debug RefLib RefUrl (smj_to_string c38_json) c38_url) = true) by (vm_compute; reflexivity).
       rewrite E0 in X. discriminate. }
  destruct (asked Debug RefLib RefUrl c0 c38_history) as [c|p] eqn:E1.
  2: { assert (X : is_ok (let* c0 := bc_new Debug RefLib RefUrl (smj_to_string c38_json) c38_url in
                          asked Debug RefLib RefUrl c0 c38_history) = true) by (vm_compute; reflexivity).
       rewrite E0 in X. cbn [bind] in X. rewrite E1 in X. discriminate. }
  assert (H0 : forall A (f : BasicConsumer RefLib -> A) v,
    (let* c0 := bc_new Debug RefLib RefUrl (smj_to_string c38_json) c38_url in Ok (f c0)) = Ok v -> f c0 = v).
  { intros A f v H. rewrite E0 in H. cbn [bind] in H. congruence. }
  exists c0, c. give (c38_after c38_history (fun c => bc_each_mapping RefLib c GeneratedOrd)).
  split; [left; exists (smj_to_string c38_json), c38_url; exact E0|].
  split; [exact E1|].
  split; [rewrite (H0 _ (fun c => len (bc_get_sources RefLib c)) 2); [reflexivity | vm_compute; reflexivity]|].
  split.
  { exists (lit "A,ICQC;;ODPIA"). give (unwrap (lm_parse RefLib (lit "A,ICQC;;ODPIA"))).
    split; [apply (H0 _ (fun c => smj_mappings (bc_source_map c))); vm_compute; reflexivity | vm_compute; reflexivity]. }
  split.
  { unfold reports. assert (X : c38_after c38_history (fun c => bc_each_mapping RefLib c GeneratedOrd)
      = Ok [mkRaw 0 0 (Some 4) None; mkRaw 0 4 None (Some (mkOrig 1 8 1 None)); mkRaw 2 7 None (Some (mkOrig 0 1 5 (Some 0)))])
      by (vm_compute; reflexivity).
    unfold c38_after in X. rewrite E0 in X. cbn [bind] in X. rewrite E1 in X. exact X. }
  split; [repeat constructor|].
  split; [apply (H0 _ (fun c => source_lookup Debug RefLib RefUrl c (lit "b.js"))); vm_compute; reflexivity|].
  vm_compute. discriminate.
Qed.
