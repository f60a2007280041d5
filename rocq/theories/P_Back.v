(** * C101: from generated to original positions and back

    [qs] and [qs'] are any histories of calls after opening; [l0] is what the
    consumer reports. *)
From Verif Require Import Base M_ArraySet M_Mapping M_Util M_SourceMap M_Json M_MapLib M_Consumer
  S_List S_MapLib S_Consumer S_Back F_UrlRef F_MapLibRef F_Back.

(** Where a mapping starts there is no original position. *)
Theorem C101_at_mappings : forall (md : mode) (L : MapLib) (U : UrlLib) (contract : MapLibOk L)
    (c0 : BasicConsumer L) (qs : list query) (c : BasicConsumer L) (l0 : list RawMapping) (m : RawMapping)
    (b : option Bias)
    (fresh : opened md L U c0) (history : asked md L U c0 qs = Ok c)
    (few_sources : len (bc_get_sources L c0) < 2^31) (parses : readable L (bc_source_map c0))
    (mappings : reports L c0 l0) (small : Forall raw_i31 l0) (one_of_them : In m l0),
  answer (bc_original_position_for md L c (start_of m) b) = Ok None.
Proof. exact at_mappings. Qed.
Print Assumptions C101_at_mappings.

(** So nothing leads back from what generated_position_for answers. *)
Theorem C101_no_way_back : forall (md : mode) (L : MapLib) (U : UrlLib) (contract : MapLibOk L)
    (c0 : BasicConsumer L) (qs : list query) (c : BasicConsumer L) (qs' : list query) (c' : BasicConsumer L)
    (l0 : list RawMapping) (src : str) (line column : Z) (b b' : option Bias) (a : Mapping)
    (fresh : opened md L U c0) (history : asked md L U c0 qs = Ok c) (history' : asked md L U c0 qs' = Ok c')
    (few_sources : len (bc_get_sources L c0) < 2^31) (parses : readable L (bc_source_map c0))
    (mappings : reports L c0 l0) (small : Forall raw_i31 l0)
    (i32_line : line <= i32_max) (i32_column : column <= i32_max)
    (there : answer (bc_generated_position_for md L U c src line column b) = Ok (Some a)),
  answer (bc_original_position_for md L c' (m_generated a) b') = Ok None.
Proof. exact no_way_back. Qed.
Print Assumptions C101_no_way_back.

(** From what original_position_for answers, generated_position_for leads back to
    the place of the mapping that was found, which is one line after the one
    asked for, or of another one with the same original position. *)
Theorem C101_there_and_back : forall (md : mode) (L : MapLib) (U : UrlLib) (contract : MapLibOk L)
    (c0 : BasicConsumer L) (qs : list query) (c : BasicConsumer L) (qs' : list query) (c' : BasicConsumer L)
    (l0 : list RawMapping) (g : Position) (b b' : option Bias) (a : Mapping) (u : str) (o : Position) (i : nat)
    (fresh : opened md L U c0) (history : asked md L U c0 qs = Ok c) (history' : asked md L U c0 qs' = Ok c')
    (few_sources : len (bc_get_sources L c0) < 2^31) (parses : readable L (bc_source_map c0))
    (mappings : reports L c0 l0) (small : Forall raw_i31 l0)
    (position : position_ok (p_line g) (p_column g)) (different : NoDup (bc_get_sources L c0))
    (there : answer (bc_original_position_for md L c g b) = Ok (Some a))
    (its_source : m_source a = Some u) (its_original : m_original a = Some o)
    (known : answer (bc_find_source_index md L U c' u) = Ok (Some (Z.of_nat i)))
    (listed : nth_error (bc_get_sources L c0) i = Some u),
  p_line (m_generated a) = p_line g + 1
  /\ match find_name (smj_names (bc_source_map c0)) (Some (Z.of_nat i)) with
     | Panic p => answer (bc_generated_position_for md L U c' u (p_line o) (p_column o) b') = Panic p
     | Ok name => exists a', answer (bc_generated_position_for md L U c' u (p_line o) (p_column o) b') = Ok (Some a')
         /\ m_source a' = Some u /\ m_name a' = name
         /\ m_original a' = Some (mkPos (p_line o - 1) (p_column o))
         /\ (exists m, In m l0 /\ same_original (bc_get_sources L c0) a m /\ m_generated a' = start_of m)
         /\ ((forall m m', In m l0 -> In m' l0 -> same_original (bc_get_sources L c0) a m ->
                same_original (bc_get_sources L c0) a m' -> start_of m = start_of m') -> m_generated a' = m_generated a)
     end.
Proof. exact there_and_back. Qed.
Print Assumptions C101_there_and_back.

(** Three mappings; the second and third have the same original position. *)
Definition c101_map : SourceMapJson :=
  mkSMJ 3 (Some [lit "b.js"; lit "a.js"]) (Some [lit "x"; lit "y"; lit "z"]) (Some (lit "AAAA;ICQCA;OAAA")) None
        None None None.
Definition c101_after {A} (qs : list query) (f : BasicConsumer RefLib -> res (A * BasicConsumer RefLib)) : res A :=
  let* c0 := bc_new Debug RefLib RefUrl (smj_to_string c101_map) None in
  let* c := asked Debug RefLib RefUrl c0 qs in answer (f c).

Example C101_case :
  let there := c101_after [QSpans] (fun c => bc_original_position_for Debug RefLib c (mkPos 1 1) (Some LeastUpperBound)) in
  let back := c101_after [QEach OriginalOrd] (fun c => bc_generated_position_for Debug RefLib RefUrl c (lit "a.js") 9 1 None) in
  (let* c0 := bc_new Debug RefLib RefUrl (smj_to_string c101_map) None in Ok (bc_get_sources RefLib c0))
  = Ok [lit "b.js"; lit "a.js"]
  /\ c101_after [] (fun c => bc_each_mapping RefLib c GeneratedOrd)
     = Ok [mkRaw 0 0 None (Some (mkOrig 0 0 0 None)); mkRaw 1 4 None (Some (mkOrig 1 8 1 (Some 0)));
           mkRaw 2 7 None (Some (mkOrig 1 8 1 None))]
  (* nothing from column 1 on in line 1, so line 2 is taken *)
  /\ there = Ok (Some (mkMapping (mkPos 2 4) (Some (mkPos 9 1)) (Some (lit "a.js")) (Some (lit "x")) None))
  (* its original position leads back to line 2, with another name and original line *)
  /\ back = Ok (Some (mkMapping (mkPos 2 4) (Some (mkPos 8 1)) (Some (lit "a.js")) (Some (lit "y")) None))
  (* and from there nowhere *)
  /\ c101_after [] (fun c => bc_original_position_for Debug RefLib c (mkPos 2 4) (Some LeastUpperBound)) = Ok None
  /\ c101_after [] (fun c => bc_original_position_for Debug RefLib c (mkPos 2 4) None) = Ok None
  (* the mapping found from line 2 has the same original position: back to line 2, not line 3 *)
  /\ c101_after [] (fun c => bc_original_position_for Debug RefLib c (mkPos 2 5) (Some LeastUpperBound))
     = Ok (Some (mkMapping (mkPos 3 7) (Some (mkPos 9 1)) (Some (lit "a.js")) None None)).
Proof. vm_compute. repeat split; reflexivity. Qed.

(** With the only mapping of its original position one comes back to the place of
    that mapping, but not to the place one started from. *)
Theorem C101_same_place_refuted : exists (j : SourceMapJson) (g : Position) (a a' : Mapping) (u : str) (o : Position),
  let after := fun A (f : BasicConsumer RefLib -> res (A * BasicConsumer RefLib)) =>
    let* c := bc_new Debug RefLib RefUrl (smj_to_string j) None in answer (f c) in
  after _ (fun c => bc_original_position_for Debug RefLib c g (Some LeastUpperBound)) = Ok (Some a)
  /\ m_source a = Some u /\ m_original a = Some o
  /\ after _ (fun c => bc_generated_position_for Debug RefLib RefUrl c u (p_line o) (p_column o) None) = Ok (Some a')
  /\ m_generated a' = m_generated a /\ p_line (m_generated a') <> p_line g.
Proof.
  exists (mkSMJ 3 (Some [lit "b.js"]) (Some [lit "x"]) (Some (lit ";IAAAA")) None None None None), (mkPos 1 0).
  eexists. eexists. eexists. eexists. cbv zeta.
  split; [vm_compute; reflexivity|]. split; [reflexivity|]. split; [reflexivity|].
  split; [vm_compute; reflexivity|]. split; [reflexivity | discriminate].
Qed.
Print Assumptions C101_same_place_refuted.
