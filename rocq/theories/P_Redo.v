(** * C104, C105: the same calls with other lines or other names *)
From Verif Require Import Base M_ArraySet M_Mapping M_Util M_SourceMap M_Generator M_Json M_MapLib M_Consumer M_Indexed
  S_Vlq S_List S_Decode S_Mapping S_Generator S_Adds S_MapLib S_Consumer S_EndToEnd S_Redo
  F_Base F_UrlRef F_MapLibRef F_Redo F_Banner.
From Coq Require Import Sorting.Permutation.

(** ** C104: lines in front *)

(** The same calls with the generated code [k] lines further down: [k] semicolons more. *)
Theorem C104_generator : forall (md : mode) (U : UrlLib) (file root : option str) (skip : bool) (ops : list gen_op)
    (k : Z) (down : 0 <= k) (lines : Forall (room k) (added_mappings ops)) (i32 : Forall i32_place (added_mappings ops)),
  observe_json md U (gen_new file root skip) (map (moved_call k) ops)
  = let* j := observe_json md U (gen_new file root skip) ops in
    Ok (match added_mappings ops with [] => j | _ => with_banner k j end).
Proof. exact generator_moved. Qed.
Print Assumptions C104_generator.

(** What consumers of the two maps report, whatever they were asked before *)
Theorem C104_each_mapping : forall (md : mode) (L : MapLib) (U : UrlLib) (contract : MapLibOk L)
    (j : SourceMapJson) (k : Z) (s : str) (ms : list RawMapping) (url lookup : option str)
    (b0 b c0 c : BasicConsumer L) (qs qs' : list query) (down : 0 <= k)
    (text : smj_mappings j = Some s) (good : good_text canonical_field s) (means : decode_mappings s = Some ms)
    (lines : k + Z.of_nat (count_occ N.eq_dec s (ch ";")) < 2^32)
    (opens : opened_map md L U j url b0 lookup) (opens_lower : opened_map md L U (with_banner k j) url c0 lookup)
    (history : asked md L U b0 qs = Ok b) (history_lower : asked md L U c0 qs' = Ok c)
    (l l' : list RawMapping) (each : reports L b l) (each_lower : reports L c l'),
  Permutation (map strip (map (lower k) l)) (map strip l').
Proof. exact each_lower. Qed.
Print Assumptions C104_each_mapping.

(** original_position_for, [k] lines further down *)
Theorem C104_original : forall (md : mode) (L : MapLib) (U : UrlLib) (contract : MapLibOk L)
    (j : SourceMapJson) (k : Z) (s : str) (ms : list RawMapping) (url lookup : option str)
    (b0 b c0 c : BasicConsumer L) (qs qs' : list query) (down : 0 <= k)
    (text : smj_mappings j = Some s) (good : good_text canonical_field s) (means : decode_mappings s = Some ms)
    (lines : k + Z.of_nat (count_occ N.eq_dec s (ch ";")) < 2^32) (range : Forall raw_i31 (map (lower k) ms))
    (opens : opened_map md L U j url b0 lookup) (opens_lower : opened_map md L U (with_banner k j) url c0 lookup)
    (history : asked md L U b0 qs = Ok b) (history_lower : asked md L U c0 qs' = Ok c)
    (few_sources : len (bc_get_sources L b0) < 2^31)
    (line column : Z) (bias : option Bias) (places : one_per_place ms)
    (position : position_ok line column) (in_range : line + k <= i32_max),
  answered_lower 0 (answer (bc_original_position_for md L c (mkPos (line + k) column) bias))
  = answered_lower k (answer (bc_original_position_for md L b (mkPos line column) bias)).
Proof. exact original_lower. Qed.
Print Assumptions C104_original.

(** generated_position_for finds everything [k] lines further down. *)
Theorem C104_generated : forall (md : mode) (L : MapLib) (U : UrlLib) (contract : MapLibOk L)
    (j : SourceMapJson) (k : Z) (s : str) (ms : list RawMapping) (url lookup : option str)
    (b0 b c0 c : BasicConsumer L) (qs qs' : list query) (down : 0 <= k)
    (text : smj_mappings j = Some s) (good : good_text canonical_field s) (means : decode_mappings s = Some ms)
    (lines : k + Z.of_nat (count_occ N.eq_dec s (ch ";")) < 2^32) (range : Forall raw_i31 (map (lower k) ms))
    (opens : opened_map md L U j url b0 lookup) (opens_lower : opened_map md L U (with_banner k j) url c0 lookup)
    (history : asked md L U b0 qs = Ok b) (history_lower : asked md L U c0 qs' = Ok c)
    (few_sources : len (bc_get_sources L b0) < 2^31)
    (src : str) (line column : Z) (bias : option Bias) (originals : one_per_original ms)
    (position : position_ok line column),
  answered_lower 0 (answer (bc_generated_position_for md L U c src line column bias))
  = answered_lower k (answer (bc_generated_position_for md L U b src line column bias)).
Proof. exact generated_lower_for. Qed.
Print Assumptions C104_generated.

Definition c104_ops : list gen_op :=
  [GAdd (mkMapping (mkPos 3 7) (Some (mkPos 2 5)) (Some (lit "b.js")) (Some (lit "x")) None);
   GContent (lit "b.js") (Some (lit "text"));
   GAdd (mkMapping (mkPos 1 0) None None None (Some 9));
   GJson;
   GAdd (mkMapping (mkPos 1 4) (Some (mkPos 9 1)) (Some (lit "a.js")) (Some (lit "y")) None)].
Definition c104_map : SourceMapJson :=
  mkSMJ 3 (Some [lit "b.js"; lit "a.js"]) (Some [lit "x"; lit "y"]) (Some (lit "A,ICQCC;;ODPID")) None None
        (Some [lit "text"]) None.
Definition c104_ask {A} (k : Z) (qs : list query) (f : BasicConsumer RefLib -> res (A * BasicConsumer RefLib)) : res A :=
  let* c0 := bc_new Debug RefLib RefUrl (smj_to_string (with_banner k c104_map)) None in
  let* c := asked Debug RefLib RefUrl c0 qs in answer (f c).

Example C104_case :
  observe_json Debug RefUrl (gen_new None None false) c104_ops = Ok c104_map
  /\ observe_json Debug RefUrl (gen_new None None false) (map (moved_call 3) c104_ops) = Ok (with_banner 3 c104_map)
  /\ smj_mappings (with_banner 3 c104_map) = Some (lit ";;;A,ICQCC;;ODPID")
  (* without mappings there is nothing to move *)
  /\ observe_json Debug RefUrl (gen_new None None false) (map (moved_call 3) [GJson; GContent (lit "b.js") (Some (lit "text"))])
     = observe_json Debug RefUrl (gen_new None None false) [GContent (lit "b.js") (Some (lit "text"))]
  /\ c104_ask 3 [QSpans] (fun c => bc_each_mapping RefLib c GeneratedOrd)
     = Ok [mkRaw 3 0 (Some 4) None; mkRaw 3 4 None (Some (mkOrig 1 8 1 (Some 1))); mkRaw 5 7 None (Some (mkOrig 0 1 5 (Some 0)))]
  /\ c104_ask 0 [QSpans] (fun c => bc_original_position_for Debug RefLib c (mkPos 2 9) (Some LeastUpperBound))
     = Ok (Some (mkMapping (mkPos 3 7) (Some (mkPos 2 5)) (Some (lit "b.js")) (Some (lit "x")) None))
  /\ c104_ask 3 [] (fun c => bc_original_position_for Debug RefLib c (mkPos 5 9) (Some LeastUpperBound))
     = Ok (Some (mkMapping (mkPos 6 7) (Some (mkPos 2 5)) (Some (lit "b.js")) (Some (lit "x")) None))
  /\ c104_ask 3 [] (fun c => bc_original_position_for Debug RefLib c (mkPos 2 9) (Some LeastUpperBound)) = Ok None
  /\ c104_ask 0 [] (fun c => bc_generated_position_for Debug RefLib RefUrl c (lit "a.js") 9 1 None)
     = Ok (Some (mkMapping (mkPos 1 4) (Some (mkPos 8 1)) (Some (lit "a.js")) (Some (lit "y")) None))
  /\ c104_ask 3 [] (fun c => bc_generated_position_for Debug RefLib RefUrl c (lit "a.js") 9 1 None)
     = Ok (Some (mkMapping (mkPos 4 4) (Some (mkPos 8 1)) (Some (lit "a.js")) (Some (lit "y")) None)).
Proof. vm_compute. repeat split; reflexivity. Qed.

Example C104_instance : Forall (room 3) (added_mappings c104_ops) /\ Forall i32_place (added_mappings c104_ops).
Proof. split; repeat constructor; vm_compute; congruence. Qed.

Definition c104_mappings : list RawMapping :=
  [mkRaw 0 0 None None; mkRaw 0 4 None (Some (mkOrig 1 8 1 (Some 1))); mkRaw 2 7 None (Some (mkOrig 0 1 5 (Some 0)))].
Example C104_consumer_instance :
  decode_mappings (lit "A,ICQCC;;ODPID") = Some c104_mappings
  /\ one_per_place c104_mappings /\ one_per_original c104_mappings /\ Forall raw_i31 (map (lower 3) c104_mappings)
  /\ exists b0 c0, opened_map Debug RefLib RefUrl c104_map None b0 None
       /\ opened_map Debug RefLib RefUrl (with_banner 3 c104_map) None c0 None.
Proof.
  split; [vm_compute; reflexivity|].
  split. { intros a b Ha Hb E. cbn in Ha, Hb. intuition (subst; try reflexivity; discriminate E). }
  split. { intros a b o o' Ha Hb E E' H1 H2 H3. cbn in Ha, Hb. intuition (subst; try reflexivity; try discriminate E; try discriminate E';
    injection E as <-; injection E' as <-; discriminate H1). }
  split; [repeat constructor; vm_compute; try congruence; repeat split; congruence|].
  assert (X : forall k, (let* c := bc_new Debug RefLib RefUrl (smj_to_string (with_banner k c104_map)) None in Ok tt) = Ok tt ->
    smj_from_str (smj_to_string (with_banner k c104_map)) = Some (with_banner k c104_map) ->
    exists c0, opened_map Debug RefLib RefUrl (with_banner k c104_map) None c0 None).
  { intros k H E. destruct (bc_new Debug RefLib RefUrl (smj_to_string (with_banner k c104_map)) None) as [c0|p] eqn:Ec; [|discriminate H].
    exists c0. left. exists (smj_to_string (with_banner k c104_map)). auto. }
  destruct (X 0) as [b0 Hb]; [vm_compute; reflexivity | vm_compute; reflexivity|].
  destruct (X 3) as [c0 Hc]; [vm_compute; reflexivity | vm_compute; reflexivity|].
  exists b0, c0. split; [exact Hb | exact Hc].
Qed.

(** ** C105: what the sources and names are called *)

(** The same calls with other names for files and names, one to one: the map differs in the lists only. *)
Theorem C105_names : forall (md : mode) (U : UrlLib) (file root : option str) (skip : bool) (ops : list gen_op)
    (f n : str -> str) (files : one_to_one f (files_in ops)) (names : one_to_one n (names_in ops))
    (contents : root = None \/ no_content ops)
    (order : same_order f n (added_mappings ops) /\ Forall i32_place (added_mappings ops)
             \/ gen_sorted (added_mappings ops) /\ Forall (fun m => 0 <= p_line (m_generated m)) (added_mappings ops)),
  observe_json md U (gen_new file root skip) (map (called_call f n) ops)
  = let* j := observe_json md U (gen_new file root skip) ops in Ok (called_map f n j).
Proof. exact generator_called. Qed.
Print Assumptions C105_names.

(** b.js becomes 1, everything else gets a prefix *)
Definition c105_f (s : str) : str := if str_eqb s (lit "b.js") then lit "1" else lit "dist/" ++ s.
Definition c105_n (s : str) : str := lit "$" ++ s.
Example C105_case :
  observe_json Debug RefUrl (gen_new None None false) c104_ops = Ok c104_map
  /\ observe_json Debug RefUrl (gen_new None None false) (map (called_call c105_f c105_n) c104_ops)
     = Ok (mkSMJ 3 (Some [lit "1"; lit "dist/a.js"]) (Some [lit "$x"; lit "$y"]) (Some (lit "A,ICQCC;;ODPID")) None None
                 (Some [lit "text"]) None)
  (* two files with one name: another map *)
  /\ observe_json Debug RefUrl (gen_new None None false) (map (called_call (fun _ => lit "1") c105_n) c104_ops)
     = Ok (mkSMJ 3 (Some [lit "1"]) (Some [lit "$x"; lit "$y"]) (Some (lit "A,IAQCC;;OAPID")) None None
                 (Some [lit "text"]) None).
Proof. vm_compute. repeat split; reflexivity. Qed.
Example C105_instance : one_to_one c105_f (files_in c104_ops) /\ one_to_one c105_n (names_in c104_ops)
  /\ same_order c105_f c105_n (added_mappings c104_ops).
Proof.
  split. { intros s t Hs Ht E. cbn in Hs, Ht. intuition (subst; try reflexivity; vm_compute in E; discriminate E). }
  split. { intros s t Hs Ht E. unfold c105_n in E. apply app_inv_head in E. exact E. }
  intros a b Ha Hb E. cbn in Ha, Hb. intuition (subst; try discriminate E; split; vm_compute; reflexivity).
Qed.

(** Mappings at one place that were not added in order: what the files are called decides which comes first. *)
Definition swap_ab (s : str) : str :=
  if str_eqb s (lit "a") then lit "b" else if str_eqb s (lit "b") then lit "a" else s.
Theorem C105_any_order_refuted : exists (ops : list gen_op) (f : str -> str) (j j' : SourceMapJson),
  (forall s t, f s = f t -> s = t) /\ Forall i32_place (added_mappings ops)
  /\ observe_json Debug RefUrl (gen_new None None false) ops = Ok j
  /\ observe_json Debug RefUrl (gen_new None None false) (map (called_call f (fun s => s)) ops) = Ok j'
  /\ smj_mappings j' <> smj_mappings j.
Proof.
  exists [GAdd (mkMapping (mkPos 2 0) (Some (mkPos 1 0)) (Some (lit "a")) None None);
          GAdd (mkMapping (mkPos 1 0) (Some (mkPos 1 0)) (Some (lit "a")) None None);
          GAdd (mkMapping (mkPos 1 0) (Some (mkPos 1 0)) (Some (lit "b")) None None)], swap_ab.
  eexists. eexists.
  assert (I : forall s, swap_ab (swap_ab s) = s).
  { intros s. unfold swap_ab. destruct (str_eqb s (lit "a")) eqn:A; [apply str_eqb_eq in A; subst s; vm_compute; reflexivity|].
    destruct (str_eqb s (lit "b")) eqn:B; [apply str_eqb_eq in B; subst s; vm_compute; reflexivity|].
    rewrite A, B. reflexivity. }
  split; [intros s t E; rewrite <- (I s), <- (I t), E; reflexivity|].
  split; [repeat constructor; vm_compute; congruence|].
  split; [vm_compute; reflexivity|]. split; [vm_compute; reflexivity|]. vm_compute. discriminate.
Qed.
Print Assumptions C105_any_order_refuted.

(** With a source root, contents are found by the name relative to it. *)
Theorem C105_contents_in_root_refuted : exists (ops : list gen_op) (f : str -> str) (j j' : SourceMapJson),
  one_to_one f (files_in ops) /\ same_order f (fun s => s) (added_mappings ops)
  /\ observe_json Debug RefUrl (gen_new None (Some (lit "http://h/src")) false) ops = Ok j
  /\ observe_json Debug RefUrl (gen_new None (Some (lit "http://h/src")) false) (map (called_call f (fun s => s)) ops) = Ok j'
  /\ smj_sources_content j = Some [lit "text"] /\ smj_sources_content j' = Some [].
Proof.
  exists [GContent (lit "http://h/src/a.js") (Some (lit "text"));
          GAdd (mkMapping (mkPos 1 0) (Some (mkPos 1 0)) (Some (lit "a.js")) None None)],
         (fun s => if str_eqb s (lit "a.js") then lit "x.js" else s).
  eexists. eexists.
  split. { intros s t Hs Ht E. cbn in Hs, Ht. intuition (subst; try reflexivity; vm_compute in E; discriminate E). }
  split. { intros a b Ha Hb E. cbn in Ha, Hb. intuition (subst; split; vm_compute; reflexivity). }
  split; [vm_compute; reflexivity|]. split; [vm_compute; reflexivity|]. split; vm_compute; reflexivity.
Qed.
Print Assumptions C105_contents_in_root_refuted.
