(** * C106: two maps with the same mappings *)
From Verif Require Import Base M_Mapping M_Util M_SourceMap M_Json M_MapLib M_Consumer
  S_MapLib S_Consumer S_Redo S_Twin F_UrlRef F_MapLibRef F_Twin.

(** The same calls on two consumers with the same mappings text: the answers differ only in what the
    sources and names are called.  Neither the library for mappings nor the url crate need keep any contract. *)
Theorem C106_twins : forall (md : mode) (L : MapLib) (U : UrlLib) (f n : str -> str) (b0 c0 : BasicConsumer L)
    (qs qs' : list query) (fresh : opened md L U b0) (fresh' : opened md L U c0) (same_mappings : twins L f n b0 c0)
    (same_calls : Forall2 (counterpart md L U b0 c0) qs qs'),
  twin_end md L U f n b0 c0 (asked md L U b0 qs) (asked md L U c0 qs').
Proof. exact twin_history. Qed.
Print Assumptions C106_twins.

(** A map with the root src, under a map URL, and a map with other names and no root *)
Definition c106_one : SourceMapJson :=
  mkSMJ 3 (Some [lit "b.js"; lit "a.js"]) (Some [lit "x"; lit "y"]) (Some (lit "AAAA;ICQCC;ODPID")) None
        (Some (lit "src")) (Some [lit "text of b"; lit "text of a"]) None.
Definition c106_other : SourceMapJson :=
  mkSMJ 3 (Some [lit "1.ts"; lit "2.ts"]) (Some [lit "$x"; lit "$y"]) (Some (lit "AAAA;ICQCC;ODPID")) (Some (lit "out.js"))
        None (Some [lit "text of b"; lit "text of a"]) None.
Definition c106_open (j : SourceMapJson) (url : option str) : res (BasicConsumer RefLib) :=
  bc_new Debug RefLib RefUrl (smj_to_string j) url.
Definition c106_b : res (BasicConsumer RefLib) := c106_open c106_one (Some (lit "http://h/d/m.map")).
Definition c106_c : res (BasicConsumer RefLib) := c106_open c106_other None.
Definition c106_f (s : str) : str := if str_eqb s (lit "http://h/d/src/b.js") then lit "1.ts" else lit "2.ts".
Definition c106_n (s : str) : str := lit "$" ++ s.
Definition c106_qs : list query := [QSpans; QGenerated (lit "src/a.js") 9 1 None; QContent (lit "b.js") None; QEach OriginalOrd].
Definition c106_qs' : list query := [QSpans; QGenerated (lit "2.ts") 9 1 None; QContent (lit "./1.ts") None; QEach OriginalOrd].
Definition c106_ask {A} (o : res (BasicConsumer RefLib)) (qs : list query)
    (q : BasicConsumer RefLib -> res (A * BasicConsumer RefLib)) : res A :=
  let* c0 := o in let* c := asked Debug RefLib RefUrl c0 qs in answer (q c).

Example C106_case :
  c106_ask c106_b c106_qs (fun c => bc_original_position_for Debug RefLib c (mkPos 2 5) (Some LeastUpperBound))
    = Ok (Some (mkMapping (mkPos 3 7) (Some (mkPos 2 5)) (Some (lit "http://h/d/src/b.js")) (Some (lit "x")) None))
  /\ c106_ask c106_c c106_qs' (fun c => bc_original_position_for Debug RefLib c (mkPos 2 5) (Some LeastUpperBound))
    = Ok (Some (mkMapping (mkPos 3 7) (Some (mkPos 2 5)) (Some (lit "1.ts")) (Some (lit "$x")) None))
  /\ c106_ask c106_b c106_qs (fun c => bc_generated_position_for Debug RefLib RefUrl c (lit "src/a.js") 9 1 None)
    = Ok (Some (mkMapping (mkPos 2 4) (Some (mkPos 8 1)) (Some (lit "http://h/d/src/a.js")) (Some (lit "y")) (Some (-1))))
  /\ c106_ask c106_c c106_qs' (fun c => bc_generated_position_for Debug RefLib RefUrl c (lit "x/../2.ts") 9 1 None)
    = Ok (Some (mkMapping (mkPos 2 4) (Some (mkPos 8 1)) (Some (lit "2.ts")) (Some (lit "$y")) (Some (-1))))
  (* a name that is missing in one is not a counterpart *)
  /\ c106_ask c106_c [] (fun c => bc_find_source_index Debug RefLib RefUrl c (lit "src/a.js")) = Ok None.
Proof. vm_compute. repeat split; reflexivity. Qed.

Example C106_instance : exists b0 c0, opened Debug RefLib RefUrl b0 /\ opened Debug RefLib RefUrl c0
  /\ twins RefLib c106_f c106_n b0 c0 /\ Forall2 (counterpart Debug RefLib RefUrl b0 c0) c106_qs c106_qs'.
Proof.
  destruct c106_b as [b0|p] eqn:Eb.
  2: { assert (X : c106_ask c106_b [] (fun c => Ok (tt, c)) = Ok tt) by (vm_compute; reflexivity).
       unfold c106_ask in X. rewrite Eb in X. discriminate X. }
  destruct c106_c as [c0|p] eqn:Ec.
  2: { assert (X : c106_ask c106_c [] (fun c => Ok (tt, c)) = Ok tt) by (vm_compute; reflexivity).
       unfold c106_ask in X. rewrite Ec in X. discriminate X. }
  assert (B : forall A (q : BasicConsumer RefLib -> A) r, (let* c := c106_b in Ok (q c)) = Ok r -> q b0 = r).
  { intros A q r H. rewrite Eb in H. injection H as H. exact H. }
  assert (C : forall A (q : BasicConsumer RefLib -> A) r, (let* c := c106_c in Ok (q c)) = Ok r -> q c0 = r).
  { intros A q r H. rewrite Ec in H. injection H as H. exact H. }
  assert (F : forall s t i, (let* c := c106_b in Ok (answer (bc_find_source_index Debug RefLib RefUrl c s))) = Ok (Ok i) ->
    (let* c := c106_c in Ok (answer (bc_find_source_index Debug RefLib RefUrl c t))) = Ok (Ok i) ->
    find_alike Debug RefLib RefUrl b0 c0 s t).
  { intros s t i H1 H2. unfold find_alike. rewrite (B _ (fun c => answer (bc_find_source_index Debug RefLib RefUrl c s)) _ H1).
    symmetry. exact (C _ (fun c => answer (bc_find_source_index Debug RefLib RefUrl c t)) _ H2). }
  assert (Mb : bc_source_map b0 = c106_one) by (apply (B _ bc_source_map); vm_compute; reflexivity).
  assert (Mc : bc_source_map c0 = c106_other) by (apply (C _ bc_source_map); vm_compute; reflexivity).
  assert (Sb : bc_get_sources RefLib b0 = [lit "http://h/d/src/b.js"; lit "http://h/d/src/a.js"])
    by (apply (B _ (bc_get_sources RefLib)); vm_compute; reflexivity).
  assert (Sc : bc_get_sources RefLib c0 = [lit "1.ts"; lit "2.ts"])
    by (apply (C _ (bc_get_sources RefLib)); vm_compute; reflexivity).
  exists b0, c0. split; [left; eexists; eexists; exact Eb|]. split; [left; eexists; eexists; exact Ec|].
  split.
  - constructor; rewrite ?Mb, ?Mc, ?Sb, ?Sc; reflexivity.
  - unfold c106_qs, c106_qs'. repeat apply Forall2_cons; try apply Forall2_nil.
    + apply same_spans_call.
    + apply same_generated_call. apply (F _ _ (Some 1)); vm_compute; reflexivity.
    + apply same_content_call. apply (F _ _ (Some 0)); vm_compute; reflexivity.
    + apply same_each_call.
Qed.
