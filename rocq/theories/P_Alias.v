(** * C103: names that find the same source can be exchanged *)
From Verif Require Import Base M_Mapping M_Util M_SourceMap M_Json M_MapLib M_Consumer M_Indexed
  S_List S_Url S_MapLib S_Consumer S_Indexed S_EndToEnd S_Refs S_MapUrl S_Opens S_OpensAt S_DataMap S_Lookup S_Alias
  F_UrlRef F_MapLibRef F_Lookup F_Alias.

(** Exchanging names in a history changes neither whether it panics (and how) nor any later answer,
    under either name. *)
Theorem C103_renamed_history : forall (md : mode) (L : MapLib) (U : UrlLib) (c0 : BasicConsumer L)
    (qs qs' : list query) (fresh : opened md L U c0) (other_names : Forall2 (renamed md L U c0) qs qs'),
  same_end md L U c0 (asked md L U c0 qs) (asked md L U c0 qs').
Proof. exact renamed_history. Qed.
Print Assumptions C103_renamed_history.

(** The contents of an indexed map *)
Theorem C103_sections : forall (md : mode) (L : MapLib) (U : UrlLib) (c0 : IndexedConsumer L)
    (qs : list iquery) (c : IndexedConsumer L) (s t : str) (p : option bool)
    (fresh : iopened md L U c0) (history : iasked md L U c0 qs = Ok c)
    (few_sources : Forall (fun x => len (bc_get_sources L (sec_consumer x)) < 2 ^ 31) (sections_of L c0))
    (same : same_find_in_sections md L U c0 s t),
  answer (ic_source_content_for md L U c s p) = answer (ic_source_content_for md L U c t p).
Proof. exact renamed_sections. Qed.
Print Assumptions C103_sections.

(** Two spellings of a place find the same. *)
Theorem C103_spellings : forall (md : mode) (L : MapLib) (U : UrlLib) (j : SourceMapJson) (url : option str)
    (c0 : BasicConsumer L) (lookup : option str) (root e : option ref) (q q' : ref) (url_crate : UrlContract U)
    (opens : opened_map md L U j url c0 lookup) (source_root : smj_source_root j = option_map ref_text root)
    (few_sources : len (bc_get_sources L c0) < 2^31) (lookup_url : url_at lookup e) (chars_r : root_ref root)
    (chars : source_ref q) (bound : short_enough e None q) (bound_in_root : short_enough e root q)
    (chars' : source_ref q') (bound' : short_enough e None q') (bound_in_root' : short_enough e root q')
    (spellings : same_place e root q q'),
  same_find md L U c0 (ref_text q) (ref_text q').
Proof. exact same_place_found. Qed.
Print Assumptions C103_spellings.

Definition c103_json : SourceMapJson :=
  mkSMJ 3 (Some [lit "a/b.js"; lit "c.js"]) (Some [lit "x"]) (Some (lit "AAAA,ICQC;;ODPIA")) None
        (Some (lit "src")) (Some [lit "text of b"; lit "text of c"]) None.
Definition c103_url : option str := Some (lit "http://h/d/m.map").
Definition c103_after {A} (qs : list query) (f : BasicConsumer RefLib -> res (A * BasicConsumer RefLib)) : res A :=
  let* c0 := bc_new Debug RefLib RefUrl (smj_to_string c103_json) c103_url in
  let* c := asked Debug RefLib RefUrl c0 qs in answer (f c).
Definition c103_history (s t : string) : list query :=
  [QContent (lit t) None; QGenerated (lit s) 1 0 None; QSpans; QEach OriginalOrd; QAll (lit t) 8 (Some 1)].
Definition c103_names : list string := ["a/b.js"; "a/./b.js"; "src/a/b.js"; "x/../a/b.js"; "http://h/d/src/a/b.js"]%string.

Example C103_case :
  map (fun s => c103_after [] (fun c => bc_find_source_index Debug RefLib RefUrl c (lit s))) c103_names
    = repeat (Ok (Some 0)) 5
  /\ map (fun s => c103_after (c103_history s "src/c.js")
            (fun c => bc_generated_position_for Debug RefLib RefUrl c (lit "a/b.js") 1 0 None)) c103_names
     = repeat (Ok (Some (mkMapping (mkPos 1 0) (Some (mkPos 0 0)) (Some (lit "http://h/d/src/a/b.js")) (Some (lit "x")) (Some 4)))) 5
  /\ map (fun s => c103_after (c103_history "a/b.js" "c.js")
            (fun c => bc_source_content_for Debug RefLib RefUrl c (lit s) None)) c103_names
     = repeat (Ok (Some (lit "text of b"))) 5
  (* what is not found, however it is written *)
  /\ map (fun s => c103_after [QContent (lit s) None] (fun c => bc_each_mapping RefLib c GeneratedOrd)) ["d.js"; "no"]%string
     = repeat (Panic PMissing) 2.
Proof. vm_compute. repeat split; reflexivity. Qed.

Example C103_instance : exists c0, opened Debug RefLib RefUrl c0
  /\ Forall2 (renamed Debug RefLib RefUrl c0) (c103_history "a/b.js" "c.js") (c103_history "src/a/./b.js" "src/c.js")
  /\ c103_history "a/b.js" "c.js" <> c103_history "src/a/./b.js" "src/c.js"
  /\ ~ same_find Debug RefLib RefUrl c0 (lit "a/b.js") (lit "c.js").
Proof.
  destruct (bc_new Debug RefLib RefUrl (smj_to_string c103_json) c103_url) as [c0|p] eqn:E.
  2: { assert (X : c103_after [] (fun c => Ok (tt, c)) = Ok tt) by (vm_compute; reflexivity).
       unfold c103_after in X. rewrite E in X. discriminate X. }
  assert (F : forall s r, c103_after [] (fun c => bc_find_source_index Debug RefLib RefUrl c s) = r ->
    answer (bc_find_source_index Debug RefLib RefUrl c0 s) = r).
  { intros s r H. unfold c103_after in H. rewrite E in H. exact H. }
  assert (F1 : same_find Debug RefLib RefUrl c0 (lit "a/b.js") (lit "src/a/./b.js")).
  { unfold same_find. rewrite (F _ (Ok (Some 0))) by (vm_compute; reflexivity).
    symmetry. apply F. vm_compute. reflexivity. }
  assert (F2 : same_find Debug RefLib RefUrl c0 (lit "c.js") (lit "src/c.js")).
  { unfold same_find. rewrite (F _ (Ok (Some 1))) by (vm_compute; reflexivity).
    symmetry. apply F. vm_compute. reflexivity. }
  exists c0. split; [left; eexists; eexists; exact E|]. split.
  - unfold c103_history. repeat apply Forall2_cons; try apply Forall2_nil.
    + apply renamed_content. exact F2.
    + apply renamed_generated. exact F1.
    + apply renamed_not.
    + apply renamed_not.
    + apply renamed_all. exact F2.
  - split; [discriminate|]. unfold same_find.
    rewrite (F _ (Ok (Some 0))) by (vm_compute; reflexivity). rewrite (F _ (Ok (Some 1))) by (vm_compute; reflexivity). discriminate.
Qed.

(** a/b.js and a/./b.js, in the root src and under the map URL http://h/d/m.map; b.js is another place *)
Definition c103_q : ref := RRel (mkPath [lit "a"] (lit "b.js")) None None.
Definition c103_q' : ref := RRel (mkPath [lit "a"; dot] (lit "b.js")) None None.
Definition c103_root : option ref := Some (RRel (mkPath [] (lit "src")) None None).
Definition c103_dir : option ref := Some (RUrl (mkOrigin (lit "http") (lit "h")) (mkPath [] (lit "d")) None None).
Example C103_spelling_instance :
  url_at c103_url c103_dir /\ source_ref c103_q /\ source_ref c103_q'
  /\ same_place c103_dir c103_root c103_q c103_q'
  /\ location_at c103_dir c103_root c103_q = RUrl (mkOrigin (lit "http") (lit "h")) (mkPath [lit "d"; lit "src"; lit "a"] (lit "b.js")) None None
  /\ ~ same_place c103_dir c103_root c103_q (RRel (mkPath [] (lit "b.js")) None None).
Proof.
  assert (H : plain_host (lit "h")).
  { exists [lit "h"]. split; [discriminate|]. split; [repeat constructor; discriminate|reflexivity]. }
  assert (O : special_origin (mkOrigin (lit "http") (lit "h"))).
  { left. split; [left; reflexivity|]. split; [exact H|]. split; [split; [constructor|exact I]|exact I]. }
  split.
  { left. exists (Some (RUrl (mkOrigin (lit "http") (lit "h")) (mkPath [lit "d"] (lit "m.map")) None None)).
    split; [reflexivity|]. split; [|split; [discriminate|]].
    - split; [|discriminate]. split; [left; exact O|]. split; [split; repeat constructor; discriminate|]. split; exact I.
    - reflexivity. }
  assert (S : forall p, plain_path p -> path_text p <> [] -> source_ref (RRel p None None)).
  { intros p A B. split; [exact A|]. split; [exact I|]. split; [exact I|left; exact B]. }
  split; [apply S; [split; repeat constructor; discriminate|discriminate]|].
  split; [apply S; [split; repeat constructor; discriminate|discriminate]|].
  split.
  - split; [split; intros _; vm_compute; repeat split; discriminate|]. split; [vm_compute; reflexivity|].
    split; [split; intros _; vm_compute; repeat split; discriminate|]. vm_compute. reflexivity.
  - split; [vm_compute; reflexivity|]. intros [_ [X _]]. vm_compute in X. discriminate X.
Qed.
