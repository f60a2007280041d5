(** * C116: indexed maps put one behind the other *)
From Verif Require Import Base M_ArraySet M_Mapping M_Util M_SourceMap M_Json M_MapLib M_Consumer M_Indexed
  S_Mapping S_Consumer S_Indexed S_Joined F_UrlRef F_MapLibRef F_Joined.

(** The joined map opens exactly when both maps do and no section of the second starts before one of the first. *)
Theorem C116_opens : forall (md : mode) (L : MapLib) (U : UrlLib) (url : option str) (l l' : list JSection) (j j' j'' : SourceMapJson)
    (offsets : Forall i32_offset (l ++ l'))
    (version : smj_version j = 3) (version' : smj_version j' = 3) (version'' : smj_version j'' = 3)
    (sections : smj_sections j = Some l) (sections' : smj_sections j' = Some l') (sections'' : smj_sections j'' = Some (l ++ l')),
  (exists c, ic_from_source_map_json md L U (seq 0 (length (l ++ l'))) j'' url = Ok c)
  <-> (exists c, ic_from_source_map_json md L U (seq 0 (length l)) j url = Ok c)
      /\ (exists c, ic_from_source_map_json md L U (seq 0 (length l')) j' url = Ok c)
      /\ (forall s s', In s l -> In s' l' -> pos_le (js_offset s) (js_offset s')).
Proof. exact joined_opens. Qed.
Print Assumptions C116_opens.

(** Its sources are those of the first and then those of the second, its contents are complete when both are, and a
    text is that of the first or else of the second. *)
Theorem C116_answers : forall (md : mode) (L : MapLib) (U : UrlLib) (url : option str) (l l' : list JSection)
    (c0 c0' c0'' : IndexedConsumer L) (qs qs' qs'' : list iquery) (c c' c'' : IndexedConsumer L)
    (opens : opens_in_order md L U url l c0) (opens' : opens_in_order md L U url l' c0') (opens'' : opens_in_order md L U url (l ++ l') c0'')
    (history : iasked md L U c0 qs = Ok c) (history' : iasked md L U c0' qs' = Ok c') (history'' : iasked md L U c0'' qs'' = Ok c'')
    (few_sources : Forall (fun s => len (bc_get_sources L (sec_consumer s)) < 2 ^ 31) (sections_of L c0'')),
  (exists s s', answer (ic_get_sources L c) = Ok s /\ answer (ic_get_sources L c') = Ok s' /\ answer (ic_get_sources L c'') = Ok (s ++ s'))
  /\ (exists b b', answer (ic_has_contents_of_all_sources L c) = Ok b /\ answer (ic_has_contents_of_all_sources L c') = Ok b'
        /\ answer (ic_has_contents_of_all_sources L c'') = Ok (b && b'))
  /\ (forall src, answer (ic_source_content_for md L U c'' src (Some false))
        = match answer (ic_source_content_for md L U c src (Some false)) with
          | Ok None => answer (ic_source_content_for md L U c' src (Some false))
          | r => r
          end)
  /\ (forall src p text, answer (ic_source_content_for md L U c src p) = Ok (Some text) ->
        answer (ic_source_content_for md L U c'' src p) = Ok (Some text)).
Proof. exact joined_answers. Qed.
Print Assumptions C116_answers.

(** ** Examples *)
Definition c116_sec (line : Z) (source text : string) : JSection :=
  mkJSection (mkPos line 0) (mkSMJ 3 (Some [lit source]) (Some []) (Some []) None None (Some [lit text]) None) None.
Definition c116_open (l : list JSection) : res (IndexedConsumer RefLib) :=
  ic_from_source_map_json Debug RefLib RefUrl (seq 0 (length l)) (mkSMJ 3 None None None None None None (Some l)) None.
Definition c116_content (l : list JSection) (s : string) (p : option bool) : res (option str) :=
  let* c := c116_open l in answer (ic_source_content_for Debug RefLib RefUrl c (lit s) p).
Definition c116_sources (l : list JSection) : res (list str) := let* c := c116_open l in answer (ic_get_sources RefLib c).
Definition c116_has (l : list JSection) : res bool := let* c := c116_open l in answer (ic_has_contents_of_all_sources RefLib c).
Definition c116_first : list JSection := [c116_sec 0 "a.js" "one"; c116_sec 3 "b.js" "two"].
Definition c116_second : list JSection := [c116_sec 5 "b.js" "three"; c116_sec 7 "c.js" "four"].

Example C116_case :
  c116_sources (c116_first ++ c116_second) = Ok [lit "a.js"; lit "b.js"; lit "b.js"; lit "c.js"]
  /\ c116_has (c116_first ++ c116_second) = Ok true
  /\ map (fun s => c116_content (c116_first ++ c116_second) s (Some false)) ["a.js"; "b.js"; "c.js"; "d.js"]%string
     = [Ok (Some (lit "one")); Ok (Some (lit "two")); Ok (Some (lit "four")); Ok None]
  /\ map (fun s => c116_content c116_second s (Some false)) ["b.js"; "c.js"]%string = [Ok (Some (lit "three")); Ok (Some (lit "four"))]
  (* in the wrong order *)
  /\ c116_sources (c116_second ++ c116_first) = Panic PSectionOrder.
Proof. repeat split; vm_compute; reflexivity. Qed.

(** The hypotheses can be met. *)
Example C116_instance : exists c0 c0' c0'', opens_in_order Debug RefLib RefUrl None c116_first c0
  /\ opens_in_order Debug RefLib RefUrl None c116_second c0' /\ opens_in_order Debug RefLib RefUrl None (c116_first ++ c116_second) c0''
  /\ Forall i32_offset (c116_first ++ c116_second).
Proof.
  assert (X : forall l, (let* c := c116_open l in Ok tt) = Ok tt -> exists c, c116_open l = Ok c)
    by (intros l H; destruct (c116_open l) as [c|p]; [eauto|discriminate H]).
  destruct (X c116_first ltac:(vm_compute; reflexivity)) as [a A]. destruct (X c116_second ltac:(vm_compute; reflexivity)) as [b B].
  destruct (X (c116_first ++ c116_second) ltac:(vm_compute; reflexivity)) as [c C]. exists a, b, c. clear X.
  assert (K : Forall i32_offset (c116_first ++ c116_second)) by (repeat constructor; vm_compute; congruence).
  pose proof K as K2. apply Forall_app in K2. destruct K2 as [K1 K2].
  split; [|split; [|split; [|exact K]]].
  - exists (mkSMJ 3 None None None None None None (Some c116_first)). split; [reflexivity|]. split; [exact K1|exact A].
  - exists (mkSMJ 3 None None None None None None (Some c116_second)). split; [reflexivity|]. split; [exact K2|exact B].
  - exists (mkSMJ 3 None None None None None None (Some (c116_first ++ c116_second))). split; [reflexivity|]. split; [exact K|exact C].
Qed.

(** An expectation that does not hold: with the default setting the second map's texts are found too. *)
Theorem C116_default_refuted : exists (l l' : list JSection) (s : string) (text : str),
  c116_content l' s None = Ok (Some text) /\ c116_content l s (Some false) = Ok None
  /\ c116_content (l ++ l') s None = Panic PMissing.
Proof. exists c116_first, [c116_sec 7 "c.js" "four"], "c.js"%string, (lit "four"). repeat split; vm_compute; reflexivity. Qed.
Print Assumptions C116_default_refuted.
