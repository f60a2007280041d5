(** * C107: moving the sections of an indexed map *)
From Verif Require Import Base M_Mapping M_Util M_SourceMap M_Json M_MapLib M_Consumer M_Indexed
  S_MapLib S_Consumer S_Indexed S_Sections F_UrlRef F_MapLibRef F_Sections.
From Coq Require Import Sorting.Permutation.

(** All sections are moved [k] lines; the calls ask [k] lines further down.  Opening and the calls then end alike,
    under any schedule of the threads, and all later answers are the same.  No crate need keep any contract. *)
Theorem C107_sections : forall (md : mode) (L : MapLib) (U : UrlLib) (k : Z) (order : list nat) (j : SourceMapJson)
    (url : option str) (l : list JSection) (qs : list iquery)
    (sections : smj_sections j = Some l) (runs : schedule order (length l)) (range : Forall i32_offset l)
    (lines : Forall (line_room k) l),
  end_down md L U k
    (let* c := ic_from_source_map_json md L U order j url in iasked md L U c qs)
    (let* c := ic_from_source_map_json md L U order (sections_down k j) url in iasked md L U c (map (call_down k) qs)).
Proof. exact sections_moved. Qed.
Print Assumptions C107_sections.

(** Two sections from line 3 on, moved up so that they start with line 0 *)
Definition c107_first : SourceMapJson :=
  mkSMJ 3 (Some [lit "a.js"; lit "b.js"]) (Some [lit "x"]) (Some (lit "AAAA,ICQCA;;OAPI")) None
        (Some (lit "src")) (Some [lit "text of a"]) None.
Definition c107_second : SourceMapJson :=
  mkSMJ 3 (Some [lit "c.js"]) None (Some (lit ";AAAA")) None None (Some [lit "text of c"]) None.
Definition c107_list : list JSection :=
  [mkJSection (mkPos 3 0) c107_first None; mkJSection (mkPos 13 4) c107_second None].
Definition c107_json : SourceMapJson := mkSMJ 3 None None None None None None (Some c107_list).
Definition c107_history : list iquery :=
  [ISources; ISpans; IContent (lit "c.js") (Some false); IOriginal (mkPos 4 3) (Some LeastUpperBound); IHasContents].
Definition c107_after {A} (k : Z) (order : list nat) (f : IndexedConsumer RefLib -> res (A * IndexedConsumer RefLib)) : res A :=
  let* c0 := ic_from_source_map_json Debug RefLib RefUrl order (sections_down k c107_json) None in
  let* c := iasked Debug RefLib RefUrl c0 (map (call_down k) c107_history) in answer (f c).
Definition c107_at (k line column : Z) : res (option Mapping) :=
  c107_after k [0; 1]%nat (fun x => ic_original_position_for Debug RefLib x (mkPos line column) (Some LeastUpperBound)).

Example C107_case :
  (* the first section: the generated position of the answer counts from the start of the section *)
  c107_at 0 5 0 = Ok (Some (mkMapping (mkPos 3 7) (Some (mkPos 2 5)) (Some (lit "src/b.js")) None None))
  /\ c107_at (-3) 2 0 = c107_at 0 5 0
  (* the second section *)
  /\ c107_at 0 14 5 = Ok (Some (mkMapping (mkPos 2 0) (Some (mkPos 1 0)) (Some (lit "c.js")) None None))
  /\ c107_at (-3) 11 5 = c107_at 0 14 5
  (* the same line of both maps is another place *)
  /\ c107_at (-3) 5 0 = Ok None
  (* the other calls *)
  /\ c107_after (-3) [0; 1]%nat (fun x => ic_get_sources RefLib x) = Ok [lit "a.js"; lit "b.js"; lit "c.js"]
  /\ c107_after (-3) [0; 1]%nat (fun x => ic_source_content_for Debug RefLib RefUrl x (lit "src/a.js") None)
     = Ok (Some (lit "text of a"))
  (* a schedule under which neither opens *)
  /\ c107_after 0 [1; 0]%nat (fun x => ic_get_sources RefLib x) = Panic PSectionOrder
  /\ c107_after (-3) [1; 0]%nat (fun x => ic_get_sources RefLib x) = Panic PSectionOrder
  (* moved too far *)
  /\ c107_after (-5) [0; 1]%nat (fun x => ic_get_sources RefLib x) = Panic PSectionOrder.
Proof. vm_compute. repeat split; reflexivity. Qed.

Example C107_instance : smj_sections c107_json = Some c107_list /\ schedule [0; 1]%nat (length c107_list)
  /\ Forall i32_offset c107_list /\ Forall (line_room (-3)) c107_list.
Proof.
  split; [reflexivity|]. split; [apply Permutation_refl|].
  split; unfold i32_offset, line_room, i32_min, i32_max; repeat constructor; cbn; try (intros X; discriminate X).
Qed.
