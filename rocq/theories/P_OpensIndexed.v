(** * C95: which indexed maps open *)
From Verif Require Import Base M_Mapping M_Util M_SourceMap M_Json M_MapLib M_Consumer M_Indexed
  S_Url S_Refs S_MapUrl S_Opens S_OpensAt S_Mapping S_Consumer S_Indexed S_OpensIndexed F_UrlRef F_MapLibRef F_OpensIndexed.
From Coq Require Import Sorting.Sorted Sorting.Permutation.

Theorem C95_opens_exactly : forall (md : mode) (U : UrlLib) (url_crate : UrlContract U) (L : MapLib)
    (m w : option ref) (map_url : map_at m w)
    (order : list nat) (t : str) (j : SourceMapJson) (l : list JSection) (ds : list piece)
    (map_of : smj_from_str t = Some j) (sections : smj_sections j = Some l)
    (pieces : Forall2 section_of l ds) (chars : Forall (written_piece w) ds)
    (runs : schedule order (length ds)),
  let url := option_map ref_text m in
  (smj_version j = 3 /\ Forall (usable md w) ds /\ well_timed ds order ->
   exists c, create_consumer md L U order t url = Ok (Some (CIndexed c)) /\ ic_new md L U order t url = Ok c
     /\ map sec_generated_offset (sections_of L c)
        = map (fun d => mkPos (next_i32 (p_line (pc_offset d))) (next_i32 (p_column (pc_offset d)))) ds
     /\ map (fun s => bc_get_sources L (sec_consumer s)) (sections_of L c)
        = map (fun d => map (fun r => ref_text (location_at w (pc_root d) r)) (piece_sources d)) ds
     /\ answer (ic_get_sources L c) = Ok (concat (map (fun d => map ref_text (piece_sources d)) ds)))
  /\ (~ (smj_version j = 3 /\ Forall (usable md w) ds /\ well_timed ds order) ->
      exists p, create_consumer md L U order t url = Panic p /\ ic_new md L U order t url = Panic p).
Proof. exact opens_indexed. Qed.
Print Assumptions C95_opens_exactly.

(** Two sections, with a/./b.js below src and with /c.js and a/.. *)
Definition c95_first : piece :=
  mkPiece (mkPos 0 0) None (Some (RRel (mkPath [] (lit "src")) None None))
          (Some [RRel (mkPath [lit "a"; dot] (lit "b.js")) None None]).
Definition c95_gone : ref := RRel (mkPath [lit "a"] dotdot) None None.
Definition c95_second : piece :=
  mkPiece (mkPos 10 4) None None (Some [RAbs (mkPath [] (lit "c.js")) None None; c95_gone]).
(** The same source below a root, a section with a url, and one without sources *)
Definition c95_rooted : piece := mkPiece (mkPos 10 4) None (pc_root c95_first) (Some [c95_gone]).
Definition c95_url : piece := mkPiece (mkPos 10 4) (Some (lit "other.map")) None (Some []).
Definition c95_bare : piece := mkPiece (mkPos 10 4) None None None.

(** One on the greatest line *)
Definition c95_last : piece := mkPiece (mkPos i32_max 4) None None (Some []).

Definition c95_section (d : piece) : JSection :=
  mkJSection (pc_offset d)
    (mkSMJ 3 (option_map (map ref_text) (pc_sources d)) (Some []) (Some []) None
           (option_map ref_text (pc_root d)) None None) (pc_url d).
Definition c95_map (version : Z) (ds : list piece) : SourceMapJson :=
  mkSMJ version None None None None None None (Some (map c95_section ds)).
Definition c95_sources (version : Z) (ds : list piece) (order : list nat) (url : option str) : res (list str) :=
  let* c := ic_new Debug RefLib RefUrl order (smj_to_string (c95_map version ds)) url in answer (ic_get_sources RefLib c).
Definition c95_resolved (version : Z) (ds : list piece) (order : list nat) (url : option str) : res (list (list str)) :=
  let* c := ic_new Debug RefLib RefUrl order (smj_to_string (c95_map version ds)) url in
  Ok (map (fun s => bc_get_sources RefLib (sec_consumer s)) (sections_of RefLib c)).

Example C95_case :
  c95_sources 3 [c95_first; c95_second] [0; 1]%nat None = Ok (map lit ["a/./b.js"; "/c.js"; "a/.."]%string)
  /\ c95_resolved 3 [c95_first; c95_second] [0; 1]%nat None
     = Ok [[lit "src/a/b.js"]; map lit ["/c.js"; ""]%string]
  /\ c95_resolved 3 [c95_first; c95_first] [0; 1]%nat (Some (lit "http://hh/d/e/f.map"))
     = Ok [[lit "http://hh/de/src/a/b.js"]; [lit "http://hh/de/src/a/b.js"]]
  /\ c95_sources 3 [c95_first; c95_second] [0; 1]%nat (Some (lit "http://hh/d/e/f.map")) = Panic PUnwrapNone
  /\ c95_sources 3 [c95_first; c95_second] [1; 0]%nat None = Panic PSectionOrder
  /\ c95_sources 2 [c95_first; c95_second] [0; 1]%nat None = Panic PVersion
  /\ c95_sources 3 [c95_first; c95_rooted] [0; 1]%nat None = Panic PUnwrapNone
  /\ c95_sources 3 [c95_first; c95_url] [0; 1]%nat None = Panic PSectionUrl
  /\ c95_sources 3 [c95_first; c95_bare] [0; 1]%nat None = Panic PUnwrapNone
  /\ c95_sources 3 [c95_first; c95_last] [0; 1]%nat None = Panic POverflow
  /\ (let* c := ic_new Release RefLib RefUrl [0; 1]%nat (smj_to_string (c95_map 3 [c95_first; c95_last])) None in
      Ok (map sec_generated_offset (sections_of RefLib c)))
     = Ok [mkPos 1 1; mkPos i32_min 5].
Proof. vm_compute. repeat split; reflexivity. Qed.

Example C95_instance :
  smj_from_str (smj_to_string (c95_map 3 [c95_first; c95_second])) = Some (c95_map 3 [c95_first; c95_second])
  /\ Forall2 section_of (map c95_section [c95_first; c95_second]) [c95_first; c95_second]
  /\ Forall (written_piece None) [c95_first; c95_second; c95_rooted; c95_url; c95_bare]
  /\ Forall (usable Debug None) [c95_first; c95_second]
  /\ ~ usable Debug None c95_rooted /\ ~ usable Debug None c95_url /\ ~ usable Debug None c95_bare
  /\ schedule [1; 0]%nat 2
  /\ well_timed [c95_first; c95_second] [0; 1]%nat /\ ~ well_timed [c95_first; c95_second] [1; 0]%nat
  /\ usable Release None c95_last /\ ~ usable Debug None c95_last.
Proof.
  split; [vm_compute; reflexivity|].
  split; [repeat constructor|].
  assert (R : root_ref (pc_root c95_first)).
  { split; [|split; discriminate]. split; [|discriminate]. split; [split; repeat constructor; discriminate|].
    split; [exact I|]. split; [exact I|discriminate]. }
  assert (G : source_ref c95_gone) by (split; [split; repeat constructor; discriminate|]; split; [exact I|]; split; [exact I|right; split; reflexivity]).
  split.
  { repeat apply Forall_cons; [| | | | |constructor].
    - split; [exact R|]. split; (apply Forall_cons; [|constructor]); [|split; [discriminate|exact I]].
      split; [split; repeat constructor; discriminate|]; split; [exact I|]; split; [exact I|right; split; reflexivity].
    - split; [exact I|]. split; (apply Forall_cons; [|apply Forall_cons; [|constructor]]);
        [|exact G|split; [discriminate|exact I]|split; [discriminate|exact I]].
      split; [split; repeat constructor; discriminate|]; split; [exact I|]; split; [exact I|right; split; reflexivity].
    - split; [exact R|]. split; (apply Forall_cons; [|constructor]); [exact G|split; [discriminate|exact I]].
    - split; [exact I|]. split; constructor.
    - split; [exact I|]. split; constructor. }
  split.
  { repeat apply Forall_cons; [| |constructor].
    - split; [split; reflexivity|]. split; [reflexivity|]. split; [discriminate|]. apply Forall_cons; [split; [split; discriminate|exact I]|constructor].
    - split; [split; reflexivity|]. split; [reflexivity|]. split; [discriminate|]. apply Forall_cons; [|apply Forall_cons; [|constructor]]; (split; [discriminate|exact I]). }
  split; [intros [_ [_ [_ H]]]; apply Forall_inv in H; destruct H as [[_ H] _]; apply H; reflexivity|].
  split; [intros [_ [H _]]; discriminate|].
  split; [intros [_ [_ [H _]]]; apply H; reflexivity|].
  split; [apply perm_swap|].
  split.
  { exists [c95_first; c95_second]. split; [repeat constructor|]. unfold in_order. cbn [map pc_offset c95_first c95_second].
    repeat constructor; unfold pos_le; cbn; lia. }
  split.
  { intros [ds' [A O]]. destruct ds' as [|d1 [|d2 [|d3 ds']]]; [inversion A| | |].
    - inversion A as [|? ? ? ? ? X]. inversion X.
    - inversion A as [|? ? ? ? A1 X]. inversion X as [|? ? ? ? A2 _]. injection A1 as <-. injection A2 as <-.
      unfold in_order in O. apply StronglySorted_inv in O. destruct O as [O _]. cbn [map] in O.
      apply StronglySorted_inv in O. destruct O as [_ O]. apply Forall_inv in O. unfold pos_le in O. cbn in O. lia.
    - inversion A as [|? ? ? ? ? X]. inversion X as [|? ? ? ? ? Y]. inversion Y. }
  split.
  - split; [discriminate|]. split; [reflexivity|]. split; [discriminate|constructor].
  - intros [H _]. destruct (H eq_refl) as [X _]. cbn [c95_last pc_offset p_line] in X. lia.
Qed.
