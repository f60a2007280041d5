(** * C94: which plain maps open under a map URL, and where their sources are *)
From Verif Require Import Base M_Util M_SourceMap M_Json M_MapLib M_Consumer M_Indexed
  S_Url S_Refs S_MapUrl S_Opens S_OpensAt F_UrlRef F_MapLibRef F_OpensAt.

Theorem C94_opens_exactly : forall (md : mode) (U : UrlLib) (url_crate : UrlContract U) (L : MapLib)
    (order : list nat) (t : str) (j : SourceMapJson) (m d root : option ref) (ss : list ref)
    (map_of : smj_from_str t = Some j) (plain_map : smj_sections j = None)
    (sources : smj_sources j = Some (map ref_text ss))
    (source_root : smj_source_root j = option_map ref_text root)
    (map_url : map_at m d) (chars_r : root_ref root) (chars : Forall source_ref ss)
    (bound : Forall (short_enough d root) ss),
  (Forall (acceptable_at d root) ss ->
   exists c c', create_consumer md L U order t (option_map ref_text m) = Ok (Some (CBasic c))
     /\ bc_new md L U t (option_map ref_text m) = Ok c'
     /\ bc_get_sources L c = map (fun s => ref_text (location_at d root s)) ss
     /\ bc_get_sources L c' = map (fun s => ref_text (location_at d root s)) ss)
  /\ (~ Forall (acceptable_at d root) ss ->
      create_consumer md L U order t (option_map ref_text m) = Panic PUnwrapNone
      /\ bc_new md L U t (option_map ref_text m) = Panic PUnwrapNone).
Proof. exact opens_at. Qed.
Print Assumptions C94_opens_exactly.

(** Every map URL has just one directory. *)
Theorem C94_directory : forall (m : ref) (bound : len (ref_text m) <= 2147483645),
  exists d, forall d', directory_of m d' <-> d' = d.
Proof. exact directory_exists. Qed.
Print Assumptions C94_directory.

Definition c94_map (root : option ref) (ss : list ref) : SourceMapJson :=
  mkSMJ 3 (Some (map ref_text ss)) (Some []) (Some []) None (option_map ref_text root) None None.
Definition c94_sources (m root : option ref) (ss : list ref) : res (list str) :=
  let* c := bc_new Debug RefLib RefUrl (smj_to_string (c94_map root ss)) (option_map ref_text m) in Ok (bc_get_sources RefLib c).

(** As written: a/./b.js and /c.js *)
Definition c94_some : list ref :=
  [RRel (mkPath [lit "a"; dot] (lit "b.js")) None None; RAbs (mkPath [] (lit "c.js")) None None].
Definition c94_root : ref := RRel (mkPath [] (lit "src")) None None.
(** a/.. and ../x *)
Definition c94_gone : ref := RRel (mkPath [lit "a"] dotdot) None None.
Definition c94_up : ref := RRel (mkPath [dotdot] (lit "x")) None None.
(** http://hh/d/e/f.map, /f.map, ../out/f.map *)
Definition c94_web : ref := RUrl (mkOrigin (lit "http") (lit "hh")) (mkPath [lit "d"; lit "e"] (lit "f.map")) None None.
(** webpack://pkg/d/e/f.map *)
Definition c94_pack : ref := RUrl (mkOrigin (lit "webpack") (lit "pkg")) (mkPath [lit "d"; lit "e"] (lit "f.map")) None None.
(** webpack://pkg/f.map *)
Definition c94_bare : ref := RUrl (mkOrigin (lit "webpack") (lit "pkg")) (mkPath [] (lit "f.map")) None None.
Definition c94_top : ref := RAbs (mkPath [] (lit "f.map")) None None.
Definition c94_rel : ref := RRel (mkPath [dotdot; lit "out"] (lit "f.map")) None None.

Example C94_case :
  c94_sources (Some c94_web) None c94_some = Ok (map lit ["http://hh/de/a/b.js"; "http://hh/c.js"]%string)
  /\ c94_sources (Some c94_web) (Some c94_root) c94_some
     = Ok (map lit ["http://hh/de/src/a/b.js"; "http://hh/de/src/c.js"]%string)
  /\ c94_sources (Some c94_pack) (Some c94_root) c94_some
     = Ok (map lit ["webpack://pkg/de/src/a/b.js"; "webpack://pkg/de/src/c.js"]%string)
  /\ c94_sources (Some c94_bare) (Some c94_root) c94_some
     = Ok (map lit ["webpack://pkg/src/a/b.js"; "webpack://pkg/src/c.js"]%string)
  /\ c94_sources (Some c94_rel) (Some c94_root) c94_some
     = Ok (map lit ["../out/src/a/b.js"; "../out/src/c.js"]%string)
  /\ c94_sources (Some c94_top) None c94_some = Panic PUnwrapNone
  /\ c94_sources (Some c94_top) None [] = Ok []
  /\ c94_sources None None [c94_gone] = Ok [[]]
  /\ c94_sources (Some c94_web) None [c94_gone] = Panic PUnwrapNone
  /\ c94_sources None (Some c94_root) [c94_up] = Ok [lit "x"]
  /\ c94_sources (Some c94_web) (Some c94_root) [c94_up] = Panic PUnwrapNone.
Proof. vm_compute. repeat split; reflexivity. Qed.

Example C94_instance :
  map_at (Some c94_web) (Some (RUrl (mkOrigin (lit "http") (lit "hh")) (mkPath [] (lit "de")) None None))
  /\ map_at (Some c94_pack) (Some (RUrl (mkOrigin (lit "webpack") (lit "pkg")) (mkPath [] (lit "de")) None None))
  /\ map_at (Some c94_bare) (Some (RUrl (mkOrigin (lit "webpack") (lit "pkg")) (mkPath [] []) None None))
  /\ map_at (Some c94_top) (Some (RAbs (mkPath [] []) None None))
  /\ map_at (Some c94_rel) (Some (RRel (mkPath [dotdot] (lit "out")) None None))
  /\ acceptable_at (Some (RRel (mkPath [dotdot] (lit "out")) None None)) (Some c94_root) (RAbs (mkPath [] (lit "c.js")) None None)
  /\ ~ acceptable_at (Some (RAbs (mkPath [] []) None None)) None (RAbs (mkPath [] (lit "c.js")) None None)
  /\ ~ acceptable_at (Some c94_web) None c94_gone /\ acceptable_at None None c94_gone
  /\ ~ acceptable_at (Some c94_web) (Some c94_root) c94_up /\ acceptable_at None (Some c94_root) c94_up.
Proof.
  assert (H : plain_host (lit "hh")).
  { exists [lit "hh"]. split; [discriminate|]. split; [repeat constructor; discriminate|reflexivity]. }
  assert (O : special_origin (mkOrigin (lit "http") (lit "hh"))).
  { left. split; [left; reflexivity|]. split; [exact H|]. split; [split; [constructor|exact I]|exact I]. }
  split.
  { split; [|split; [discriminate|reflexivity]].
    split; [|discriminate]. split; [left; exact O|]. split; [split; repeat constructor; discriminate|]. split; exact I. }
  split.
  { split; [|split; [discriminate|reflexivity]].
    split; [|discriminate]. split; [right|split; [split; repeat constructor; discriminate|split; exact I]].
    split; [|split; [reflexivity|split; [reflexivity|split; [reflexivity|repeat constructor]]]].
    split; [exists (ch "w"), (lit "ebpack"); split; [reflexivity|split; [reflexivity|]];
      repeat (apply Forall_cons; [left; reflexivity|]); constructor|].
    intros X. cbn in X. repeat (destruct X as [X|X]; [discriminate|]). exact X. }
  split.
  { split; [|split; [discriminate|reflexivity]].
    split; [|discriminate]. split; [right|split; [split; repeat constructor; discriminate|split; exact I]].
    split; [|split; [reflexivity|split; [reflexivity|split; [reflexivity|repeat constructor]]]].
    split; [exists (ch "w"), (lit "ebpack"); split; [reflexivity|split; [reflexivity|]];
      repeat (apply Forall_cons; [left; reflexivity|]); constructor|].
    intros X. cbn in X. repeat (destruct X as [X|X]; [discriminate|]). exact X. }
  split.
  { split; [|split; [discriminate|reflexivity]].
    split; [|discriminate]. split; [split; repeat constructor; discriminate|]. split; exact I. }
  split.
  { split; [|split; [discriminate|]].
    - split; [|discriminate]. split; [split; repeat constructor; discriminate|]. split; [exact I|]. split; [exact I|discriminate].
    - destruct (F_MapUrl.internal_exists (ref_text c94_rel) ltac:(discriminate)) as [a Ha].
      exists 1%nat, a. split.
      + change 1%nat with (count_dotdot (ref_text c94_rel)). apply F_UrlText.count_max.
      + split; [exact Ha|]. f_equal. unfold map_directory.
        assert (E : dirs (resolve_from (repeat a 1) (mkPath [dotdot; lit "out"] (lit "f.map"))) = [lit "out"]) by reflexivity.
        rewrite E. destruct Ha as [t [n [_ [-> _]]]]. reflexivity. }
  split; [split; [split; discriminate|split; discriminate]|].
  split; [intros [_ [_ X]]; apply X; reflexivity|].
  split; [intros [_ [X _]]; apply X; reflexivity|].
  split; [split; [discriminate|exact I]|].
  split; [intros [_ [X _]]; apply X; reflexivity|].
  split; [split; discriminate|exact I].
Qed.
