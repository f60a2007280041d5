(** * C98: maps whose URL has a scheme but no "//", as inline maps have *)
From Verif Require Import Base M_Mapping M_Util M_SourceMap M_Json M_MapLib M_Consumer M_Indexed
  S_Url S_Refs S_MapUrl S_Opens S_OpensAt S_Mapping S_Consumer S_Indexed S_OpensIndexed S_DataMap F_UrlText F_UrlRef F_MapLibRef F_DataMap.

Theorem C98_source : forall (md : mode) (U : UrlLib) (url_crate : UrlContract U) (m : str) (d : ref) (root : option ref) (s : ref)
    (map_url : data_map m d) (chars_r : root_ref root) (chars : source_ref s) (bound : short_enough (Some d) root s),
  (acceptable_at (Some d) root s ->
   compute_source_url md U (option_map ref_text root) (ref_text s) (Some m) = Ok (ref_text (location_at (Some d) root s)))
  /\ (~ acceptable_at (Some d) root s ->
      compute_source_url md U (option_map ref_text root) (ref_text s) (Some m) = Panic PUnwrapNone).
Proof. exact data_source. Qed.
Print Assumptions C98_source.

Theorem C98_opens_exactly : forall (md : mode) (U : UrlLib) (url_crate : UrlContract U) (L : MapLib)
    (order : list nat) (t : str) (j : SourceMapJson) (m : str) (d : ref) (root : option ref) (ss : list ref)
    (map_of : smj_from_str t = Some j) (plain_map : smj_sections j = None)
    (sources : smj_sources j = Some (map ref_text ss))
    (source_root : smj_source_root j = option_map ref_text root)
    (map_url : data_map m d) (chars_r : root_ref root) (chars : Forall source_ref ss)
    (bound : Forall (short_enough (Some d) root) ss),
  (Forall (acceptable_at (Some d) root) ss ->
   exists c c', create_consumer md L U order t (Some m) = Ok (Some (CBasic c)) /\ bc_new md L U t (Some m) = Ok c'
     /\ bc_get_sources L c = map (fun s => ref_text (location_at (Some d) root s)) ss
     /\ bc_get_sources L c' = map (fun s => ref_text (location_at (Some d) root s)) ss)
  /\ (~ Forall (acceptable_at (Some d) root) ss ->
      create_consumer md L U order t (Some m) = Panic PUnwrapNone /\ bc_new md L U t (Some m) = Panic PUnwrapNone).
Proof. exact data_opens. Qed.
Print Assumptions C98_opens_exactly.

Theorem C98_opens_indexed : forall (md : mode) (U : UrlLib) (url_crate : UrlContract U) (L : MapLib)
    (m : str) (d : ref) (map_url : data_map m d)
    (order : list nat) (t : str) (j : SourceMapJson) (l : list JSection) (ds : list piece)
    (map_of : smj_from_str t = Some j) (sections : smj_sections j = Some l)
    (pieces : Forall2 section_of l ds) (chars : Forall (written_piece (Some d)) ds)
    (runs : schedule order (length ds)),
  (smj_version j = 3 /\ Forall (usable md (Some d)) ds /\ well_timed ds order ->
   exists c, create_consumer md L U order t (Some m) = Ok (Some (CIndexed c)) /\ ic_new md L U order t (Some m) = Ok c
     /\ map sec_generated_offset (sections_of L c)
        = map (fun d => mkPos (next_i32 (p_line (pc_offset d))) (next_i32 (p_column (pc_offset d)))) ds
     /\ map (fun s => bc_get_sources L (sec_consumer s)) (sections_of L c)
        = map (fun p => map (fun r => ref_text (location_at (Some d) (pc_root p) r)) (piece_sources p)) ds
     /\ answer (ic_get_sources L c) = Ok (concat (map (fun p => map ref_text (piece_sources p)) ds)))
  /\ (~ (smj_version j = 3 /\ Forall (usable md (Some d)) ds /\ well_timed ds order) ->
      exists p, create_consumer md L U order t (Some m) = Panic p /\ ic_new md L U order t (Some m) = Panic p).
Proof. exact data_opens_indexed. Qed.
Print Assumptions C98_opens_indexed.

(** Every such URL has just one directory. *)
Theorem C98_directory : forall (s t : str) (q f : option str),
  exists d, forall d', data_directory s t q f d' <-> d' = d.
Proof. exact data_exists. Qed.
Print Assumptions C98_directory.

Definition c98_text : str := lit "application/json;charset=utf-8;base64,eyJ2ZX/Jz+aW9=".
Definition c98_url : str := opaque_url (lit "data") c98_text None None.
Definition c98_dir : ref :=
  RRel (mkPath [dotdot] (lit "applicationjson;charset=utf-8;base64,eyJ2ZX")) None None.
Definition c98_map (root : option str) (ss : list str) : str :=
  smj_to_string (mkSMJ 3 (Some ss) (Some []) (Some []) None root None None).
Definition c98_sources (m : str) (root : option str) (ss : list str) : res (list str) :=
  let* c := bc_new Debug RefLib RefUrl (c98_map root ss) (Some m) in Ok (bc_get_sources RefLib c).

Example C98_case :
  c98_sources c98_url None (map lit ["s.js"; "/a/b.js"; "http://hh/c.js"; "../../d.js"]%string)
  = Ok (map lit ["../applicationjson;charset=utf-8;base64,eyJ2ZX/s.js"; "/a/b.js"; "http://hh/c.js"; "../../d.js"]%string)
  /\ c98_sources c98_url (Some (lit "src")) (map lit ["s.js"; "/a.js"]%string)
  = Ok (map lit ["../applicationjson;charset=utf-8;base64,eyJ2ZX/src/s.js";
                 "../applicationjson;charset=utf-8;base64,eyJ2ZX/src/a.js"]%string)
  /\ c98_sources c98_url None [lit "a/.."] = Panic PUnwrapNone
  /\ c98_sources c98_url None [] = Ok []
  (* without a '/' nothing is left of the URL, so only maps without sources open *)
  /\ c98_sources (lit "node:fs") None [lit "s.js"] = Panic PUnwrapNone
  /\ c98_sources (lit "node:fs") None [] = Ok []
  (* but for its ".." and its query and fragment *)
  /\ c98_sources (lit "node:a..b") None [lit "s.js"] = Ok [lit "../s.js"]
  /\ c98_sources (lit "node:fs?q=1#f") None [lit "s.js"] = Ok [lit "q=1f/s.js"].
Proof. vm_compute. repeat split; reflexivity. Qed.

Example C98_instance : data_map c98_url c98_dir
  /\ acceptable_at (Some c98_dir) None (RRel (mkPath [] (lit "s.js")) None None)
  /\ ~ acceptable_at (Some c98_dir) None (RRel (mkPath [lit "a"] dotdot) None None).
Proof.
  split.
  - exists (lit "data"), c98_text, None, None. split; [reflexivity|]. split.
    { split; [exists (ch "d"), (lit "ata"); repeat split; repeat constructor|].
      intros H. cbn in H. repeat destruct H as [H|H]; try discriminate H; exact H. }
    split; [split; [discriminate|split; [discriminate|repeat constructor]]|]. split; [exact I|]. split; [exact I|].
    split; [discriminate|]. split; [|split; [split; [split; repeat constructor; discriminate|]|discriminate];
      split; [exact I|]; split; [exact I|discriminate]].
    exists 0%nat. split; [change 0%nat with (count_dotdot (opaque_url (lit "data") c98_text None None)); apply count_max|].
    left. exists (lit "application/json;charset=utf-8;base64,eyJ2ZX"), (lit "Jz+aW9=").
    split; [reflexivity|]. split; [intros H; vm_compute in H; repeat destruct H as [H|H]; try discriminate H; exact H|reflexivity].
  - split; [split; [discriminate|split; discriminate]|]. intros [_ [X _]]. apply X. reflexivity.
Qed.

Example C98_no_slash : data_map (lit "node:fs") (RRel (mkPath [] []) None None)
  /\ (forall root s, ~ acceptable_at (Some (RRel (mkPath [] []) None None)) root s)
  /\ data_map (lit "node:a..b") (RRel (mkPath [] dotdot) None None)
  /\ acceptable_at (Some (RRel (mkPath [] dotdot) None None)) None (RRel (mkPath [] (lit "s.js")) None None).
Proof.
  assert (N : any_scheme (lit "node")).
  { split; [exists (ch "n"), (lit "ode"); repeat split; repeat constructor|].
    intros H. cbn in H. repeat destruct H as [H|H]; try discriminate H; exact H. }
  split; [|split; [|split]].
  - exists (lit "node"), (lit "fs"), None, None. split; [reflexivity|]. split; [exact N|].
    split; [split; [discriminate|split; [discriminate|repeat constructor]]|]. split; [exact I|]. split; [exact I|].
    split; [discriminate|]. split.
    + exists 0%nat. split; [change 0%nat with (count_dotdot (opaque_url (lit "node") (lit "fs") None None)); apply count_max|].
      right. split; [|reflexivity]. intros H. cbn in H. repeat destruct H as [H|H]; try discriminate H; exact H.
    + intros X. exfalso. apply X. reflexivity.
  - intros root s [_ [_ X]]. apply X. reflexivity.
  - exists (lit "node"), (lit "a..b"), None, None. split; [reflexivity|]. split; [exact N|].
    split; [split; [discriminate|split; [discriminate|repeat constructor]]|]. split; [exact I|]. split; [exact I|].
    split; [discriminate|]. split.
    + exists 1%nat. split; [change 1%nat with (count_dotdot (opaque_url (lit "node") (lit "a..b") None None)); apply count_max|].
      right. split; [|reflexivity]. intros H. cbn in H. repeat destruct H as [H|H]; try discriminate H; exact H.
    + intros _. split; [split; [split; repeat constructor; discriminate|]; split; [exact I|]; split; [exact I|discriminate]|discriminate].
  - split; [discriminate|split; discriminate].
Qed.
