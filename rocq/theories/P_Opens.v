(** * C89: which plain maps open, and where their sources are *)
From Verif Require Import Base M_Util M_SourceMap M_Json M_MapLib M_Consumer M_Indexed
  S_Url S_Refs S_Opens F_UrlRef F_MapLibRef F_Opens.

Theorem C89_opens_exactly : forall (md : mode) (U : UrlLib) (url_crate : UrlContract U) (L : MapLib)
    (order : list nat) (t : str) (j : SourceMapJson) (root : option ref) (ss : list ref)
    (map_of : smj_from_str t = Some j) (plain_map : smj_sections j = None)
    (sources : smj_sources j = Some (map ref_text ss))
    (source_root : smj_source_root j = option_map ref_text root)
    (chars_r : root_ref root) (chars : Forall source_ref ss)
    (bound : Forall (fun s => root_length root + len (ref_text s) <= 2147483643) ss),
  (Forall (acceptable root) ss ->
   exists c c', create_consumer md L U order t None = Ok (Some (CBasic c)) /\ bc_new md L U t None = Ok c'
     /\ bc_get_sources L c = map (fun s => ref_text (location root s)) ss
     /\ bc_get_sources L c' = map (fun s => ref_text (location root s)) ss)
  /\ (~ Forall (acceptable root) ss ->
      create_consumer md L U order t None = Panic PUnwrapNone /\ bc_new md L U t None = Panic PUnwrapNone).
Proof. exact opens_exactly. Qed.
Print Assumptions C89_opens_exactly.

Definition c89_map (root : option ref) (ss : list ref) : SourceMapJson :=
  mkSMJ 3 (Some (map ref_text ss)) (Some []) (Some []) None (option_map ref_text root) None None.
Definition c89_sources (root : option ref) (ss : list ref) : res (list str) :=
  let* c := bc_new Debug RefLib RefUrl (smj_to_string (c89_map root ss)) None in Ok (bc_get_sources RefLib c).

(** As written: a/./b.js, /a/../b.js, //hh/../a?b, http://hh/a *)
Definition c89_some : list ref :=
  [RRel (mkPath [lit "a"; dot] (lit "b.js")) None None; RAbs (mkPath [lit "a"; dotdot] (lit "b.js")) None None;
   RNet (lit "hh") (mkPath [dotdot] (lit "a")) (Some (lit "b")) None;
   RUrl (mkOrigin (lit "http") (lit "hh")) (mkPath [] (lit "a")) None None].
Definition c89_root : ref := RRel (mkPath [lit "x"] (lit "src")) (Some (lit "v")) None.
(** a/.., and x *)
Definition c89_gone : ref := RRel (mkPath [lit "a"] dotdot) None None.
Definition c89_short : ref := RRel (mkPath [] (lit "x")) None None.

Lemma c89_host : plain_host (lit "hh").
Proof. exists [lit "hh"]. split; [discriminate|]. split; [repeat constructor; discriminate|reflexivity]. Qed.

Example C89_case :
  Forall source_ref c89_some /\ source_ref c89_gone /\ source_ref c89_short /\ root_ref (Some c89_root)
  /\ Forall (acceptable None) c89_some /\ Forall (acceptable (Some c89_root)) c89_some
  /\ acceptable None c89_gone /\ ~ acceptable (Some c89_root) c89_gone
  /\ ~ acceptable None c89_short /\ ~ acceptable (Some c89_root) c89_short
  /\ c89_sources None (c89_gone :: c89_some)
     = Ok (map lit [""; "a/b.js"; "/b.js"; "//hh/a?b"; "http://hh/a"]%string)
  /\ c89_sources (Some c89_root) c89_some
     = Ok (map lit ["x/src/a/b.js"; "x/src/b.js"; "//hh/a?b"; "http://hh/a"]%string)
  /\ c89_sources (Some c89_root) (c89_some ++ [c89_gone]) = Panic PUnwrapNone
  /\ c89_sources None (c89_short :: c89_some) = Panic PUnwrapNone.
Proof.
  split.
  { unfold c89_some. repeat apply Forall_cons; [| | | |constructor].
    - split; [split; repeat constructor; discriminate|]. split; [exact I|]; split; [exact I|right; split; reflexivity].
    - split; [split; repeat constructor; discriminate|]. split; [exact I|]; split; [exact I|right; split; reflexivity].
    - split; [exact c89_host|]. split; [split; repeat constructor; discriminate|]. split; [repeat constructor|exact I].
    - split; [left; left|]. 2: { split; [split; repeat constructor; discriminate|]. split; exact I. }
      split; [left; reflexivity|]. split; [exact c89_host|]. split; [split; [constructor|exact I]|exact I]. }
  split; [split; [split; repeat constructor; discriminate|]; split; [exact I|]; split; [exact I|right; split; reflexivity]|].
  split; [split; [split; repeat constructor; discriminate|]; split; [exact I|]; split; [exact I|right; split; reflexivity]|].
  split.
  { split; [|split; discriminate]. split; [|discriminate]. split; [split; repeat constructor; discriminate|].
    split; [repeat constructor|]. split; [exact I|discriminate]. }
  split; [repeat apply Forall_cons; try discriminate; constructor|].
  split; [repeat apply Forall_cons; try discriminate; try (split; discriminate); constructor|].
  split; [discriminate|].
  split; [intros [_ H]; apply H; reflexivity|]. split; [intros H; apply H; reflexivity|].
  split; [intros [H _]; apply H; reflexivity|].
  vm_compute. repeat split; reflexivity.
Qed.

(** a/./App.vue?vue&type=script#x, /a.vue?v and .?. *)
Definition c89_marked : list ref :=
  [RRel (mkPath [lit "a"; dot] (lit "App.vue")) (Some (lit "vue&type=script")) (Some (lit "x"));
   RAbs (mkPath [] (lit "a.vue")) (Some (lit "v")) None; RRel (mkPath [] dot) (Some dot) None].
Example C89_markers :
  Forall source_ref c89_marked /\ Forall (acceptable None) c89_marked
  /\ acceptable (Some c89_root) (RRel (mkPath [lit "a"; dot] (lit "App.vue")) (Some (lit "vue&type=script")) (Some (lit "x")))
  /\ ~ acceptable (Some c89_root) (RRel (mkPath [] dot) (Some dot) None)
  /\ c89_sources None c89_marked = Ok (map lit ["a/App.vuevue&type=scriptx"; "/a.vue?v"; "."]%string)
  /\ c89_sources (Some c89_root) (firstn 2 c89_marked)
     = Ok (map lit ["x/src/a/App.vuevue&type=scriptx"; "x/src/a.vuev"]%string)
  /\ c89_sources (Some c89_root) c89_marked = Panic PUnwrapNone.
Proof.
  split.
  { unfold c89_marked. repeat apply Forall_cons; [| | |constructor].
    - split; [split; repeat constructor; discriminate|]. split; [repeat constructor|]. split; [repeat constructor|left; discriminate].
    - split; [split; repeat constructor; discriminate|]. split; [repeat constructor|]. split; [exact I|left; discriminate].
    - split; [split; repeat constructor; discriminate|]. split; [repeat constructor|]. split; [exact I|left; discriminate]. }
  split; [repeat apply Forall_cons; try discriminate; constructor|].
  split; [split; discriminate|]. split; [intros [_ H]; apply H; reflexivity|].
  vm_compute. repeat split; reflexivity.
Qed.
