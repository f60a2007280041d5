(** * C102: what a name finds among the sources of a consumer, for references of every kind *)
From Verif Require Import Base M_Mapping M_Util M_SourceMap M_Json M_MapLib M_Consumer M_Indexed
  S_List S_Url S_MapLib S_Consumer S_EndToEnd S_Refs S_MapUrl S_Opens S_OpensAt S_DataMap S_Lookup F_UrlRef F_MapLibRef F_Lookup.

(** After any history, find_source_index answers as [found] says, and nothing else. *)
Theorem C102_finds_exactly : forall (md : mode) (L : MapLib) (U : UrlLib) (url_crate : UrlContract U)
    (j : SourceMapJson) (url : option str) (c0 : BasicConsumer L) (lookup : option str)
    (qs : list query) (c : BasicConsumer L) (root e : option ref) (q : ref)
    (opens : opened_map md L U j url c0 lookup) (history : asked md L U c0 qs = Ok c)
    (source_root : smj_source_root j = option_map ref_text root)
    (few_sources : len (bc_get_sources L c0) < 2^31)
    (lookup_url : url_at lookup e) (chars_r : root_ref root) (chars : source_ref q)
    (bound : short_enough e None q) (bound_in_root : short_enough e root q),
  bc_get_sources L c = bc_get_sources L c0
  /\ forall r, answer (bc_find_source_index md L U c (ref_text q)) = r <-> found e root (bc_get_sources L c) q r.
Proof. exact finds_exactly. Qed.
Print Assumptions C102_finds_exactly.

(** Lookups use the map URL: every source is found by the name written in the map, unless nothing is left of
    that name without the root. *)
Theorem C102_written_names : forall (md : mode) (L : MapLib) (U : UrlLib) (url_crate : UrlContract U)
    (j : SourceMapJson) (m : option str) (d : option ref) (c0 : BasicConsumer L)
    (qs : list query) (c : BasicConsumer L) (root : option ref) (ss : list ref)
    (opens : opened_map md L U j m c0 m) (history : asked md L U c0 qs = Ok c)
    (sources : smj_sources j = Some (map ref_text ss)) (source_root : smj_source_root j = option_map ref_text root)
    (few_sources : len ss < 2^31)
    (map_url : url_at m d) (chars_r : root_ref root) (chars : Forall source_ref ss) (bound : Forall (short_enough d root) ss),
  bc_get_sources L c = map (fun s => ref_text (location_at d root s)) ss
  /\ forall s, In s ss -> short_enough d None s ->
     (acceptable_at d None s -> exists k, answer (bc_find_source_index md L U c (ref_text s)) = Ok (Some (Z.of_nat k))
        /\ (first_at (bc_get_sources L c) (ref_text (location_at d None s)) k
            \/ ~ In (ref_text (location_at d None s)) (bc_get_sources L c)
               /\ first_at (bc_get_sources L c) (ref_text (location_at d root s)) k))
     /\ (~ acceptable_at d None s -> answer (bc_find_source_index md L U c (ref_text s)) = Panic PUnwrapNone).
Proof. exact written_found. Qed.
Print Assumptions C102_written_names.

(** Every listed source of two characters or more is found by the name it is listed with, unless that is
    relative and lookups use the map URL. *)
Theorem C102_listed_names : forall (md : mode) (L : MapLib) (U : UrlLib) (url_crate : UrlContract U)
    (j : SourceMapJson) (m : option str) (d : option ref) (c0 : BasicConsumer L) (lookup : option str)
    (qs : list query) (c : BasicConsumer L) (root : option ref) (ss : list ref)
    (opens : opened_map md L U j m c0 lookup) (history : asked md L U c0 qs = Ok c)
    (sources : smj_sources j = Some (map ref_text ss)) (source_root : smj_source_root j = option_map ref_text root)
    (few_sources : len ss < 2^31)
    (map_url : url_at m d) (chars_r : root_ref root) (chars : Forall source_ref ss) (bound : Forall (short_enough d root) ss)
    (s : ref) (listed : In s ss) (markers : plain_markers s),
  let x := location_at d root s in
  forall (long_enough : 2 <= len (ref_text x)) (kind : lookup = None \/ ~ is_relative x)
    (bound_x : short_enough (looks_in lookup d) None x) (bound_in_root : short_enough (looks_in lookup d) root x),
  exists k, answer (bc_find_source_index md L U c (ref_text x)) = Ok (Some (Z.of_nat k))
    /\ first_at (bc_get_sources L c) (ref_text x) k.
Proof. exact listed_found. Qed.
Print Assumptions C102_listed_names.

Definition c102_map (root : option ref) (ss : list ref) : str :=
  smj_to_string (mkSMJ 3 (Some (map ref_text ss)) (Some []) (Some []) None (option_map ref_text root) None None).
Definition c102_list (m root : option ref) (ss : list ref) : res (list str) :=
  let* c := bc_new Debug RefLib RefUrl (c102_map root ss) (option_map ref_text m) in Ok (bc_get_sources RefLib c).
Definition c102_find (m root : option ref) (ss : list ref) (q : string) : res (option Z) :=
  let* c := bc_new Debug RefLib RefUrl (c102_map root ss) (option_map ref_text m) in
  answer (bc_find_source_index Debug RefLib RefUrl c (lit q)).
Definition c102_created (m root : option ref) (ss : list ref) (q : string) : res (option Z) :=
  let* o := create_consumer Debug RefLib RefUrl [] (c102_map root ss) (option_map ref_text m) in
  match o with
  | Some (CBasic c) => answer (bc_find_source_index Debug RefLib RefUrl c (lit q))
  | _ => Panic PMissing
  end.

(** /a/./b.js, //hh/c.js, http://hh/d.js, e.js, in the root /r *)
Definition c102_some : list ref :=
  [RAbs (mkPath [lit "a"; dot] (lit "b.js")) None None; RNet (lit "hh") (mkPath [] (lit "c.js")) None None;
   RUrl (mkOrigin (lit "http") (lit "hh")) (mkPath [] (lit "d.js")) (Some (lit "v")) None;
   RRel (mkPath [] (lit "e.js")) None None].
Definition c102_root : ref := RAbs (mkPath [] (lit "rr")) None None.
Definition c102_url : ref := RUrl (mkOrigin (lit "http") (lit "hh")) (mkPath [lit "d"] (lit "f.map")) None None.
Definition c102_rel : ref := RRel (mkPath [] (lit "src")) None None.
(** /../.. *)
Definition c102_up : ref := RAbs (mkPath [dotdot] dotdot) None None.

(** a.vue?v and http://hh/b.vue?v *)
Definition c102_marked : list ref :=
  [RRel (mkPath [] (lit "a.vue")) (Some (lit "v")) None;
   RUrl (mkOrigin (lit "http") (lit "hh")) (mkPath [] (lit "b.vue")) (Some (lit "v")) None].

Example C102_case :
  c102_list None (Some c102_root) c102_some = Ok (map lit ["/rr/a/b.js"; "//hh/c.js"; "http://hh/d.js?v"; "/rr/e.js"]%string)
  /\ map (c102_find None (Some c102_root) c102_some)
       ["/a/./b.js"; "/rr/a/b.js"; "a/b.js"; "//hh/c.js"; "//hh/../c.js"; "http://hh/d.js?v"; "http://hh/d.js"; "/e.js"; "x"; "x/.."]%string
     = [Ok (Some 0); Ok (Some 0); Ok (Some 0); Ok (Some 1); Ok (Some 1); Ok (Some 2); Ok None; Ok (Some 3); Panic PUnwrapNone; Panic PUnwrapNone]
  (* with a map URL, kept or not *)
  /\ c102_list (Some c102_url) None c102_some
     = Ok (map lit ["http://hh/a/b.js"; "http://hh/c.js"; "http://hh/d.js?v"; "http://hh/d/e.js"]%string)
  /\ map (c102_find (Some c102_url) None c102_some) ["/a/b.js"; "//hh/c.js"; "/d.js"; "e.js"; "http://hh/d/e.js"]%string
     = [Ok (Some 0); Ok (Some 1); Ok None; Ok (Some 3); Ok (Some 3)]
  /\ map (c102_created (Some c102_url) None c102_some) ["/a/b.js"; "//hh/c.js"; "e.js"; "http://hh/d/e.js"]%string
     = [Ok None; Ok None; Ok None; Ok (Some 3)]
  (* markers are lost, both in the list and in names *)
  /\ c102_list (Some c102_url) (Some c102_rel) c102_marked = Ok (map lit ["http://hh/d/src/a.vuev"; "http://hh/b.vue?v"]%string)
  /\ map (c102_find (Some c102_url) (Some c102_rel) c102_marked) ["a.vue?v"; "a.vuev"; "a.vue"; "http://hh/b.vue?v"; "/b.vue?v"]%string
     = [Ok (Some 0); Ok (Some 0); Ok None; Ok (Some 1); Ok (Some 1)]
  (* a source that is listed, and whose written name cannot be looked up *)
  /\ c102_list (Some c102_url) (Some c102_rel) [c102_up] = Ok [lit "http://hh/"]
  /\ c102_find (Some c102_url) (Some c102_rel) [c102_up] "/../.." = Panic PUnwrapNone
  /\ c102_find (Some c102_url) (Some c102_rel) [c102_up] "http://hh/" = Ok (Some 0).
Proof. vm_compute. repeat split; reflexivity. Qed.

Example C102_instance :
  let listed := map lit ["/rr/a/b.js"; "//hh/c.js"; "http://hh/d.js?v"; "/rr/e.js"]%string in
  let q := RAbs (mkPath [] (lit "e.js")) None None in
  source_ref q /\ root_ref (Some c102_root) /\ url_at None None
  /\ short_enough None None q /\ short_enough None (Some c102_root) q
  /\ found None (Some c102_root) listed q (Ok (Some 3))
  /\ ~ found None (Some c102_root) listed q (Ok None)
  /\ acceptable_at (Some c102_rel) (Some c102_rel) c102_up /\ ~ acceptable_at (Some c102_rel) None c102_up.
Proof.
  cbv zeta. split; [split; [split; repeat constructor; discriminate|]; split; [exact I|]; split; [exact I|right; split; reflexivity]|].
  split; [split; [split; [|discriminate]; split; [split; repeat constructor; discriminate|split; exact I]|exact I]|].
  split; [left; exists None; split; [reflexivity|exact I]|].
  split; [split; [discriminate|exact I]|]. split; [split; [discriminate|exact I]|].
  assert (A : forall r, acceptable_at None r (RAbs (mkPath [] (lit "e.js")) None None)).
  { intros [r|]; (split; [|exact I]); try discriminate. split; discriminate. }
  assert (F : found None (Some c102_root) (map lit ["/rr/a/b.js"; "//hh/c.js"; "http://hh/d.js?v"; "/rr/e.js"]%string)
                (RAbs (mkPath [] (lit "e.js")) None None) (Ok (Some (Z.of_nat 3)))).
  { apply found_in_root; [apply A| |apply A|].
    - intros H. vm_compute in H. repeat (destruct H as [H|H]; [discriminate|]). exact H.
    - split; [reflexivity|]. intros i Hi. do 3 (destruct i as [|i]; [discriminate|]). repeat apply le_n_S. apply Nat.le_0_l. }
  split; [exact F|]. split; [intros N; discriminate (found_fun _ _ _ _ _ _ F N)|].
  split; [split; [split; discriminate|split; discriminate]|]. intros [_ [X _]]. apply X. reflexivity.
Qed.
