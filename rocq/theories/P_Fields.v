(** * C114: which fields of a map a consumer reads *)
From Verif Require Import Base M_ArraySet M_Mapping M_Util M_SourceMap M_Json M_MapLib M_Consumer M_Indexed
  S_Consumer S_Indexed S_Quiet S_Fields F_UrlRef F_MapLibRef F_Fields F_FieldsIndexed.

(** Two plain maps with the same sources, root, names and mappings (whatever their versions, files and contents): both
    open or neither does, and any calls that do not ask for contents leave consumers with the same answers, or end in
    the same panic. *)
Theorem C114_places : forall (md : mode) (L : MapLib) (U : UrlLib) (j j' : SourceMapJson) (url : option str) (qs : list query)
    (same : same_places j j') (calls : Forall (fun q => asks_text q = false) qs),
  alike (same_place_answers md L U) (let* c := bc_from_source_map_json md L U j url in asked md L U c qs)
                                    (let* c := bc_from_source_map_json md L U j' url in asked md L U c qs).
Proof. exact places_json. Qed.
Print Assumptions C114_places.

Theorem C114_places_new : forall (md : mode) (L : MapLib) (U : UrlLib) (t t' : str) (j j' : SourceMapJson) (url : option str)
    (qs : list query) (text : smj_from_str t = Some j) (text' : smj_from_str t' = Some j')
    (same : same_places j j') (calls : Forall (fun q => asks_text q = false) qs),
  alike (same_place_answers md L U) (let* c := bc_new md L U t url in asked md L U c qs)
                                    (let* c := bc_new md L U t' url in asked md L U c qs).
Proof. exact places_new. Qed.
Print Assumptions C114_places_new.

Theorem C114_places_create : forall (md : mode) (L : MapLib) (U : UrlLib) (t t' : str) (j j' : SourceMapJson) (order : list nat)
    (url : option str) (qs : list query) (text : smj_from_str t = Some j) (text' : smj_from_str t' = Some j')
    (plain : smj_sections j = None) (plain' : smj_sections j' = None)
    (same : same_places j j') (calls : Forall (fun q => asks_text q = false) qs),
  alike (same_place_answers md L U)
    (let* o := create_consumer md L U order t url in let* c := unwrap o in let* c := as_basic_consumer L c in asked md L U c qs)
    (let* o := create_consumer md L U order t' url in let* c := unwrap o in let* c := as_basic_consumer L c in asked md L U c qs).
Proof. exact created_places. Qed.
Print Assumptions C114_places_create.

(** Contents: versions, files, names and mappings (even malformed or missing ones) do not matter. *)
Theorem C114_texts : forall (md : mode) (L : MapLib) (U : UrlLib) (j j' : SourceMapJson) (url : option str) (qs : list query)
    (same : same_texts j j') (calls : Forall (fun q => asks_text q = true) qs),
  alike (same_text_answers md L U) (let* c := bc_from_source_map_json md L U j url in asked md L U c qs)
                                   (let* c := bc_from_source_map_json md L U j' url in asked md L U c qs).
Proof. exact texts_json. Qed.
Print Assumptions C114_texts.

Theorem C114_texts_new : forall (md : mode) (L : MapLib) (U : UrlLib) (t t' : str) (j j' : SourceMapJson) (url : option str)
    (qs : list query) (text : smj_from_str t = Some j) (text' : smj_from_str t' = Some j')
    (same : same_texts j j') (calls : Forall (fun q => asks_text q = true) qs),
  alike (same_text_answers md L U) (let* c := bc_new md L U t url in asked md L U c qs)
                                   (let* c := bc_new md L U t' url in asked md L U c qs).
Proof. exact texts_new. Qed.
Print Assumptions C114_texts_new.

(** Indexed maps: of the map itself only the version and the sections are read. *)
Theorem C114_indexed : forall (md : mode) (L : MapLib) (U : UrlLib) (j j' : SourceMapJson) (order : list nat) (url : option str)
    (qs : list iquery) (version : smj_version j = smj_version j') (sections : smj_sections j = smj_sections j'),
  alike (same_ianswers md L U) (let* c := ic_from_source_map_json md L U order j url in iasked md L U c qs)
                               (let* c := ic_from_source_map_json md L U order j' url in iasked md L U c qs).
Proof. exact indexed_json. Qed.
Print Assumptions C114_indexed.

Theorem C114_indexed_new : forall (md : mode) (L : MapLib) (U : UrlLib) (t t' : str) (j j' : SourceMapJson) (order : list nat)
    (url : option str) (qs : list iquery) (text : smj_from_str t = Some j) (text' : smj_from_str t' = Some j')
    (version : smj_version j = smj_version j') (sections : smj_sections j = smj_sections j'),
  alike (same_ianswers md L U) (let* c := ic_new md L U order t url in iasked md L U c qs)
                               (let* c := ic_new md L U order t' url in iasked md L U c qs).
Proof. exact indexed_new. Qed.
Print Assumptions C114_indexed_new.

(** Of the sections, only the offset, the presence of a url, and the sources, root, names, mappings and contents of the map *)
Theorem C114_sections : forall (md : mode) (L : MapLib) (U : UrlLib) (j j' : SourceMapJson) (secs secs' : list JSection)
    (order : list nat) (url : option str) (qs : list iquery) (version : smj_version j = smj_version j')
    (sections : smj_sections j = Some secs) (sections' : smj_sections j' = Some secs') (same : Forall2 same_section secs secs'),
  alike (same_ianswers md L U) (let* c := ic_from_source_map_json md L U order j url in iasked md L U c qs)
                               (let* c := ic_from_source_map_json md L U order j' url in iasked md L U c qs).
Proof. exact sections_json. Qed.
Print Assumptions C114_sections.

Theorem C114_sections_new : forall (md : mode) (L : MapLib) (U : UrlLib) (t t' : str) (j j' : SourceMapJson) (secs secs' : list JSection)
    (order : list nat) (url : option str) (qs : list iquery)
    (text : smj_from_str t = Some j) (text' : smj_from_str t' = Some j') (version : smj_version j = smj_version j')
    (sections : smj_sections j = Some secs) (sections' : smj_sections j' = Some secs') (same : Forall2 same_section secs secs'),
  alike (same_ianswers md L U) (let* c := ic_new md L U order t url in iasked md L U c qs)
                               (let* c := ic_new md L U order t' url in iasked md L U c qs).
Proof. exact sections_new. Qed.
Print Assumptions C114_sections_new.

(** ** Examples *)
Definition c114_one : str := lit "{""version"":3,""file"":""out.js"",""sources"":[""a.js""],""names"":[""x""],""mappings"":"";AAAAA"",""sourcesContent"":[""one""]}".
(** another version, no file, no contents *)
Definition c114_two : str := lit "{""version"":7,""sources"":[""a.js""],""names"":[""x""],""mappings"":"";AAAAA""}".
(** malformed mappings, no names *)
Definition c114_three : str := lit "{""version"":3,""sources"":[""a.js""],""names"":[],""mappings"":""!"",""sourcesContent"":[""one""]}".
Definition c114_asks {A} (t : str) (f : BasicConsumer RefLib -> res A) : res A := let* c := bc_new Debug RefLib RefUrl t None in f c.
Definition c114_original (c : BasicConsumer RefLib) : res (option Mapping) :=
  answer (bc_original_position_for Debug RefLib c (mkPos 1 0) (Some LeastUpperBound)).
Definition c114_content (c : BasicConsumer RefLib) : res (option str) :=
  answer (bc_source_content_for Debug RefLib RefUrl c (lit "a.js") (Some false)).

Example C114_case :
  c114_asks c114_one c114_original = Ok (Some (mkMapping (mkPos 2 0) (Some (mkPos 1 0)) (Some (lit "a.js")) (Some (lit "x")) None))
  /\ c114_asks c114_two c114_original = c114_asks c114_one c114_original
  /\ c114_asks c114_one c114_content = Ok (Some (lit "one"))
  /\ c114_asks c114_two c114_content = Ok None
  /\ c114_asks c114_three c114_content = Ok (Some (lit "one"))
  /\ (exists p, c114_asks c114_three c114_original = Panic p).
Proof. repeat split; try (vm_compute; reflexivity). eexists. vm_compute. reflexivity. Qed.

Example C114_instance : exists j j' j'' : SourceMapJson,
  smj_from_str c114_one = Some j /\ smj_from_str c114_two = Some j' /\ smj_from_str c114_three = Some j''
  /\ same_places j j' /\ ~ same_texts j j' /\ same_texts j j'' /\ ~ same_places j j''.
Proof.
  eexists. eexists. eexists. split; [vm_compute; reflexivity|]. split; [vm_compute; reflexivity|]. split; [vm_compute; reflexivity|].
  unfold same_places, same_texts. cbn. repeat split; intros H; decompose [and] H; congruence.
Qed.

(** Indexed maps whose own sources, names and mappings differ (those of the second are malformed) *)
Definition c114_inner (version fields inner : string) : str :=
  lit ("{""version"":" ++ version ++ "," ++ fields ++ ",""sections"":[{""offset"":{""line"":0,""column"":0},""map"":"
       ++ "{""version"":" ++ inner ++ ",""sources"":[""a.js""],""names"":[""x""],""mappings"":"";AAAAA""}}]}").
Definition c114_index (version fields : string) : str := c114_inner version fields "3".
Definition c114_fields : string := """sources"":[""b.js""],""names"":[],""mappings"":""!"",""file"":""b""".
Definition c114_none : string := """sources"":[],""names"":[],""mappings"":""""".
Definition c114_iasks {A} (t : str) (f : IndexedConsumer RefLib -> res A) : res A :=
  let* c := ic_new Debug RefLib RefUrl [0%nat] t None in f c.
Definition c114_isources (c : IndexedConsumer RefLib) : res (list str) := answer (ic_get_sources RefLib c).
Definition c114_ioriginal (c : IndexedConsumer RefLib) : res (option Mapping) :=
  answer (ic_original_position_for Debug RefLib c (mkPos 1 1) (Some LeastUpperBound)).

Example C114_indexed_case :
  c114_iasks (c114_index "3" c114_none) c114_isources = Ok [lit "a.js"]
  /\ c114_iasks (c114_index "3" c114_fields) c114_isources = Ok [lit "a.js"]
  /\ c114_iasks (c114_index "3" c114_none) c114_ioriginal
     = Ok (Some (mkMapping (mkPos 2 0) (Some (mkPos 1 0)) (Some (lit "a.js")) (Some (lit "x")) None))
  /\ c114_iasks (c114_index "3" c114_fields) c114_ioriginal = c114_iasks (c114_index "3" c114_none) c114_ioriginal
  /\ c114_iasks (c114_index "7" c114_none) c114_isources = Panic PVersion
  (* the version and the file of a section's map *)
  /\ c114_iasks (c114_inner "3" c114_none "8,""file"":""c""") c114_ioriginal = c114_iasks (c114_index "3" c114_none) c114_ioriginal.
Proof. repeat split; vm_compute; reflexivity. Qed.

Example C114_sections_instance : exists j j' secs secs',
  smj_from_str (c114_index "3" c114_none) = Some j /\ smj_from_str (c114_inner "3" c114_none "8,""file"":""c""") = Some j'
  /\ smj_sections j = Some secs /\ smj_sections j' = Some secs' /\ Forall2 same_section secs secs' /\ secs <> secs'.
Proof.
  eexists. eexists. eexists. eexists. split; [vm_compute; reflexivity|]. split; [vm_compute; reflexivity|]. split; [reflexivity|]. split; [reflexivity|].
  split; [repeat constructor|discriminate].
Qed.

(** An expectation that does not hold: a plain map of another version is refused (an indexed one is). *)
Theorem C114_version_refuted : exists (t : str) (j : SourceMapJson) (c : BasicConsumer RefLib),
  smj_from_str t = Some j /\ smj_version j <> 3 /\ bc_new Debug RefLib RefUrl t None = Ok c.
Proof.
  exists c114_two. eexists. eexists. split; [vm_compute; reflexivity|]. split; [cbn; discriminate|]. unfold bc_new.
  vm_compute smj_from_str. reflexivity.
Qed.
Print Assumptions C114_version_refuted.
