(** * C79, C39: the views of a consumer, consume and create_consumer *)
From Verif Require Import Base M_ArraySet M_Mapping M_Util M_SourceMap M_Json M_MapLib M_Consumer M_Indexed
  S_Json S_Consumer F_UrlRef F_MapLibRef F_Views.

(** A created consumer has exactly the view of its kind. *)
Theorem C79_views : forall (md : mode) (L : MapLib) (U : UrlLib) (order : list nat) (s : str) (url : option str)
    (m : SourceMapJson) (c : Consumer L) (text : map_text s m)
    (created : create_consumer md L U order s url = Ok (Some c)),
  (smj_sections m = None ->
     exists b, as_basic_consumer L c = Ok b /\ try_as_basic_consumer L c = Some b /\ bc_source_map b = m
       /\ as_indexed_consumer L c = Panic PNotThatConsumer /\ try_as_indexed_consumer L c = None)
  /\ (smj_sections m <> None ->
     exists i, as_indexed_consumer L c = Ok i /\ try_as_indexed_consumer L c = Some i /\ ic_source_map i = m
       /\ as_basic_consumer L c = Panic PNotThatConsumer /\ try_as_basic_consumer L c = None).
Proof. exact views. Qed.
Print Assumptions C79_views.

(** BasicConsumer::consume hands over a consumer of the text, like the one created. *)
Theorem C79_consume_basic : forall (md : mode) (L : MapLib) (U : UrlLib) (s url : str),
  (~ (exists m, map_text s m) -> bc_consume md L U s url = Panic PUnwrapErr)
  /\ (forall m, map_text s m ->
      (smj_sources m = None -> bc_consume md L U s url = Panic PUnwrapNone)
      /\ (forall srcs, smj_sources m = Some srcs ->
          ((exists c, bc_consume md L U s url = Ok c)
           <-> Forall (fun x => exists u, compute_source_url md U (smj_source_root m) x (Some url) = Ok u) srcs))
      /\ (forall c, bc_consume md L U s url = Ok c -> smj_sections m = None -> forall order,
          exists b, create_consumer md L U order s (Some url) = Ok (Some (CBasic b))
            /\ bc_source_map c = m /\ bc_source_map b = m /\ bc_get_sources L c = bc_get_sources L b
            /\ (forall g bias, answer (bc_original_position_for md L c g bias) = answer (bc_original_position_for md L b g bias))
            /\ (forall o, answer (bc_each_mapping L c o) = answer (bc_each_mapping L b o)))).
Proof. exact consume_basic. Qed.
Print Assumptions C79_consume_basic.

Theorem C79_consume_indexed : forall (md : mode) (L : MapLib) (U : UrlLib) (order : list nat) (s url : str),
  (~ (exists m, map_text s m) -> ic_consume md L U order s url = Panic PUnwrapErr)
  /\ (forall m, map_text s m ->
      (smj_sections m = None -> smj_version m = 3 -> ic_consume md L U order s url = Panic PUnwrapNone)
      /\ (smj_version m <> 3 -> ic_consume md L U order s url = Panic PVersion)
      /\ (smj_sections m <> None -> forall c,
          ic_consume md L U order s url = Ok c <-> create_consumer md L U order s (Some url) = Ok (Some (CIndexed c)))).
Proof. exact consume_indexed. Qed.
Print Assumptions C79_consume_indexed.

(** There is no way to consume a map without a URL: the empty one does not open
    a map with a source. *)
Theorem C79_empty_url_refuted : exists (s : str) (c : BasicConsumer RefLib),
  bc_new Debug RefLib RefUrl s None = Ok c /\ bc_consume Debug RefLib RefUrl s [] = Panic PUnwrapNone.
Proof.
  exists (lit "{""version"":3,""sources"":[""a.js""],""mappings"":""""}"). eexists. split; reflexivity.
Qed.
Print Assumptions C79_empty_url_refuted.

Example C79_case :
  let basic := lit "{""version"":3,""sources"":[""a.js""],""mappings"":""CAAE""}" in
  let indexed := lit "{""version"":3,""sections"":[{""offset"":{""line"":0,""column"":0},""map"":{""version"":3,""sources"":[""a.js""],""mappings"":""""}}]}" in
  let both := lit "{""version"":3,""sources"":[""a.js""],""mappings"":"""",""sections"":[]}" in
  let kind s := let* o := create_consumer Debug RefLib RefUrl [0%nat] s None in
                Ok (match o with
                    | Some c => (is_ok (as_basic_consumer RefLib c), is_some (try_as_basic_consumer RefLib c),
                                 is_ok (as_indexed_consumer RefLib c), is_some (try_as_indexed_consumer RefLib c))
                    | None => (false, false, false, false)
                    end) in
  let url := lit "http://ab.c/x/app.map" in
  kind basic = Ok (true, true, false, false) /\ kind indexed = Ok (false, false, true, true)
  /\ kind (lit "{") = Ok (false, false, false, false)
  /\ (let* c := bc_consume Debug RefLib RefUrl basic url in Ok (bc_get_sources RefLib c)) = Ok [lit "http://ab.c/x/a.js"]
  /\ is_ok (ic_consume Debug RefLib RefUrl [0%nat] indexed url) = true
  (* the wrong kind of text panics, unless it has both *)
  /\ is_ok (bc_consume Debug RefLib RefUrl indexed url) = false
  /\ is_ok (ic_consume Debug RefLib RefUrl [] basic url) = false
  /\ is_ok (bc_consume Debug RefLib RefUrl both url) = true /\ is_ok (ic_consume Debug RefLib RefUrl [] both url) = true.
Proof. vm_compute. repeat split; reflexivity. Qed.

(** ** C39: create_consumer *)

(** Both list the same sources; [new] looks a source up with the URL,
    create_consumer without. *)
Theorem C39_created : forall (md : mode) (L : MapLib) (U : UrlLib) (order : list nat) (s : str) (url : option str)
    (m : SourceMapJson) (c : BasicConsumer L)
    (text : map_text s m) (basic : smj_sections m = None) (new : bc_new md L U s url = Ok c),
  exists c', create_consumer md L U order s url = Ok (Some (CBasic c'))
    /\ bc_source_map c' = m /\ bc_get_sources L c' = bc_get_sources L c
    /\ (len (bc_get_sources L c) < 2^31 -> forall src,
        let find (u : option str) := match index_of_source md U (smj_source_root m) u (bc_get_sources L c) src with
                                     | Ok r => Ok (option_map Z.of_nat r)
                                     | Panic p => Panic p
                                     end in
        answer (bc_find_source_index md L U c src) = find url
        /\ answer (bc_find_source_index md L U c' src) = find None).
Proof. exact created_lookup. Qed.
Print Assumptions C39_created.

Definition c39_map : str := lit "{""version"":3,""sources"":[""b.js""],""mappings"":""""}".
Definition c39_url : option str := Some (lit "http://h/d/m.map").
Example C39_created_case :
  let new := bc_new Debug RefLib RefUrl c39_map c39_url in
  let created := let* c := create_consumer Debug RefLib RefUrl [] c39_map c39_url in
                 match c with Some c => as_basic_consumer RefLib c | None => Panic PUnwrapNone end in
  let sources x := let* c := x in Ok (bc_get_sources RefLib c) in
  let find x src := let* c := x in answer (bc_find_source_index Debug RefLib RefUrl c (lit src)) in
  sources new = Ok [lit "http://h/d/b.js"] /\ sources created = sources new
  /\ find new "b.js"%string = Ok (Some 0) /\ find created "b.js"%string = Ok None
  /\ find new "http://h/d/b.js"%string = Ok (Some 0) /\ find created "http://h/d/b.js"%string = Ok (Some 0).
Proof. vm_compute. repeat split; reflexivity. Qed.
