(** * C60: builds with and without overflow checks *)
From Verif Require Import Base M_ArraySet M_Base64Vlq M_BinarySearch M_Mapping M_Util M_SourceMap M_Generator M_Json
  M_MapLib M_Consumer M_Indexed S_Mapping S_Generator S_Consumer S_Indexed S_Modes F_MappingList F_Generator
  F_UrlRef F_MapLibRef F_Modes.

Theorem C60_primitives :
  (forall v, same_unless_overflow (base64vlq_encode Debug v) (base64vlq_encode Release v))
  /\ (forall a b, same_unless_overflow (compare_by_generated_pos_inflated Debug a b)
                                       (compare_by_generated_pos_inflated Release a b))
  /\ (forall T1 T2 (compare1 : T1 -> T2 -> res Z) (compare2 : T2 -> T2 -> res Z) needle hay bias,
        same_unless_overflow (search Debug needle hay compare1 compare2 bias)
                             (search Release needle hay compare1 compare2 bias))
  /\ (forall ops, same_unless_overflow (let* l := ml_run Debug ml_new ops in ml_to_array Debug l)
                                       (let* l := ml_run Release ml_new ops in ml_to_array Release l)).
Proof. exact modes_primitives. Qed.
Print Assumptions C60_primitives.

Theorem C60_urls : forall (U : UrlLib),
  (forall root path, same_unless_overflow (url_join Debug U root path) (url_join Release U root path))
  /\ (forall root target, same_unless_overflow (relative Debug U root target) (relative Release U root target))
  /\ (forall root source url, same_unless_overflow (compute_source_url Debug U root source url)
                                                   (compute_source_url Release U root source url)).
Proof. exact modes_urls. Qed.
Print Assumptions C60_urls.

Theorem C60_generator : forall (U : UrlLib) (g : Generator) (ops : list gen_op),
  same_unless_overflow (let* g := gen_run Debug U g ops in gen_as_json Debug U g)
                       (let* g := gen_run Release U g ops in gen_as_json Release U g)
  /\ same_unless_overflow (let* g := gen_run Debug U g ops in gen_as_string Debug U g)
                          (let* g := gen_run Release U g ops in gen_as_string Release U g).
Proof. exact modes_generator. Qed.
Print Assumptions C60_generator.

Theorem C60_basic_consumer : forall (L : MapLib) (U : UrlLib) (open_ : mode -> res (BasicConsumer L))
    (opening : (exists s url, open_ = fun md => bc_new md L U s url)
         \/ (exists j url, open_ = fun md => bc_from_source_map_json md L U j url)
         \/ (exists g url, open_ = fun md => answer (bc_from_source_map md L U g url)))
    (qs : list query) (q : query),
  same_unless_overflow
    (let* c := open_ Debug in let* c := asked Debug L U c qs in basic_reply Debug L U c q)
    (let* c := open_ Release in let* c := asked Release L U c qs in basic_reply Release L U c q).
Proof. exact modes_basic. Qed.
Print Assumptions C60_basic_consumer.

Theorem C60_indexed_consumer : forall (L : MapLib) (U : UrlLib) (open_ : mode -> res (IndexedConsumer L))
    (opening : (exists order s url, open_ = fun md => ic_new md L U order s url)
         \/ (exists order j url, open_ = fun md => ic_from_source_map_json md L U order j url))
    (qs : list iquery) (q : iquery),
  same_unless_overflow
    (let* c := open_ Debug in let* c := iasked Debug L U c qs in indexed_reply Debug L U c q)
    (let* c := open_ Release in let* c := iasked Release L U c qs in indexed_reply Release L U c q).
Proof. exact modes_indexed. Qed.
Print Assumptions C60_indexed_consumer.

(** Both cases occur: an overflow is reported in one build and a wrong answer
    given in the other; other panics are the same in both. *)
Example C60_case :
  base64vlq_encode Debug i32_min = Panic POverflow /\ base64vlq_encode Release i32_min = Ok (lit "B")
  /\ base64vlq_encode Debug (-17) = Ok (lit "jB") /\ base64vlq_encode Release (-17) = Ok (lit "jB")
  /\ url_join Debug RefUrl [] (lit "ab") = Panic PUnwrapNone /\ url_join Release RefUrl [] (lit "ab") = Panic PUnwrapNone.
Proof. vm_compute. repeat split; reflexivity. Qed.

Definition c60_json : SourceMapJson :=
  mkSMJ 3 (Some [lit "a.js"]) (Some [lit "n"]) (Some (lit "AACAA;AAEA")) None None None None.
Example C60_consumer_case :
  let ask md q := let* c := bc_from_source_map_json md RefLib RefUrl c60_json None in basic_reply md RefLib RefUrl c q in
  let q := QGenerated (lit "a.js") 2 0 None in
  ask Debug q = ask Release q
  /\ ask Debug q = Ok (RMapping (Some (mkMapping (mkPos 1 0) (Some (mkPos 1 0)) (Some (lit "a.js")) (Some (lit "n")) None)))
  /\ ask Debug (QGenerated (lit "a.js") 0 0 None) = Panic PLine
  /\ ask Release (QGenerated (lit "a.js") 0 0 None) = Panic PLine.
Proof. vm_compute. repeat split; reflexivity. Qed.
