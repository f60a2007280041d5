(** * C45: from the generator to the consumer

    [ops] is any history of calls on the generator, [qs] any history of calls on
    the consumer that was opened on its output. *)
From Verif Require Import Base M_ArraySet M_Mapping M_Util M_SourceMap M_Generator M_Json M_MapLib M_Consumer
  M_Indexed  S_Vlq S_List S_Decode S_Mapping S_Generator S_Far S_MapLib S_Consumer S_EndToEnd F_Generator F_UrlRef F_MapLibRef F_EndToEnd.
From Coq Require Import Sorting.Permutation.

(** each_mapping reports [l], which stands for the mappings [r]; these are the
    mappings of the map [r0] in order of generated position. *)
Theorem C45_end_to_end : forall (md : mode) (L : MapLib) (U : UrlLib) (contract : MapLibOk L)
    (file root : option str) (skip : bool) (ops : list gen_op) (g : Generator) (url : option str)
    (c0 : BasicConsumer L) (lookup : option str) (qs : list query) (c : BasicConsumer L)
    (valid : Forall valid_mapping (added_mappings ops))
    (near : steps_fit ops)
    (few : few_names (2^30) (added_mappings ops))
    (run : gen_run md U (gen_new file root skip) ops = Ok g)
    (opens : opened_on md L U g url c0 lookup) (history : asked md L U c0 qs = Ok c),
  exists l sources names r r0, reports L c l
    /\ smj_sources (bc_source_map c0) = Some sources /\ smj_names (bc_source_map c0) = Some names
    /\ resolve sources names l = Some r
    /\ (forall x, In x r <-> exists m, In m (added_mappings ops) /\ x = written m)
    /\ gen_sorted r
    /\ read_json (bc_source_map c0) = Some r0 /\ Permutation r r0.
Proof. exact end_to_end. Qed.
Print Assumptions C45_end_to_end.

(** Opening only fails where a source has no URL. *)
Theorem C45_opens : forall (md : mode) (L : MapLib) (U : UrlLib)
    (file root : option str) (skip : bool) (ops : list gen_op) (url : option str)
    (valid : Forall encodable (added_mappings ops))
    (few : few_names 2147483648 (added_mappings ops)) (contents : root = None \/ no_content ops),
  exists g s g', gen_run md U (gen_new file root skip) ops = Ok g /\ gen_as_string md U g = Ok (s, g') /\
  match mapM (fun s => compute_source_url md U root s url)
             (distinct (present (map m_source (added_mappings ops)))) with
  | Panic p => bc_from_source_map md L U g url = Panic p
               /\ forall order, create_consumer md L U order s url = Panic p
  | Ok urls => (exists c, bc_from_source_map md L U g url = Ok (c, g') /\ bc_get_sources L c = urls)
               /\ exists c, bc_get_sources L c = urls
                  /\ forall order, create_consumer md L U order s url = Ok (Some (CBasic c))
  end.
Proof. exact end_to_end_opens. Qed.
Print Assumptions C45_opens.

Definition c45_ops : list gen_op :=
  [GAdd (mkMapping (mkPos 3 7) (Some (mkPos 2 5)) (Some (lit "b.js")) (Some (lit "x")) None);
   GJson;
   GAdd (mkMapping (mkPos 1 0) None None None (Some 9));
   GAdd (mkMapping (mkPos 3 7) (Some (mkPos 2 5)) (Some (lit "b.js")) (Some (lit "x")) None);
   GAdd (mkMapping (mkPos 1 4) (Some (mkPos 9 1)) (Some (lit "a.js")) None None)].
Example C45_case :
  let opened := let* g := gen_run Debug RefUrl (gen_new None (Some (lit "src")) false) c45_ops in
                bc_from_source_map Debug RefLib RefUrl g (Some (lit "http://h/d/m.map")) in
  (let* r := opened in Ok (bc_get_sources RefLib (fst r))) = Ok [lit "http://h/d/src/b.js"; lit "http://h/d/src/a.js"]
  /\ (let* r := opened in let* c := asked Debug RefLib RefUrl (fst r) [QSpans; QEach OriginalOrd] in
      let* l := answer (bc_each_mapping RefLib c GeneratedOrd) in
      Ok (l, resolve [lit "b.js"; lit "a.js"] [lit "x"] l))
     = Ok ([mkRaw 0 0 (Some 4) None; mkRaw 0 4 None (Some (mkOrig 1 8 1 None)); mkRaw 2 7 None (Some (mkOrig 0 1 5 (Some 0)))],
           Some [mkMapping (mkPos 1 0) None None None None;
                 mkMapping (mkPos 1 4) (Some (mkPos 9 1)) (Some (lit "a.js")) None None;
                 mkMapping (mkPos 3 7) (Some (mkPos 2 5)) (Some (lit "b.js")) (Some (lit "x")) None]).
Proof. vm_compute. repeat split; reflexivity. Qed.
Example C45_instance : Forall valid_mapping (added_mappings c45_ops) /\ Forall small_mapping (added_mappings c45_ops)
  /\ few_names (2^30) (added_mappings c45_ops) /\ no_content c45_ops.
Proof.
  split; [repeat constructor; vm_compute; congruence|].
  split; [repeat constructor; vm_compute; congruence|]. split; [split; vm_compute; congruence|].
  intros s c H. cbn in H. repeat (destruct H as [H|H]; [discriminate|]). exact H.
Qed.
