(** * C82: adding again the mappings of a map *)
From Verif Require Import Base M_ArraySet M_Mapping M_Util M_SourceMap M_Generator
  S_List S_Decode S_Mapping S_Generator S_Far F_UrlRef F_Copy.
From Coq Require Import Sorting.Sorted.

Theorem C82_copy : forall (md : mode) (U : UrlLib) (file root : option str) (skip : bool)
    (ops : list gen_op) (g : Generator) (j : SourceMapJson) (g' : Generator)
    (md2 : mode) (U2 : UrlLib) (file2 root2 : option str) (skip2 : bool)
    (valid : Forall valid_mapping (added_mappings ops))
    (near : steps_fit ops)
    (few : few_names (2^30) (added_mappings ops))
    (run : gen_run md U (gen_new file root skip) ops = Ok g)
    (json : gen_as_json md U g = Ok (j, g')),
  exists r h k h', read_json j = Some r
    (* the mappings read, added to a new generator *)
    /\ gen_run md2 U2 (gen_new file2 root2 skip2) (map GAdd r) = Ok h /\ gen_as_json md2 U2 h = Ok (k, h')
    /\ read_json k = Some r
    /\ (forall s, (exists l, smj_sources k = Some l /\ In s l) <-> (exists l, smj_sources j = Some l /\ In s l))
    /\ (forall s, (exists l, smj_names k = Some l /\ In s l) <-> (exists l, smj_names j = Some l /\ In s l))
    /\ (gen_sorted (added_mappings ops) ->
        smj_sources k = smj_sources j /\ smj_names k = smj_names j /\ smj_mappings k = smj_mappings j).
Proof. exact copy_read. Qed.
Print Assumptions C82_copy.

Definition c82_at (line column : Z) (s n : string) : Mapping :=
  mkMapping (mkPos line column) (Some (mkPos 1 0)) (Some (lit s)) (Some (lit n)) (Some 3).
Definition c82_json (ops : list gen_op) : res SourceMapJson :=
  let* g := gen_run Debug RefUrl (gen_new None None false) ops in
  let* r := gen_as_json Debug RefUrl g in Ok (fst r).
Definition c82_copy (ops : list gen_op) : res SourceMapJson :=
  let* j := c82_json ops in
  match read_json j with Some r => c82_json (map GAdd r) | None => Panic PUnwrapNone end.
Example C82_case :
  let ops := [GAdd (c82_at 2 0 "b" "x"); GJson; GAdd (c82_at 1 0 "a" "y"); GAdd (c82_at 2 0 "b" "x")] in
  Forall valid_mapping (added_mappings ops) /\ Forall small_mapping (added_mappings ops)
  /\ (let* j := c82_json ops in Ok (smj_sources j, smj_names j, smj_mappings j, read_json j))
     = Ok (Some [lit "b"; lit "a"], Some [lit "x"; lit "y"], Some (lit "ACAAC;ADAAD"),
           Some [written (c82_at 1 0 "a" "y"); written (c82_at 2 0 "b" "x")])
  (* sources and names are now in the order of the mappings *)
  /\ (let* j := c82_copy ops in Ok (smj_sources j, smj_names j, smj_mappings j, read_json j))
     = Ok (Some [lit "a"; lit "b"], Some [lit "y"; lit "x"], Some (lit "AAAAA;ACAAC"),
           Some [written (c82_at 1 0 "a" "y"); written (c82_at 2 0 "b" "x")])
  (* the copy of the copy is the same *)
  /\ (let* j := c82_copy ops in match read_json j with Some r => c82_copy (map GAdd r) | None => Panic PUnwrapNone end) = c82_copy ops.
Proof.
  cbn zeta. split; [repeat constructor; vm_compute; congruence|]. split; [repeat constructor; vm_compute; congruence|].
  repeat split; vm_compute; reflexivity.
Qed.
