(** * C81: adding behind everything only appends *)
From Verif Require Import Base M_ArraySet M_Mapping M_Util M_SourceMap M_Generator
  S_List S_Decode S_Mapping S_Generator S_Far S_Append F_UrlRef F_Append.
From Coq Require Import Sorting.Sorted.

(** In any order *)
Theorem C81_lists_grow : forall (md : mode) (U : UrlLib) (file root : option str) (skip : bool)
    (ops more : list gen_op) (g : Generator) (j : SourceMapJson) (g' : Generator)
    (h : Generator) (k : SourceMapJson) (h' : Generator)
    (run : gen_run md U (gen_new file root skip) ops = Ok g)
    (json : gen_as_json md U g = Ok (j, g'))
    (run_more : gen_run md U (gen_new file root skip) (ops ++ more) = Ok h)
    (json_more : gen_as_json md U h = Ok (k, h')),
  exists S S2 N N2, smj_sources j = Some S /\ smj_sources k = Some (S ++ S2)
    /\ smj_names j = Some N /\ smj_names k = Some (N ++ N2).
Proof. exact lists_grow. Qed.
Print Assumptions C81_lists_grow.

Theorem C81_text_grows : forall (md : mode) (U : UrlLib) (file root : option str) (skip : bool)
    (ops more : list gen_op) (g : Generator) (j : SourceMapJson) (g' : Generator)
    (h : Generator) (k : SourceMapJson) (h' : Generator)
    (wf : Forall wf_mapping (added_mappings (ops ++ more)))
    (behind : appendable (added_mappings ops) (added_mappings more))
    (run : gen_run md U (gen_new file root skip) ops = Ok g)
    (json : gen_as_json md U g = Ok (j, g'))
    (run_more : gen_run md U (gen_new file root skip) (ops ++ more) = Ok h)
    (json_more : gen_as_json md U h = Ok (k, h')),
  exists s t, smj_mappings j = Some s /\ smj_mappings k = Some (s ++ t)
    /\ (added_mappings ops = [] \/ continues t).
Proof. exact text_grows. Qed.
Print Assumptions C81_text_grows.

Theorem C81_read_grows : forall (md : mode) (U : UrlLib) (file root : option str) (skip : bool)
    (ops more : list gen_op) (g : Generator) (j : SourceMapJson) (g' : Generator)
    (h : Generator) (k : SourceMapJson) (h' : Generator)
    (valid : Forall valid_mapping (added_mappings (ops ++ more)))
    (near : steps_fit (ops ++ more))
    (few : few_names (2^30) (added_mappings (ops ++ more)))
    (behind : appendable (added_mappings ops) (added_mappings more))
    (run : gen_run md U (gen_new file root skip) ops = Ok g)
    (json : gen_as_json md U g = Ok (j, g'))
    (run_more : gen_run md U (gen_new file root skip) (ops ++ more) = Ok h)
    (json_more : gen_as_json md U h = Ok (k, h')),
  exists r r2, read_json j = Some r /\ read_json k = Some (r ++ r2).
Proof. exact read_grows. Qed.
Print Assumptions C81_read_grows.

Definition c81_at (line column : Z) (s : string) : Mapping :=
  mkMapping (mkPos line column) (Some (mkPos 1 0)) (Some (lit s)) None None.
Definition c81_json (ops : list gen_op) : res (option (list str) * option str) :=
  let* g := gen_run Debug RefUrl (gen_new None None false) ops in
  let* r := gen_as_json Debug RefUrl g in Ok (smj_sources (fst r), smj_mappings (fst r)).

(** Two mappings at one place, then two behind it in the wrong order: the first
    two are sorted by source, too. *)
Theorem C81_unordered_refuted : exists ops more s k,
  Forall valid_mapping (added_mappings (ops ++ more)) /\ gen_sorted (added_mappings ops)
  /\ all_behind (added_mappings ops) (added_mappings more)
  /\ c81_json ops = Ok (Some [lit "b"; lit "a"], Some s)
  /\ c81_json (ops ++ more) = Ok (Some [lit "b"; lit "a"], Some k)
  /\ forall t, k <> s ++ t.
Proof.
  exists [GAdd (c81_at 1 0 "b"); GAdd (c81_at 1 0 "a")], [GAdd (c81_at 1 9 "a"); GAdd (c81_at 1 5 "a")],
    (lit "AAAA,ACAA"), (lit "ACAA,ADAA,KCAA,IAAA").
  split; [repeat constructor; vm_compute; congruence|].
  split. { repeat constructor; unfold gen_le, pos_le; cbn; lia. }
  split. { intros x y Hx Hy. cbn in Hx, Hy. destruct Hx as [<-|[<-|[]]], Hy as [<-|[<-|[]]]; right; split; reflexivity. }
  split; [vm_compute; reflexivity|]. split; [vm_compute; reflexivity|]. intros t H. discriminate H.
Qed.
Print Assumptions C81_unordered_refuted.

Example C81_case :
  let ops := [GAdd (c81_at 2 7 "b"); GAdd (c81_at 1 5 "a")] in
  let more := [GAdd (c81_at 2 9 "c"); GJson; GAdd (c81_at 4 0 "a"); GAdd (c81_at 2 8 "b")] in
  Forall valid_mapping (added_mappings (ops ++ more)) /\ Forall small_mapping (added_mappings (ops ++ more))
  /\ appendable (added_mappings ops) (added_mappings more)
  /\ c81_json ops = Ok (Some [lit "b"; lit "a"], Some (lit "KCAA;ODAA"))
  /\ c81_json (ops ++ more) = Ok (Some [lit "b"; lit "a"; lit "c"], Some (lit "KCAA;ODAA" ++ lit ",CAAA,CEAA;;ADAA"))
  (* at the same place: equal ones are written once *)
  /\ c81_json [GAdd (c81_at 1 5 "b")] = Ok (Some [lit "b"], Some (lit "KAAA"))
  /\ appendable [c81_at 1 5 "b"] [c81_at 1 5 "b"; c81_at 1 5 "a"]
  /\ c81_json [GAdd (c81_at 1 5 "b"); GAdd (c81_at 1 5 "b"); GAdd (c81_at 1 5 "a")] = Ok (Some [lit "b"; lit "a"], Some (lit "KAAA,ACAA")).
Proof.
  cbn zeta. split; [repeat constructor; vm_compute; congruence|]. split; [repeat constructor; vm_compute; congruence|].
  split.
  { right. split.
    - intros x y Hx Hy. cbn in Hx, Hy. destruct Hx as [<-|[<-|[]]], Hy as [<-|[<-|[<-|[]]]]; unfold pos_lt; cbn; lia.
    - right. cbn. repeat constructor; cbn; intuition discriminate. }
  split; [vm_compute; reflexivity|]. split; [vm_compute; reflexivity|]. split; [vm_compute; reflexivity|].
  split; [|vm_compute; reflexivity].
  left. repeat constructor; unfold gen_le, pos_le; cbn; lia.
Qed.
