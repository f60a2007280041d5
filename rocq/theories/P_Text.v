(** * C80: no shorter text says the same *)
From Verif Require Import Base M_ArraySet M_Mapping M_Util M_SourceMap M_Generator
  S_Vlq S_List S_Decode S_Mapping S_Generator S_Far F_UrlRef F_Shortest.

(** [canonical_field] only excludes other spellings of the same length: minus
    zero. *)
Theorem C80_shortest : forall (md : mode) (U : UrlLib) (file root : option str) (skip : bool)
    (ops : list gen_op) (g : Generator) (j : SourceMapJson) (g' : Generator)
    (valid : Forall valid_mapping (added_mappings ops))
    (near : steps_fit ops)
    (few : few_names (2^30) (added_mappings ops))
    (run : gen_run md U (gen_new file root skip) ops = Ok g)
    (json : gen_as_json md U g = Ok (j, g')),
  exists s ms, smj_mappings j = Some s /\ decode_mappings s = Some ms /\ good_text canonical_field s
    /\ forall t, decode_mappings t = Some ms ->
       len s <= len t /\ (len t = len s -> good_text canonical_field t -> t = s).
Proof. exact generated_shortest. Qed.
Print Assumptions C80_shortest.

(** At most five fields of seven digits and a separator for a mapping *)
Theorem C80_size : forall (md : mode) (U : UrlLib) (file root : option str) (skip : bool)
    (ops : list gen_op) (g : Generator) (j : SourceMapJson) (g' : Generator)
    (valid : Forall encodable (added_mappings ops))
    (few : few_names 2147483648 (added_mappings ops))
    (run : gen_run md U (gen_new file root skip) ops = Ok g)
    (json : gen_as_json md U g = Ok (j, g')),
  exists s n, smj_mappings j = Some s /\ is_last_line (added_mappings ops) n
    /\ len s <= n - 1 + 36 * len (added_mappings ops).
Proof. exact generated_size. Qed.
Print Assumptions C80_size.

(** Maps that are read the same are the same, however they were made. *)
Theorem C80_determined : forall (md : mode) (U : UrlLib) (file root : option str) (skip : bool)
    (ops : list gen_op) (g : Generator) (j : SourceMapJson) (g' : Generator)
    (md2 : mode) (U2 : UrlLib) (file2 root2 : option str) (skip2 : bool)
    (ops2 : list gen_op) (g2 : Generator) (j2 : SourceMapJson) (g2' : Generator)
    (valid : Forall valid_mapping (added_mappings ops))
    (near : steps_fit ops)
    (few : few_names (2^30) (added_mappings ops))
    (run : gen_run md U (gen_new file root skip) ops = Ok g)
    (json : gen_as_json md U g = Ok (j, g'))
    (valid2 : Forall valid_mapping (added_mappings ops2))
    (near2 : steps_fit ops2)
    (few2 : few_names (2^30) (added_mappings ops2))
    (run2 : gen_run md2 U2 (gen_new file2 root2 skip2) ops2 = Ok g2)
    (json2 : gen_as_json md2 U2 g2 = Ok (j2, g2'))
    (sources : smj_sources j = smj_sources j2) (names : smj_names j = smj_names j2)
    (same : read_json j = read_json j2),
  smj_mappings j = smj_mappings j2.
Proof. exact text_determined. Qed.
Print Assumptions C80_determined.

Definition c80_m (line column : Z) (ol oc : Z) (s n : string) : Mapping :=
  mkMapping (mkPos line column) (Some (mkPos ol oc)) (Some (lit s)) (Some (lit n)) None.
Definition c80_ops : list gen_op :=
  [GAdd (c80_m 3 20 1 0 "a" "x"); GAdd (c80_m 1 0 2 3 "a" "y"); GAdd (c80_m 1 4 2 3 "b" "x")].
Definition c80_text (ops : list gen_op) : res (option str) :=
  let* g := gen_run Debug RefUrl (gen_new None None false) ops in
  let* r := gen_as_json Debug RefUrl g in Ok (smj_mappings (fst r)).
Example C80_case :
  Forall valid_mapping (added_mappings c80_ops) /\ Forall small_mapping (added_mappings c80_ops)
  /\ c80_text c80_ops = Ok (Some (lit "AACGC,ICAAD;;oBDDHA"))
  /\ len (lit "AACGC,ICAAD;;oBDDHA") = 19 /\ 19 <= 3 - 1 + 36 * 3
  (* longer spellings: a digit more, an empty line at the end; minus zero is as long *)
  /\ (forall t, In t [lit "gAACGC,ICAAD;;oBDDHA"; lit "AACGC,ICAAD;;ohADDHA"; lit "AACGC,ICAAD;;oBDDHA;"; lit "BBCGC,ICBAD;;oBDDHB"] ->
      decode_mappings t = decode_mappings (lit "AACGC,ICAAD;;oBDDHA"))
  (* another history with the same sources and names *)
  /\ c80_text [GAdd (c80_m 3 20 1 0 "a" "x"); GJson; GAdd (c80_m 1 4 2 3 "b" "x"); GAdd (c80_m 1 0 2 3 "a" "y"); GJson;
               GAdd (c80_m 1 4 2 3 "b" "x")] = c80_text c80_ops.
Proof.
  split; [repeat constructor; vm_compute; congruence|]. split; [repeat constructor; vm_compute; congruence|].
  split; [vm_compute; reflexivity|]. split; [reflexivity|]. split; [lia|]. split; [|vm_compute; reflexivity].
  intros t H. repeat (destruct H as [<-|H]; [vm_compute; reflexivity|]). destruct H.
Qed.
