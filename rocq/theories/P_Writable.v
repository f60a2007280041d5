(** * Properties: mappings with any combination of fields *)
From Verif Require Import Base M_Mapping M_SourceMap M_Util M_Generator S_Mapping S_Generator S_Writable S_Decode
  F_UrlRef F_Writable.

(** C99: with overflow checks the JSON is produced exactly if every line is at
    least 1 and every mapping with a source has an original position. *)
Theorem C99_written_exactly_when : forall (U : UrlLib) (file root : option str) (skip : bool) (ops : list gen_op)
    (coordinates : Forall natural (added_mappings ops))
    (few : few_names 2147483648 (added_mappings ops))
    (contents : root = None \/ no_content ops)
    (alone : lacking_alone (added_mappings ops)),
  (exists j, observe_json Debug U (gen_new file root skip) ops = Ok j)
  <-> Forall writable (added_mappings ops).
Proof. exact written_exactly_when. Qed.
Print Assumptions C99_written_exactly_when.

(** ... and if such a mapping shares its place with others, only if one of them
    has the same source and name, and an original position. *)
Theorem C99_needed : forall (U : UrlLib) (file root : option str) (skip : bool) (ops : list gen_op) (j : SourceMapJson)
    (coordinates : Forall natural (added_mappings ops))
    (produced : observe_json Debug U (gen_new file root skip) ops = Ok j)
    (m : Mapping) (added : In m (added_mappings ops)),
  line1 (m_generated m)
  /\ (lacking m -> exists x, In x (added_mappings ops) /\ m_generated x = m_generated m
        /\ m_source x = m_source m /\ m_name x = m_name m /\ m_original x <> None).
Proof. exact needed. Qed.
Print Assumptions C99_needed.

(** In either build the other fields do not matter. *)
Theorem C99_writes : forall (md : mode) (U : UrlLib) (file root : option str) (skip : bool) (ops : list gen_op)
    (coordinates : Forall natural (added_mappings ops))
    (writable_all : Forall writable (added_mappings ops))
    (few : few_names 2147483648 (added_mappings ops))
    (contents : root = None \/ no_content ops),
  exists g j g', gen_run md U (gen_new file root skip) ops = Ok g /\ gen_as_json md U g = Ok (j, g').
Proof. exact writes. Qed.
Print Assumptions C99_writes.

(** What is read back of them. *)
Theorem C99_read_back : forall (md : mode) (U : UrlLib) (file root : option str) (skip : bool) (ops : list gen_op)
    (coordinates : Forall natural (added_mappings ops))
    (valid : Forall valid_mapping (map left_of (added_mappings ops)))
    (small : Forall small_mapping (map left_of (added_mappings ops)))
    (few : few_names (2^30) (added_mappings ops))
    (contents : root = None \/ no_content ops),
  exists g j g' r, gen_run md U (gen_new file root skip) ops = Ok g
    /\ gen_as_json md U g = Ok (j, g')
    /\ read_json j = Some r
    /\ (forall x, In x r <-> exists m, In m (added_mappings ops) /\ x = left_of m)
    /\ gen_sorted r.
Proof. exact read_back_left. Qed.
Print Assumptions C99_read_back.

(** Original positions and names without a source, in an order that is none (C15),
    beside ordinary mappings *)
Definition c99_bare (o : option Position) (n : option str) : Mapping := mkMapping (mkPos 2 3) o None n None.
Definition c99_ops : list gen_op :=
  [GAdd (c99_bare (Some (mkPos 7 1)) None); GAdd (c99_bare None (Some (lit "x")));
   GAdd (mkMapping (mkPos 2 9) (Some (mkPos 1 4)) (Some (lit "a.js")) (Some (lit "f")) None);
   GJson; GAdd (c99_bare (Some (mkPos 5 0)) (Some (lit "x")));
   GAdd (mkMapping (mkPos 1 0) (Some (mkPos 3 2)) (Some (lit "a.js")) None (Some 8))].

Example C99_case : forall md,
  Forall natural (added_mappings c99_ops) /\ Forall writable (added_mappings c99_ops)
  /\ ~ Forall shaped (added_mappings c99_ops)
  /\ Forall valid_mapping (map left_of (added_mappings c99_ops))
  /\ Forall small_mapping (map left_of (added_mappings c99_ops))
  /\ few_names (2^30) (added_mappings c99_ops) /\ lacking_alone (added_mappings c99_ops)
  /\ (let* j := observe_json md RefUrl (gen_new None None false) c99_ops in
      Ok (smj_names j, smj_mappings j, read_json j))
     = Ok (Some [lit "x"; lit "f"], Some (lit "AAEE;G,A,MAFEC"),
           Some [mkMapping (mkPos 1 0) (Some (mkPos 3 2)) (Some (lit "a.js")) None None;
                 c99_bare None None; c99_bare None None;
                 mkMapping (mkPos 2 9) (Some (mkPos 1 4)) (Some (lit "a.js")) (Some (lit "f")) None]).
Proof.
  intros md. split; [repeat constructor; vm_compute; discriminate|].
  split; [repeat constructor; vm_compute; try discriminate; intros H; exact (fun E => H eq_refl) || (intros _; discriminate)|].
  split.
  { intros H. inversion H as [|x l H1 _]. exact H1. }
  split; [repeat constructor; vm_compute; discriminate|].
  split; [repeat constructor; vm_compute; reflexivity|].
  split; [split; vm_compute; discriminate|].
  split; [|destruct md; vm_compute; reflexivity].
  intros m x H [L1 L2] _ _. exfalso. cbn in H. repeat destruct H as [<-|H]; cbn in L1, L2; (discriminate || (apply L1; reflexivity) || exact H).
Qed.

(** A source without an original position: refused alone, and dropped beside one
    of the same source and name *)
Definition c99_lacking : Mapping := mkMapping (mkPos 1 5) None (Some (lit "a.js")) None None.
Definition c99_whole : Mapping := mkMapping (mkPos 1 5) (Some (mkPos 2 0)) (Some (lit "a.js")) None None.

Example C99_lacking_case :
  lacking c99_lacking /\ natural c99_lacking /\ lacking_alone [c99_lacking; c99_lacking]
  /\ ~ writable c99_lacking /\ ~ lacking_alone [c99_whole; c99_lacking]
  /\ observe_json Debug RefUrl (gen_new None None false) [GAdd c99_lacking; GAdd c99_lacking] = Panic PUnwrapNone
  /\ (let* j := observe_json Debug RefUrl (gen_new None None false) [GAdd c99_whole; GAdd c99_lacking] in Ok (read_json j))
     = Ok (Some [c99_whole]).
Proof.
  split; [split; [discriminate | reflexivity]|].
  split; [repeat constructor; vm_compute; discriminate|].
  split.
  { intros m x Hm _ Hx _. cbn in Hm, Hx. intuition congruence. }
  split; [intros [_ H]; apply H; [discriminate | reflexivity]|].
  split.
  { intros H. specialize (H c99_lacking c99_whole). cbn in H. 
    assert (E : c99_whole = c99_lacking).
    { apply H; [auto | split; [discriminate | reflexivity] | auto | reflexivity]. }
    discriminate E. }
  split; vm_compute; reflexivity.
Qed.
