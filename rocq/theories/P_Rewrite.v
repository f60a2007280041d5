(** * C90: copying any map with each_mapping and add_mapping *)
From Verif Require Import Base M_ArraySet M_Mapping M_Util M_SourceMap M_Generator M_Json M_MapLib M_Consumer
  S_List S_Vlq S_Decode S_Mapping S_Generator S_Far S_MapLib S_Consumer S_Rewrite F_UrlRef F_MapLibRef F_Mapping F_Generator F_GeneratorProps F_Rewrite.
From Coq Require Import Sorting.Permutation.

(** [ms] are the mappings in the text, [r0] the same with the URLs of their
    sources, [r] what each_mapping reports, [k] the copy and [r'] what is in it. *)
Theorem C90_copy : forall (md : mode) (L : MapLib) (U : UrlLib) (contract : MapLibOk L)
    (c0 : BasicConsumer L) (qs : list query) (c : BasicConsumer L) (s : str) (ms : list RawMapping) (r0 : list Mapping)
    (md2 : mode) (U2 : UrlLib) (file2 root2 : option str) (skip2 : bool)
    (fresh : opened md L U c0) (history : asked md L U c0 qs = Ok c)
    (text : smj_mappings (bc_source_map c0) = Some s) (well_formed : good_text canonical_field s)
    (lines : Z.of_nat (count_occ N.eq_dec s (ch ";")) < 2^32) (v3 : decode_mappings s = Some ms)
    (indices : resolve (bc_get_sources L c0) (listed_names (bc_source_map c0)) ms = Some r0)
    (in_range : Forall wf_mapping r0)
    (near : forall r r', Permutation r0 r -> gen_sorted r -> collapsed r r' -> near_by r')
    (few : few_names (2^30) r0),
  exists l r h k h' r', reports L c l
    /\ resolve (bc_get_sources L c) (listed_names (bc_source_map c)) l = Some r
    /\ gen_run md2 U2 (gen_new file2 root2 skip2) (map GAdd r) = Ok h /\ gen_as_json md2 U2 h = Ok (k, h')
    /\ read_json k = Some r' /\ collapsed r r' /\ gen_sorted r' /\ (forall m, In m r' <-> In m r0)
    /\ (gen_sorted r0 -> NoDup (map m_generated r0) -> r' = r0)
    /\ smj_sources k = Some (distinct (present (map m_source r)))
    /\ smj_names k = Some (distinct (present (map m_name r))).
Proof. exact rewrite_map. Qed.
Print Assumptions C90_copy.

(** Out of order on line 1, one mapping twice on line 2, x.js not used *)
Definition c90_map : SourceMapJson :=
  mkSMJ 3 (Some [lit "x.js"; lit "a.js"]) (Some [lit "n"]) (Some (lit "ICAAA,FAAC;A,A")) None (Some (lit "src")) None None.
Definition c90_copy (qs : list query) : res (option (list Mapping) * option (option (list Mapping)) * SourceMapJson) :=
  let* c := bc_from_source_map_json Debug RefLib RefUrl c90_map None in
  let* c := asked Debug RefLib RefUrl c qs in
  let* l := answer (bc_each_mapping RefLib c GeneratedOrd) in
  match resolve (bc_get_sources RefLib c) (listed_names (bc_source_map c)) l with
  | Some r =>
      let* h := gen_run Debug RefUrl (gen_new (Some (lit "out.js")) None false) (map GAdd r) in
      let* k := gen_as_json Debug RefUrl h in
      Ok (Some r, Some (read_json (fst k)), fst k)
  | None => Panic PUnwrapNone
  end.
Definition c90_at (line column : Z) (o : option Position) (n : option str) : Mapping :=
  mkMapping (mkPos line column) o (match o with Some _ => Some (lit "src/a.js") | None => None end) n None.

Example C90_case :
  let m1 := c90_at 1 2 (Some (mkPos 1 1)) None in
  let m2 := c90_at 1 4 (Some (mkPos 1 0)) (Some (lit "n")) in
  let m3 := c90_at 2 0 None None in
  option_map (resolve [lit "src/x.js"; lit "src/a.js"] [lit "n"]) (decode_mappings (lit "ICAAA,FAAC;A,A"))
    = Some (Some [m2; m1; m3; m3])
  /\ Forall wf_mapping [m2; m1; m3; m3]
  /\ (forall r r', Permutation [m2; m1; m3; m3] r -> collapsed r r' -> near_by r')
  /\ c90_copy [QSpans; QEach OriginalOrd]
     = Ok (Some [m1; m2; m3; m3], Some (Some [m1; m2; m3]),
           mkSMJ 3 (Some [lit "src/a.js"]) (Some [lit "n"]) (Some (lit "EAAC,EAADA;A")) (Some (lit "out.js")) None None None).
Proof.
  cbn zeta. split; [vm_compute; reflexivity|]. split; [repeat constructor; vm_compute; congruence|].
  split.
  { intros r r' Hp Hc.
    assert (H : forall x, In x r' -> expressible x /\ small_mapping x).
    { intros x Hx. apply (collapsed_In _ _ _ Hc) in Hx. apply (Permutation_in x (Permutation_sym Hp)) in Hx.
      repeat (destruct Hx as [<-|Hx]; [split; repeat split; vm_compute; congruence|]). destruct Hx. }
    apply small_near; rewrite Forall_forall; intros x Hx; apply H, Hx. }
  vm_compute. reflexivity.
Qed.

(** The text is well formed. *)
Example C90_instance : good_text canonical_field (lit "ICAAA,FAAC;A,A").
Proof.
  assert (F : forall x, In x (lit "ICAF") -> canonical_field [x]).
  { intros x H. split.
    - split; [|discriminate]. exists [], x. split; [reflexivity|]. split; [constructor|].
      repeat (destruct H as [<-|H]; [eexists; split; [reflexivity|vm_compute; repeat split; congruence]|]). destruct H.
    - repeat (destruct H as [<-|H]; [discriminate|]). destruct H. }
  assert (G : forall s, Forall (fun x => In x (lit "ICAF")) s -> In (length s) [1; 4; 5]%nat -> good_seg canonical_field s).
  { intros s H N. exists (map (fun x => [x]) s). split; [|split].
    - clear. induction s; cbn; congruence.
    - rewrite Forall_map. eapply Forall_impl; [|exact H]. exact F.
    - rewrite map_length. exact N. }
  apply Forall_cons; [right|apply Forall_cons; [right|apply Forall_nil]];
    (apply Forall_cons; [apply G|apply Forall_cons; [apply G|apply Forall_nil]]);
    first [repeat constructor; cbn; tauto|cbn; tauto].
Qed.
