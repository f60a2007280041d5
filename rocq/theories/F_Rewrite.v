(** * Copying any map with each_mapping and add_mapping *)
From Verif Require Import Base F_Base M_ArraySet M_Mapping M_Util M_SourceMap M_Generator M_Json M_MapLib
  M_Consumer S_List S_Vlq S_Decode S_Mapping S_Generator S_Far S_MapLib S_Consumer S_EndToEnd S_Rewrite F_ArraySet F_Decode
  F_Mapping F_MappingList F_Generator F_GeneratorProps F_Contents F_MapLibRef F_Consumer F_ConsumerProps F_EndToEnd F_Shortest F_Append F_Copy.
From Coq Require Import Sorting.Sorted Sorting.Permutation.

Lemma all_some_In : forall src nm l r m, resolve src nm l = Some r -> In m r ->
  exists x, In x l /\ resolve_mapping src nm x = Some m.
Proof.
  intros src nm l r m H Hm. unfold resolve in H. apply all_some_Forall2 in H.
  assert (X : In (Some m) (map (resolve_mapping src nm) l)) by (rewrite H; apply in_map; exact Hm).
  apply in_map_iff in X. destruct X as [x [E Hx]]. eauto.
Qed.

Lemma resolved_valid : forall src nm x m, raw_u32 x -> resolve_mapping src nm x = Some m ->
  wf_mapping m -> valid_mapping m /\ written m = m.
Proof.
  intros src nm x m [H1 [H2 [_ H4]]] H W. unfold u32 in *. change (2^32) with 4294967296 in *.
  unfold resolve_mapping in H. destruct (rm_original x) as [o|].
  - destruct (lookup src (ol_source o)) as [s|]; [|discriminate].
    assert (X : (forall n, m = mkMapping (mkPos (rm_line x + 1) (rm_column x)) (Some (mkPos (ol_line o + 1) (ol_column o))) (Some s) n None ->
                 valid_mapping m /\ written m = m)).
    { intros n ->. split; [|reflexivity]. split; [exact W|]. unfold line1. cbn [m_generated m_original p_line].
      destruct H4 as [_ [H5 [H6 _]]]. lia. }
    destruct (ol_name o) as [i|]; [destruct (lookup nm i) as [n|]; [|discriminate]|]; injection H as <-; eapply X; reflexivity.
  - injection H as <-. split; [|reflexivity]. split; [exact W|]. unfold line1. cbn [m_generated m_original m_name p_line].
    split; [lia|reflexivity].
Qed.

(** Sorted lists without equal places are determined by their elements. *)
Lemma sorted_unique : forall l r : list Mapping, Permutation l r -> gen_sorted l -> gen_sorted r ->
  NoDup (map m_generated l) -> l = r.
Proof.
  induction l as [|x l IH]; intros r P Sl Sr N.
  - apply Permutation_nil in P. subst. reflexivity.
  - destruct r as [|y r]; [apply Permutation_sym in P; apply Permutation_nil in P; discriminate|].
    inversion Sl as [|a b Sl1 Sl2 Ea]; subst. inversion Sr as [|a b Sr1 Sr2 Ea]; subst. inversion N as [|a b N1 N2 Ea]; subst.
    assert (E : x = y).
    { assert (Hy : In y (x :: l)) by (eapply Permutation_in; [symmetry; exact P|left; reflexivity]).
      destruct Hy as [Hy|Hy]; [exact Hy|]. exfalso.
      assert (Hx : In x (y :: r)) by (eapply Permutation_in; [exact P|left; reflexivity]).
      destruct Hx as [Hx|Hx]; [subst y; apply N1; apply in_map; exact Hy|].
      rewrite Forall_forall in Sl2, Sr2. specialize (Sl2 _ Hy). specialize (Sr2 _ Hx).
      apply N1. apply in_map_iff. exists y. split; [|exact Hy].
      unfold gen_le, pos_le, pos_lt in *. destruct (m_generated x) as [a b], (m_generated y) as [a' b']. cbn in *.
      destruct Sl2 as [A|A], Sr2 as [B|B]; first [congruence|f_equal; lia]. }
    subst y. f_equal. apply IH; try assumption. eapply Permutation_cons_inv; exact P.
Qed.

Lemma collapsed_nodup : forall (l r : list Mapping), collapsed l r -> NoDup l -> l = r.
Proof.
  intros l r H. induction H as [|x|x l r H IH|x y l r Hn H IH]; intros N; try reflexivity.
  - exfalso. inversion N as [|a b N1 N2 Ea]. apply N1. left. reflexivity.
  - inversion N. subst. rewrite <- IH by assumption. reflexivity.
Qed.

Section Rewrite.
  Context (md : mode) (L : MapLib) (U : UrlLib) (ok : MapLibOk L).

  Lemma rewrite_map : forall c0 qs c s ms r0 md2 U2 file2 root2 skip2,
    opened md L U c0 -> asked md L U c0 qs = Ok c ->
    smj_mappings (bc_source_map c0) = Some s -> good_text canonical_field s ->
    Z.of_nat (count_occ N.eq_dec s (ch ";")) < 2^32 -> decode_mappings s = Some ms ->
    resolve (bc_get_sources L c0) (listed_names (bc_source_map c0)) ms = Some r0 ->
    Forall wf_mapping r0 ->
    (forall r r', Permutation r0 r -> gen_sorted r -> collapsed r r' -> near_by r') -> few_names (2^30) r0 ->
    exists l r h k h' r', reports L c l
      /\ resolve (bc_get_sources L c) (listed_names (bc_source_map c)) l = Some r
      /\ gen_run md2 U2 (gen_new file2 root2 skip2) (map GAdd r) = Ok h /\ gen_as_json md2 U2 h = Ok (k, h')
      /\ read_json k = Some r' /\ collapsed r r' /\ gen_sorted r' /\ (forall m, In m r' <-> In m r0)
      /\ (gen_sorted r0 -> NoDup (map m_generated r0) -> r' = r0)
      /\ smj_sources k = Some (distinct (present (map m_source r)))
      /\ smj_names k = Some (distinct (present (map m_name r))).
  Proof.
    intros c0 qs c s ms r0 md2 U2 file2 root2 skip2 Ho Ha Es Hg Hn Ed Er Hw0 Hs Hc.
    destruct (mo_parse L ok s ms Hg Hn Ed) as [t0 [Et0 Hp]].
    destruct (history md L U _ _ _ Ho Ha) as [Hf Hfol].
    destruct (ensure_cases md L U _ _ Hfol) as [[s1 [t [E [Es1 Hst]]]]|[E [Hx Em]]].
    2: { exfalso. apply Hx. exists s, t0. auto. }
    rewrite Es in Es1. injection Es1 as <-.
    pose proof (mo_same L ok _ _ _ _ Hst Et0) as Hsame.
    destruct (mo_sorted L ok _ _ _ Hst) as [Hsorted Hu].
    destruct (resolve_perm _ _ _ _ _ Hp Er) as [r [Er' Hpr]].
    assert (Er2 : resolve (bc_get_sources L c0) (listed_names (bc_source_map c0)) (lm_by_generated L t) = Some r).
    { rewrite <- resolve_strip, Hsame, resolve_strip. exact Er'. }
    pose proof (resolve_sorted _ _ _ _ Er2 Hsorted) as Gr.
    assert (V : Forall (fun m => valid_mapping m /\ written m = m) r).
    { apply Forall_forall. intros m Hm. destruct (all_some_In _ _ _ _ _ Er2 Hm) as [x [Hx1 Hx2]].
      assert (Hm0 : In m r0) by (eapply Permutation_in; [symmetry; exact Hpr|exact Hm]).
      rewrite Forall_forall in Hu, Hw0. eapply resolved_valid; eauto. }
    assert (Hv2 : Forall valid_mapping r) by (eapply Forall_impl; [|exact V]; cbn; tauto).
    assert (Hw : map written r = r).
    { rewrite <- (map_id r) at 2. apply map_ext_in. intros m Hm. rewrite Forall_forall in V. apply V. exact Hm. }
    assert (Hc2 : few_names (2^30) r) by (eapply few_incl; [|exact Hc]; intros m; apply Permutation_in; symmetry; exact Hpr).
    pose proof (added_GAdd r) as EA.
    assert (Hkept : forall a, held (list_ops (map GAdd r) ++ [ToArray]) a -> a = r).
    { intros a A2. assert (X : added (list_ops (map GAdd r) ++ [ToArray]) = r).
      { rewrite added_app, added_list_ops, EA. apply app_nil_r. }
      transitivity (added (list_ops (map GAdd r) ++ [ToArray])); [|exact X]. apply held_sorted_adds; [exact A2 | rewrite X; exact Gr]. }
    assert (Hs2 : steps_fit (map GAdd r)).
    { intros a r' A2 C2. rewrite (Hkept a A2), Hw in C2. exact (Hs r r' Hpr Gr C2). }
    rewrite <- EA in Hv2, Hc2.
    destruct (generate_held md2 U2 file2 root2 skip2 (map GAdd r) Hv2 Hs2 Hc2 (or_intror (no_content_GAdd r)))
      as [h [k [h' [a2 [r2 [Eh [Ek [A2 [R2 [C2 _]]]]]]]]]].
    apply Hkept in A2.
    subst a2. rewrite Hw in C2.
    destruct (generate_arrays _ _ _ _ _ _ _ _ _ Eh Ek) as [_ [S2 [N2 _]]]. rewrite EA in S2, N2.
    pose proof (fo_map md L U c0 c Hfol) as F1. pose proof (fo_sources md L U c0 c Hfol) as F2.
    exists (lm_by_generated L t), r, h, k, h', r2.
    split; [apply (proj2 (reports_iff md L U _ _ _ _ _ Hfol E)); reflexivity|].
    split; [rewrite F1; unfold bc_get_sources; rewrite F2; exact Er2|].
    split; [exact Eh|]. split; [exact Ek|]. split; [exact R2|]. split; [exact C2|].
    assert (In2 : forall m, In m r2 <-> In m r0).
    { intros m. rewrite <- (collapsed_In _ _ _ C2 m). split; apply Permutation_in; [symmetry|]; exact Hpr. }
    split.
    { eapply collapsed_sorted; eassumption. }
    split; [exact In2|]. split; [|split; assumption].
    intros G0 N0. assert (r = r0) by (symmetry; apply sorted_unique; assumption). subst r.
    symmetry. apply collapsed_nodup; [exact C2|]. eapply NoDup_map_inv. exact N0.
  Qed.
End Rewrite.
