(** * Lemmas about adding again what was read: C82 *)
From Verif Require Import Base M_ArraySet M_Mapping M_Util M_SourceMap M_Generator
  S_List S_Decode S_Mapping S_Generator S_Far F_Base F_ArraySet F_Mapping F_MappingList F_Generator F_GeneratorProps F_Contents F_Shortest F_Append.
From Coq Require Import Sorting.Sorted Sorting.Permutation.

Lemma added_GAdd : forall r, added_mappings (map GAdd r) = r.
Proof. induction r; cbn; congruence. Qed.

Lemma no_content_GAdd : forall r, no_content (map GAdd r).
Proof. intros r s c H. apply in_map_iff in H. destruct H as [m [E _]]. discriminate. Qed.

Lemma valid_written : forall m, valid_mapping m -> valid_mapping (written m).
Proof. intros [g o s n l]. exact (fun H => H). Qed.

Lemma collapsed_self : forall A (l r : list A), collapsed l r -> collapsed r r.
Proof.
  intros A l r H. induction H as [|x|x l r H IH|x y l r Hn H IH].
  - constructor.
  - constructor.
  - exact IH.
  - pose proof (collapsed_head _ _ _ H) as E. destruct r as [|z r]; [contradiction|]. subst z. constructor; assumption.
Qed.

Lemma collapsed_len : forall A (l r : list A), collapsed l r -> (List.length r <= List.length l)%nat.
Proof. intros A l r H. induction H; cbn in *; lia. Qed.

Lemma written_written : forall l r, collapsed (map written l) r -> map written r = r.
Proof.
  intros l r H. rewrite <- (map_id r) at 2. apply map_ext_in. intros m Hm. apply (collapsed_In _ _ _ H) in Hm.
  apply in_map_iff in Hm. destruct Hm as [x [<- _]]. reflexivity.
Qed.

Lemma distinct_from_in : forall x l seen, mem x seen = true -> distinct_from seen (x :: l) = distinct_from seen l.
Proof. intros x l seen H. cbn [distinct_from]. rewrite H. reflexivity. Qed.

Lemma mem_head : forall x l, mem x (x :: l) = true.
Proof. intros x l. apply mem_In. left. reflexivity. Qed.

Lemma distinct_collapsed : forall (f : Mapping -> option str) l r, collapsed l r ->
  forall seen, distinct_from seen (present (map f r)) = distinct_from seen (present (map f l)).
Proof.
  intros f l r H. induction H as [|x|x l r H IH|x y l r Hn H IH]; intros seen.
  - reflexivity.
  - reflexivity.
  - rewrite IH. cbn [map present]. destruct (f x) as [s|]; [|reflexivity]. cbn [distinct_from].
    destruct (mem s seen) eqn:E; [reflexivity|]. rewrite mem_head. reflexivity.
  - cbn [map]. change (f x :: f y :: map f l) with (f x :: map f (y :: l)). cbn [present].
    destruct (f x) as [s|]; [|apply IH]. cbn [distinct_from]. destruct (mem s seen); rewrite IH; reflexivity.
Qed.

Lemma copy_read : forall md U file root skip ops g j g' md2 U2 file2 root2 skip2,
  Forall valid_mapping (added_mappings ops) -> steps_fit ops ->
  few_names (2^30) (added_mappings ops) ->
  gen_run md U (gen_new file root skip) ops = Ok g -> gen_as_json md U g = Ok (j, g') ->
  exists r h k h', read_json j = Some r
    /\ gen_run md2 U2 (gen_new file2 root2 skip2) (map GAdd r) = Ok h /\ gen_as_json md2 U2 h = Ok (k, h')
    /\ read_json k = Some r
    /\ (forall s, (exists l, smj_sources k = Some l /\ In s l) <-> (exists l, smj_sources j = Some l /\ In s l))
    /\ (forall s, (exists l, smj_names k = Some l /\ In s l) <-> (exists l, smj_names j = Some l /\ In s l))
    /\ (gen_sorted (added_mappings ops) -> smj_sources k = smj_sources j /\ smj_names k = smj_names j /\ smj_mappings k = smj_mappings j).
Proof.
  intros md U file root skip ops g j g' md2 U2 file2 root2 skip2 Hv Hs Hc Eg Ej.
  destruct (roundtrip_held _ _ _ _ _ _ _ _ _ Hv Hs Hc Eg Ej) as [a [r [A [R [C [Hin [Gr _]]]]]]].
  assert (Hv2 : Forall valid_mapping r).
  { apply Forall_forall. intros m Hm. apply Hin in Hm. destruct Hm as [x [Hx ->]]. apply valid_written. rewrite Forall_forall in Hv. auto. }
  pose proof (held_perm _ _ A) as P. rewrite added_app in P. cbn [added] in P. rewrite app_nil_r, added_list_ops in P.
  assert (Hc2 : few_names (2^30) r).
  { apply (few_impl _ written r (added_mappings ops)); [intros m; split; reflexivity | | exact Hc].
    intros m Hm. apply Hin in Hm. destruct Hm as [x [Hx ->]]. apply in_map. exact Hx. }
  pose proof (added_GAdd r) as EA.
  rewrite <- EA in Hv2, Hc2.
  assert (Hs2 : steps_fit (map GAdd r)).
  { intros a2 r2 A2 C2. assert (E : added (list_ops (map GAdd r) ++ [ToArray]) = r).
    { rewrite added_app, added_list_ops, EA. apply app_nil_r. }
    assert (a2 = r) by (rewrite <- E at 1; apply held_sorted_adds; [exact A2 | rewrite E; exact Gr]). subst a2.
    rewrite (written_written _ _ C) in C2. rewrite (collapsed_fun _ _ _ _ C2 (collapsed_self _ _ _ C)).
    exact (Hs _ _ A C). }
  destruct (generate_held md2 U2 file2 root2 skip2 (map GAdd r) Hv2 Hs2 Hc2 (or_intror (no_content_GAdd r)))
    as [h [k [h' [a2 [r2 [Eh [Ek [A2 [R2 [C2 _]]]]]]]]]].
  assert (a2 = r).
  { assert (E : added (list_ops (map GAdd r) ++ [ToArray]) = r).
    { rewrite added_app, added_list_ops, EA. apply app_nil_r. }
    transitivity (added (list_ops (map GAdd r) ++ [ToArray])); [|exact E]. apply held_sorted_adds; [exact A2 | rewrite E; exact Gr]. }
  subst a2. rewrite (written_written _ _ C) in C2.
  assert (r2 = r) by exact (collapsed_fun _ _ _ _ C2 (collapsed_self _ _ _ C)). subst r2.
  exists r, h, k, h'. split; [exact R|]. split; [exact Eh|]. split; [exact Ek|]. split; [exact R2|].
  destruct (generate_arrays _ _ _ _ _ _ _ _ _ Eg Ej) as [_ [S1 [N1 _]]].
  destruct (generate_arrays _ _ _ _ _ _ _ _ _ Eh Ek) as [_ [S2 [N2 _]]]. rewrite EA in S2, N2.
  assert (F : forall (f : Mapping -> option str), (forall m, f (written m) = f m) ->
            forall s, In s (distinct (present (map f r))) <-> In s (distinct (present (map f (added_mappings ops))))).
  { intros f Hf s. rewrite !distinct_In, !present_In, !in_map_iff. split.
    - intros [m [E Hm]]. apply Hin in Hm. destruct Hm as [x [Hx ->]]. exists x. rewrite <- Hf. auto.
    - intros [m [E Hm]]. exists (written m). rewrite Hf. split; [exact E|]. apply Hin. eauto. }
  split; [|split].
  - intros s. rewrite S1, S2. split; intros [l [E Hl]]; injection E as <-; eexists; (split; [reflexivity|]); apply (F m_source); auto.
  - intros s. rewrite N1, N2. split; intros [l [E Hl]]; injection E as <-; eexists; (split; [reflexivity|]); apply (F m_name); auto.
  - intros G. assert (Ea : a = added_mappings ops).
    { assert (E : added (list_ops ops ++ [ToArray]) = added_mappings ops).
      { rewrite added_app, added_list_ops. apply app_nil_r. }
      rewrite <- E. apply held_sorted_adds; [exact A | rewrite E; exact G]. }
    subst a.
    assert (D : forall f : Mapping -> option str, (forall m, f (written m) = f m) ->
              distinct (present (map f r)) = distinct (present (map f (added_mappings ops)))).
    { intros f Hf. unfold distinct. rewrite (distinct_collapsed f _ _ C), map_map. rewrite (map_ext _ _ Hf). reflexivity. }
    assert (ES : smj_sources k = smj_sources j) by (rewrite S1, S2, D; reflexivity).
    assert (EN : smj_names k = smj_names j) by (rewrite N1, N2, D; reflexivity).
    split; [exact ES|]. split; [exact EN|].
    eapply text_determined; [exact Hv2 | exact Hs2 | exact Hc2 | exact Eh | exact Ek | exact Hv | exact Hs | exact Hc | exact Eg | exact Ej | exact ES | exact EN |].
    rewrite R, R2. reflexivity.
Qed.
