(** * Contents of a generator with a source root, after caught panics (C111) *)
From Verif Require Import F_Base M_Base64Vlq M_ArraySet M_Mapping M_Util M_SourceMap M_MapLib M_Generator M_UnwindGen
  S_Vlq S_List S_Decode S_Mapping S_Generator S_Far S_Contents S_UnwindGen F_ArraySet F_Sort F_Mapping F_MappingList F_Decode F_Serialize
  F_Generator F_GeneratorProps F_Contents F_UnwindGen.

Definition keyed (root : str) (key : str -> str) (pre : list gen_op) (g : Generator) : Prop :=
  g_source_root g = Some root /\ forall k, hm_get k (g_source_contents g) = last_content k (renamed key pre) None.

Lemma keyed_step : forall md U root key (same : forall s k, relative md U root s = Ok k -> key s = k) g op g1 pre,
  gen_step md U g op = Ok g1 -> keyed root key pre g -> keyed root key (pre ++ [op]) g1.
Proof.
  intros md U root key same g op g1 pre H [R K]. unfold keyed. rewrite renamed_app.
  destruct op as [m|s c|]; cbn [gen_step renamed] in *.
  - unfold gen_add_mapping in H. bind_inv H. inv H. split; [first [exact R | reflexivity]|].
    intros k. rewrite last_content_app. cbn. apply K.
  - unfold gen_set_source_content in H. rewrite R in H. bind_inv H. rename x into k0. inv H.
    pose proof (same _ _ H0) as Ek. subst k0. cbn [g_source_contents g_source_root]. split; [first [exact R | reflexivity]|].
    intros k. rewrite last_content_app. cbn [last_content]. rewrite <- K.
    destruct (str_eqb k (key s)) eqn:E.
    + apply str_eqb_eq in E. subst. destruct c; [apply hm_get_insert_same | apply hm_get_remove_same].
    + apply str_eqb_neq in E. destruct c; [apply hm_get_insert_other | apply hm_get_remove_other]; exact E.
  - bind_inv H. destruct x as [j g2]. cbn [snd] in H. inv H.
    apply as_json_inv in H0. destruct H0 as [a [ml' [s [sc [_ [_ [-> _]]]]]]]. cbn. split; [first [exact R | reflexivity]|].
    intros k. rewrite last_content_app. cbn. apply K.
Qed.

Lemma keyed_panic : forall md U root key g op g1 pre,
  panic_leaves md U g op g1 -> keyed root key pre g -> keyed root key pre g1.
Proof.
  intros md U root key g op g1 pre P [R K]. destruct op as [m|s c|]; cbn [panic_leaves] in P.
  - subst g1. split; cbn; assumption.
  - subst g1. split; cbn; assumption.
  - destruct P; split; cbn; assumption.
Qed.

Lemma caught_keyed : forall md U root key (same : forall s k, relative md U root s = Ok k -> key s = k) g ops ps g',
  caught md U g ops ps g' -> forall pre, keyed root key pre g -> keyed root key (pre ++ ps) g'.
Proof.
  intros md U root key same g ops ps g' C.
  induction C as [g|g op g1 ops ps g' E C IH|g op p g1 ops ps g' E P C IH]; intros pre K.
  - rewrite app_nil_r. exact K.
  - rewrite (app_assoc pre [op] ps : pre ++ op :: ps = (pre ++ [op]) ++ ps). apply IH. eapply keyed_step; eassumption.
  - apply IH. eapply keyed_panic; eassumption.
Qed.

Lemma step_root : forall md U g op g1, gen_step md U g op = Ok g1 -> g_source_root g1 = g_source_root g.
Proof.
  intros md U g op g1 E. destruct op as [m|s0 c0|]; cbn [gen_step] in E.
  - unfold gen_add_mapping in E. bind_inv E. inv E. reflexivity.
  - unfold gen_set_source_content in E. bind_inv E. inv E. reflexivity.
  - bind_inv E. destruct x as [j g2]. cbn [snd] in E. inv E.
    match goal with J : gen_as_json _ _ _ = Ok _ |- _ => apply as_json_inv in J; rename J into H end.
    destruct H as [a [ml' [s1 [sc [_ [_ [-> _]]]]]]]. reflexivity.
Qed.

Lemma panic_root : forall md U g op g1, panic_leaves md U g op g1 -> g_source_root g1 = g_source_root g.
Proof.
  intros md U g op g1 P. destruct op as [m|s0 c0|]; cbn [panic_leaves] in P; [subst g1; reflexivity|subst g1; reflexivity|].
  destruct P; reflexivity.
Qed.

(** Which of the set_source_content calls pass *)
Lemma caught_content_calls : forall md U root g ops ps g', caught md U g ops ps g' -> g_source_root g = Some root ->
  forall s c, In (GContent s c) ops -> (In (GContent s c) ps <-> exists k, relative md U root s = Ok k).
Proof.
  intros md U root g ops ps g' C.
  assert (ST : forall g s c, g_source_root g = Some root ->
    match relative md U root s with Ok _ => exists g1, gen_step md U g (GContent s c) = Ok g1
    | Panic p => gen_step md U g (GContent s c) = Panic p end).
  { intros g0 s c R. cbn [gen_step]. unfold gen_set_source_content. rewrite R. destruct (relative md U root s); cbn; eauto. }
  intros R s c Hin. split.
  - clear Hin. intros Hin. revert R Hin.
    induction C as [g|g op g1 ops ps g' E C IH|g op p g1 ops ps g' E P C IH]; intros R Hin; [destruct Hin| |].
    + destruct Hin as [->|Hin].
      * specialize (ST g s c R). destruct (relative md U root s); [eauto|congruence].
      * apply IH; [|exact Hin]. rewrite (step_root _ _ _ _ _ E). exact R.
    + apply IH; [|exact Hin]. rewrite (panic_root _ _ _ _ _ P). exact R.
  - intros [k Ek]. revert R Hin.
    induction C as [g|g op g1 ops ps g' E C IH|g op p g1 ops ps g' E P C IH]; intros R Hin; [destruct Hin| |].
    + destruct Hin as [->|Hin]; [left; reflexivity|right]. apply IH; [|exact Hin]. rewrite (step_root _ _ _ _ _ E). exact R.
    + apply IH; [rewrite (panic_root _ _ _ _ _ P); exact R|].
      destruct Hin as [->|Hin]; [|exact Hin]. specialize (ST g s c R). rewrite Ek in ST. destruct ST as [g2 S2]. congruence.
Qed.

Lemma caught_root_contents : forall md U file root skip ops ps g j g' key,
  caught md U (gen_new file (Some root) skip) ops ps g -> gen_as_json md U g = Ok (j, g') ->
  (forall s k, relative md U root s = Ok k -> key s = k) ->
  exists sources, smj_sources j = Some sources
    /\ (forall s c, In (GContent s c) ops -> (In (GContent s c) ps <-> exists k, relative md U root s = Ok k))
    /\ ((forall k, last_content k (renamed key ps) None = None) -> smj_sources_content j = None)
    /\ ((exists k, last_content k (renamed key ps) None <> None) ->
        (forall s, In s sources -> relative md U root s = Ok (key s))
        /\ smj_sources_content j = Some (present (map (fun s => last_content (key s) (renamed key ps) None) sources))).
Proof.
  intros md U file root skip ops ps g j g' key C Ej same.
  pose proof (caught_content_calls _ _ root _ _ _ _ C eq_refl) as CC.
  destruct (caught_keyed _ _ root key same _ _ _ _ C []) as [B2 K1]; [split; reflexivity|]. cbn [app] in K1.
  apply as_json_inv in Ej. destruct Ej as [a [ml' [s [sc [_ [_ [_ [-> Hsc]]]]]]]].
  exists (as_array (g_sources g)). cbn. split; [reflexivity|]. split; [exact CC|]. split.
  - intros Hn. assert (E : g_source_contents g = []).
    { apply hm_get_all_none. intros k. rewrite K1. apply Hn. }
    rewrite E in Hsc. exact Hsc.
  - intros [s0 Hs0]. destruct (g_source_contents g) as [|kv m] eqn:E.
    { exfalso. apply Hs0. rewrite <- K1. reflexivity. }
    destruct Hsc as [l [El ->]]. rewrite B2 in El. unfold generate_sources_contents in El.
    assert (HR : forall s, In s (as_array (g_sources g)) -> relative md U root s = Ok (key s)).
    { apply mapM_inv in El. intros x Hx. clear - El Hx same.
      induction El as [|y r l l' Hy _ IH]; [destruct Hx|]. destruct Hx as [->|Hx]; [|apply IH; exact Hx].
      destruct (relative md U root x) as [k|] eqn:Er; [|discriminate]. rewrite (same _ _ Er). reflexivity. }
    split; [exact HR|]. f_equal. f_equal.
    erewrite mapM_ok in El; [injection El as <-; reflexivity|].
    intros x Hx. rewrite (HR x Hx). cbn [bind]. f_equal. rewrite E. unfold hm_contains. rewrite <- K1.
    destruct (hm_get (key x) (kv :: m)); reflexivity.
Qed.
