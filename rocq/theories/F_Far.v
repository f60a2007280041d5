(** * Lemmas about positions that are far apart *)
From Verif Require Import F_Base M_Base64Vlq M_ArraySet M_Mapping M_SourceMap M_MapLib M_Util M_Generator
  S_Vlq S_Decode S_List S_Mapping S_Generator S_Far F_Vlq F_Sort F_Mapping F_MappingList F_Decode F_Serialize F_FarLoop F_Generator F_GeneratorProps.
From Coq Require Import Sorting.Sorted Sorting.Permutation.

(** ** C86 *)
Lemma generate_far : forall md U file root skip ops,
  Forall valid_mapping (added_mappings ops) -> few_names (2^30) (added_mappings ops) ->
  (root = None \/ no_content ops) ->
  exists g j g' a r, gen_run md U (gen_new file root skip) ops = Ok g
    /\ gen_as_json md U g = Ok (j, g')
    /\ held (list_ops ops ++ [ToArray]) a
    /\ collapsed (map written a) r
    /\ (near_by r <-> steps_fit ops)
    /\ (read_json j = Some r <-> near_by r).
Proof.
  intros md U file root skip ops Hv Hn Hroot. change (2^30) with 1073741824 in Hn.
  assert (He : encodable_run ops).
  { split; [|apply (few_more 1073741824); [lia | exact Hn]]. eapply Forall_impl; [|exact Hv]. intros m [Hm [Hl _]]. split; assumption. }
  destruct (gen_run_ok md U file root skip ops He Hroot) as [g [Eg [HB Hml]]].
  destruct (as_json_ok md U file root skip ops g HB He Hml Hroot)
    as [j [g' [a [ml' [Ej [Ea [Hp [Hs _]]]]]]]].
  pose proof (list_run _ _ _ _ _ Eg) as El. cbn [gen_new g_mappings] in El.
  pose proof (as_json_inv _ _ _ _ _ Ej) as [a2 [ml2 [s [sc [Ea2 [Es [_ [Hj _]]]]]]]].
  rewrite Ea in Ea2. injection Ea2 as <- <-.
  pose proof HB as [_ _ _ H4 H5 _ _].
  destruct (far_loop_start md (g_sources g) (g_names g) a) as [s2 [r [Es2 [Hc [[V1 V2] _]]]]].
  { rewrite Forall_forall. intros m Hm.
    assert (Hin : In m (added_mappings ops)) by (eapply Permutation_in; [symmetry; exact Hp | exact Hm]).
    rewrite Forall_forall in Hv. split; [apply valid_expressible, Hv; exact Hin|].
    split; [|apply known_name]; (eapply known_all; [eassumption | first [exact (proj1 Hn) | exact (proj2 Hn)] | eassumption]). }
  { exact Hs. }
  rewrite Es in Es2. injection Es2 as <-.
  assert (Hh : held (list_ops ops ++ [ToArray]) a).
  { eapply array_held; [|exact El|exact Ea]. eapply Forall_impl; [|exact Hv]. intros m Hm. apply Hm. }
  exists g, j, g', a, r. split; [exact Eg|]. split; [exact Ej|]. split; [exact Hh|]. split; [exact Hc|]. split.
  { split; [|intros H; exact (H a r Hh Hc)]. intros Hn1 b r2 Hb Hc2. rewrite <- (held_unique _ _ Hh _ Hb) in Hc2.
    rewrite <- (collapsed_fun _ _ _ _ Hc Hc2). exact Hn1. }
  assert (Er : map read_back r = r).
  { rewrite <- (map_id r) at 2. apply map_ext_in. intros x Hx. apply (collapsed_In _ _ _ Hc) in Hx.
    apply in_map_iff in Hx. destruct Hx as [m [<- Hm]]. rewrite Forall_forall in Hv.
    change (read_back (written m)) with (read_back m). apply read_back_valid, Hv.
    eapply Permutation_in; [symmetry; exact Hp | exact Hm]. }
  rewrite Er in V1, V2. subst j. unfold read_json. cbn [smj_sources smj_names smj_mappings].
  unfold near_by. change (as_to_vec (g_sources g)) with (as_array (g_sources g)).
  change (as_to_vec (g_names g)) with (as_array (g_names g)). split.
  - intros R. destruct (Forall_dec _ near_dec (steps (mkPos 1 0) (mkPos 1 0) r)) as [F|F]; [exact F|].
    exfalso. destruct (decode_mappings s) as [raws|] eqn:Ed; [|discriminate]. exact (V2 F raws eq_refl R).
  - intros F. destruct (V1 F) as [raws [-> R]]. exact R.
Qed.
