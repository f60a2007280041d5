(** * BasicConsumer: what the queries answer *)
From Verif Require Import F_Base M_ArraySet M_Mapping M_Util M_SourceMap M_Generator M_Json M_MapLib
  M_Consumer S_List S_MapLib S_Consumer F_ArraySet F_Consumer.
From Coq Require Import Sorting.Sorted Sorting.Permutation.

Section Props.
  Context (md : mode) (L : MapLib) (U : UrlLib).
  Notation BC := (BasicConsumer L).

  (** ** Sources *)
  Lemma source_lookup_stable_at : forall c0 c src, fresh L c0 -> follows md L U c0 c ->
    len (bc_get_sources L c0) < 2^31 ->
    bc_get_sources L c = bc_get_sources L c0
    /\ answer (bc_find_source_index md L U c src)
       = match source_lookup md L U c0 src with
         | Ok r => Ok (option_map Z.of_nat r)
         | Panic p => Panic p
         end
    /\ (forall i, source_lookup md L U c0 src = Ok (Some i) -> (i < length (bc_get_sources L c))%nat).
  Proof.
    intros c0 c src Hf Hc Hl.
    assert (E : bc_get_sources L c = bc_get_sources L c0).
    { unfold bc_get_sources. rewrite (fo_sources _ _ _ _ _ Hc). reflexivity. }
    split; [exact E|]. split.
    - rewrite <- (lookup_follows md L U _ _ src Hc). eapply find_spec; [exact Hf | exact Hc |]. rewrite E. exact Hl.
    - intros i Hi. destruct (lookup_bound md L U _ _ _ Hi) as [u Hu]. rewrite E. apply nth_error_Some. congruence.
  Qed.
  Lemma source_lookup_stable : forall c0 qs c src, opened md L U c0 -> asked md L U c0 qs = Ok c ->
    len (bc_get_sources L c0) < 2^31 ->
    bc_get_sources L c = bc_get_sources L c0
    /\ answer (bc_find_source_index md L U c src)
       = match source_lookup md L U c0 src with
         | Ok r => Ok (option_map Z.of_nat r)
         | Panic p => Panic p
         end
    /\ (forall i, source_lookup md L U c0 src = Ok (Some i) -> (i < length (bc_get_sources L c))%nat).
  Proof.
    intros c0 qs c src Ho H. destruct (history md L U _ _ _ Ho H) as [Hf Hc].
    exact (source_lookup_stable_at c0 c src Hf Hc).
  Qed.

  (** the find step inside another query *)
  Lemma find_step : forall c0 c src, fresh L c0 -> follows md L U c0 c -> len (bc_get_sources L c0) < 2^31 ->
    match source_lookup md L U c0 src with
    | Panic p => bc_find_source_index md L U c src = Panic p
    | Ok r => exists c', bc_find_source_index md L U c src = Ok (option_map Z.of_nat r, c')
        /\ follows md L U c0 c' /\ bc_mappings c' = bc_mappings c
        /\ bc_computed_column_spans c' = bc_computed_column_spans c
    end.
  Proof.
    intros c0 c src Hf Hc Hl.
    assert (E : bc_get_sources L c = bc_get_sources L c0).
    { unfold bc_get_sources. rewrite (fo_sources _ _ _ _ _ Hc). reflexivity. }
    pose proof (find_spec md L U c0 c src Hf Hc) as H. rewrite E in H. specialize (H Hl).
    rewrite (lookup_follows md L U _ _ src Hc) in H.
    destruct (source_lookup md L U c0 src) as [r|p].
    - destruct (bc_find_source_index md L U c src) as [[r' c']|p] eqn:Ef; cbn in H; [|discriminate].
      inv H. exists c'. split; [reflexivity|]. exact (find_follows md L U _ _ _ _ _ Hf Hc Ef).
    - destruct (bc_find_source_index md L U c src) as [[r' c']|p'] eqn:Ef; cbn in H; congruence.
  Qed.

  (** ** each_mapping *)
  Lemma each_state : forall c0 c t c', follows md L U c0 c -> bc_ensure_mappings L c = Ok (t, c') ->
    bc_each_mapping L c GeneratedOrd = Ok (lm_by_generated L t, c')
    /\ bc_each_mapping L c OriginalOrd
       = Ok (fst (lm_by_original L t), bc_set_mappings L c (Some (snd (lm_by_original L t)))).
  Proof.
    intros c0 c t c' Ho H. destruct (ensure_ok md L U _ _ _ _ Ho H) as [s [Es [Hs [-> [Hn Hsm]]]]].
    unfold bc_each_mapping. destruct (bc_mappings c) as [t0|] eqn:Em.
    - rewrite (Hsm _ eq_refl). cbn [bind]. split; [reflexivity|]. destruct (lm_by_original L t); reflexivity.
    - unfold bc_parse_mappings. rewrite (fo_map _ _ _ _ _ Ho), Es. cbn [unwrap bind]. rewrite (Hn eq_refl). split; [reflexivity|].
      destruct (lm_by_original L t); reflexivity.
  Qed.

  Lemma reports_iff : forall c0 c t c' l, follows md L U c0 c -> bc_ensure_mappings L c = Ok (t, c') ->
    reports L c l <-> l = lm_by_generated L t.
  Proof.
    intros c0 c t c' l Ho H. unfold reports. rewrite (proj1 (each_state _ _ _ _ Ho H)). cbn.
    split; intros X; congruence.
  Qed.

  (** either the mappings can be read, or they cannot *)
  Lemma ensure_cases : forall c0 c, follows md L U c0 c ->
    (exists s t, bc_ensure_mappings L c = Ok (t, bc_set_mappings L c (Some t))
       /\ smj_mappings (bc_source_map c0) = Some s /\ lib_state L s (bc_computed_column_spans c) t)
    \/ (bc_ensure_mappings L c = Panic PUnwrapNone /\ ~ readable L (bc_source_map c0) /\ bc_mappings c = None).
  Proof.
    intros c0 c Ho. destruct (bc_ensure_mappings L c) as [[t c']|p] eqn:E.
    - left. destruct (ensure_ok md L U _ _ _ _ Ho E) as [s [Es [Hs [-> _]]]]. exists s, t. auto.
    - right. assert (Hn : ~ readable L (bc_source_map c0)).
      { intros Hr. destruct (ensure_readable md L U _ _ Ho Hr) as [t Ht]. congruence. }
      split; [|split; [exact Hn|]].
      + rewrite <- E. exact (proj1 (ensure_unreadable md L U _ _ Ho Hn)).
      + exact (proj2 (ensure_unreadable md L U _ _ Ho Hn)).
  Qed.

  Lemma state_readable : forall s b t, lib_state L s b t -> exists t0, lm_parse L s = Some t0.
  Proof. intros s b t H. induction H; eauto. Qed.

  Lemma each_unreadable : forall c0 c ord, follows md L U c0 c -> ~ readable L (bc_source_map c0) ->
    bc_each_mapping L c ord
    = match smj_mappings (bc_source_map c0) with Some _ => Ok ([], c) | None => Panic PUnwrapNone end.
  Proof.
    intros c0 c ord Ho Hn. destruct (ensure_unreadable md L U _ _ Ho Hn) as [_ Em].
    unfold bc_each_mapping, bc_parse_mappings. rewrite Em, (fo_map _ _ _ _ _ Ho).
    destruct (smj_mappings (bc_source_map c0)) as [s|] eqn:Es; [|reflexivity]. cbn [unwrap bind].
    destruct (lm_parse L s) as [t|] eqn:Et; [|reflexivity]. exfalso. apply Hn. exists s, t. auto.
  Qed.

  Context (ok : MapLibOk L).

  Lemma each_mapping_generated_at : forall c0 c l l0, fresh L c0 -> follows md L U c0 c ->
    reports L c0 l0 -> reports L c l ->
    StronglySorted raw_le l /\ Forall raw_u32 l /\ map strip l = map strip l0.
  Proof.
    intros c0 c l l0 Hf Hc R0 R.
    destruct (ensure_cases _ _ Hc) as [[s [t [E [Es Hs]]]]|[E [Hn Em]]].
    - apply (reports_iff _ _ _ _ _ Hc E) in R. subst l.
      destruct (mo_sorted L ok _ _ _ Hs) as [H1 H2]. split; [exact H1|]. split; [exact H2|].
      destruct (state_readable _ _ _ Hs) as [t0 Et].
      assert (Hr : readable L (bc_source_map c0)) by (exists s, t0; auto).
      pose proof (follows_refl md L U _ Hf) as Hc0.
      destruct (ensure_readable md L U _ _ Hc0 Hr) as [t1 E1].
      destruct (ensure_ok md L U _ _ _ _ Hc0 E1) as [s1 [Es1 [_ [_ [Hp _]]]]].
      apply (reports_iff _ _ _ _ _ Hc0 E1) in R0. subst l0. rewrite Es in Es1. inv Es1.
      apply (mo_same L ok s1 _ _ _ Hs). apply Hp. apply (fr_mappings _ _ Hf).
    - unfold reports in *. rewrite (each_unreadable _ _ _ Hc Hn) in R.
      rewrite (each_unreadable _ _ _ (follows_refl md L U _ Hf) Hn) in R0.
      destruct (smj_mappings (bc_source_map c0)); [|discriminate]. cbn in *. inv R. inv R0.
      repeat split; constructor.
  Qed.
  Lemma each_mapping_generated : forall c0 qs c l l0, opened md L U c0 -> asked md L U c0 qs = Ok c ->
    reports L c0 l0 -> reports L c l ->
    StronglySorted raw_le l /\ Forall raw_u32 l /\ map strip l = map strip l0.
  Proof.
    intros c0 qs c l l0 Ho H. destruct (history md L U _ _ _ Ho H) as [Hf Hc].
    exact (each_mapping_generated_at c0 c l l0 Hf Hc).
  Qed.

  Lemma each_mapping_original_at : forall c0 c l lo, fresh L c0 -> follows md L U c0 c ->
    reports L c l -> answer (bc_each_mapping L c OriginalOrd) = Ok lo ->
    Permutation (map strip lo) (filter has_original (map strip l)) /\ StronglySorted orig_le lo
    /\ Forall (ends_right l) lo.
  Proof.
    intros c0 c l lo Hf Hc R R'.
    destruct (ensure_cases _ _ Hc) as [[s [t [E [Es Hs]]]]|[E [Hn Em]]].
    - apply (reports_iff _ _ _ _ _ Hc E) in R. subst l.
      rewrite (proj2 (each_state _ _ _ _ Hc E)) in R'. cbn in R'. inv R'.
      destruct (mo_by_original L ok _ _ _ Hs) as [H1 H2]. split; [exact H1|]. split; [exact H2|].
      apply Forall_forall. intros m Hm. apply (mo_found_last L ok _ _ _ m Hs). exact Hm.
    - unfold reports in *. rewrite (each_unreadable _ _ _ Hc Hn) in R. rewrite (each_unreadable _ _ _ Hc Hn) in R'.
      destruct (smj_mappings (bc_source_map c0)); [|discriminate]. cbn in *. inv R. inv R'.
      repeat split; constructor.
  Qed.
  Lemma each_mapping_original : forall c0 qs c l lo, opened md L U c0 -> asked md L U c0 qs = Ok c ->
    reports L c l -> answer (bc_each_mapping L c OriginalOrd) = Ok lo ->
    Permutation (map strip lo) (filter has_original (map strip l)) /\ StronglySorted orig_le lo
    /\ Forall (ends_right l) lo.
  Proof.
    intros c0 qs c l lo Ho H. destruct (history md L U _ _ _ Ho H) as [Hf Hc].
    exact (each_mapping_original_at c0 c l lo Hf Hc).
  Qed.

  (** ** original_position_for *)
  Lemma in_by_place : forall l m p, In (m, p) (by_place l) -> In m l /\ p = gen_loc m.
  Proof.
    intros l m p H. unfold by_place in H. apply in_map_iff in H. destruct H as [x [E Hx]]. inv E. auto.
  Qed.

  Lemma to_i32_eq_pos : forall x n, u32 x -> 1 <= n <= 2147483647 -> (to_i32 x = n <-> x = n).
  Proof.
    intros x n Hx Hn. unfold u32 in Hx. change (2^32) with 4294967296 in Hx. split.
    - intros H. destruct (to_i32_eqm x) as [k Hk]. pose proof (to_i32_range x). lia.
    - intros ->. apply to_i32_id. lia.
  Qed.

  Lemma original_guard : forall c g b, p_line g < 1 -> bc_original_position_for md L c g b = Panic PLine.
  Proof. intros c g b H. unfold bc_original_position_for. replace (p_line g <? 1) with true by lia. reflexivity. Qed.

  Lemma original_guard2 : forall c g b, 1 <= p_line g -> p_column g < 0 ->
    bc_original_position_for md L c g b = Panic PColumn.
  Proof.
    intros c g b H H2. unfold bc_original_position_for. replace (p_line g <? 1) with false by lia.
    replace (p_column g <? 0) with true by lia. reflexivity.
  Qed.

  (** the query up to the library call *)
  Lemma original_unfold : forall c0 c g b, follows md L U c0 c -> position_ok (p_line g) (p_column g) ->
    (~ readable L (bc_source_map c0) /\ bc_original_position_for md L c g b = Panic PUnwrapNone)
    \/ exists s t, smj_mappings (bc_source_map c0) = Some s
       /\ lib_state L s (bc_computed_column_spans c) t /\ reports L c (lm_by_generated L t)
       /\ nearest (by_place (lm_by_generated L t)) (p_line g - 1, p_column g) (default_bias b)
            (lm_original_for L t (p_line g - 1) (p_column g) (default_bias b))
       /\ bc_original_position_for md L c g b
          = match lm_original_for L t (p_line g - 1) (p_column g) (default_bias b) with
            | Some mapping =>
                if to_i32 (rm_line mapping) =? p_line g then
                  let* a := option_map_res (bc_original_answer md L (bc_set_mappings L c (Some t)) mapping) (rm_original mapping) in
                  Ok (a, bc_set_mappings L c (Some t))
                else Ok (None, bc_set_mappings L c (Some t))
            | None => Ok (None, bc_set_mappings L c (Some t))
            end.
  Proof.
    intros c0 c g b Hc [Hl Hco]. unfold i32_max in *. change (2^31 - 1) with 2147483647 in *.
    unfold bc_original_position_for.
    replace (p_line g <? 1) with false by lia. replace (p_column g <? 0) with false by lia.
    destruct (ensure_cases _ _ Hc) as [[s [t [E [Es Hs]]]]|[E [Hn Em]]]; rewrite E; cbn [bind]; [right|left; auto].
    exists s, t. split; [exact Es|]. split; [exact Hs|]. split; [apply (reports_iff _ _ _ _ _ Hc E); reflexivity|].
    rewrite i32_sub_ok by lia. cbn [bind]. rewrite !to_u32_id by lia.
    split; [|reflexivity].
    apply (mo_original_for L ok _ _ _ _ _ _ Hs); unfold u32; change (2^32) with 4294967296; lia.
  Qed.

  Lemma original_never : forall c0 qs c g b, opened md L U c0 -> asked md L U c0 qs = Ok c ->
    p_line g <= i32_max -> p_column g <= i32_max -> default_bias b = GreatestLowerBound ->
    let r := answer (bc_original_position_for md L c g b) in
    (p_line g < 1 -> r = Panic PLine)
    /\ (1 <= p_line g -> p_column g < 0 -> r = Panic PColumn)
    /\ (1 <= p_line g -> 0 <= p_column g -> ~ readable L (bc_source_map c0) -> r = Panic PUnwrapNone)
    /\ (1 <= p_line g -> 0 <= p_column g -> readable L (bc_source_map c0) -> r = Ok None).
  Proof.
    intros c0 qs c g b Ho H Hl Hco Hb r. subst r. destruct (history md L U _ _ _ Ho H) as [Hf Hc].
    split; [intros X; rewrite original_guard by exact X; reflexivity|].
    split; [intros X Y; rewrite original_guard2 by assumption; reflexivity|].
    split; intros X Y Z.
    - assert (Hp : position_ok (p_line g) (p_column g)) by (split; lia).
      destruct (original_unfold c0 c g b Hc Hp) as [[Hn E]|[s [t [Es [Hs _]]]]]; [rewrite E; reflexivity|].
      exfalso. apply Z. destruct (state_readable _ _ _ Hs) as [t0 Et]. exists s, t0. auto.
    - assert (Hp : position_ok (p_line g) (p_column g)) by (split; lia).
      destruct (original_unfold c0 c g b Hc Hp) as [[Hn E]|[s [t [Es [Hs [_ [Hnear E]]]]]]]; [contradiction|].
      rewrite E. destruct (lm_original_for L t _ _ _) as [m|]; [|reflexivity].
      assert (Hm : to_i32 (rm_line m) =? p_line g = false).
      { rewrite Hb in Hnear. destruct Hnear as [p [Hi Hd]]. apply in_by_place in Hi. destruct Hi as [Hi ->].
        destruct (mo_sorted L ok _ _ _ Hs) as [_ Hu]. rewrite Forall_forall in Hu. pose proof (Hu _ Hi) as [Hu1 _].
        apply Z.eqb_neq. rewrite to_i32_eq_pos; [|exact Hu1|].
        - destruct Hd as [Hd|[_ [Hd _]]]; [inv Hd; lia|]. unfold loc_lt, gen_loc in Hd. cbn in Hd. lia.
        - unfold i32_max in *. change (2^31 - 1) with 2147483647 in *. lia. }
      rewrite Hm. reflexivity.
  Qed.

  (** whatever the bias *)
  Lemma original_refuses : forall c0 qs c g b, opened md L U c0 -> asked md L U c0 qs = Ok c ->
    p_line g <= i32_max -> p_column g <= i32_max ->
    let r := answer (bc_original_position_for md L c g b) in
    (p_line g < 1 -> r = Panic PLine)
    /\ (1 <= p_line g -> p_column g < 0 -> r = Panic PColumn)
    /\ (1 <= p_line g -> 0 <= p_column g -> ~ readable L (bc_source_map c0) -> r = Panic PUnwrapNone).
  Proof.
    intros c0 qs c g b Ho H Hl Hco r. subst r. destruct (history md L U _ _ _ Ho H) as [Hf Hc].
    split; [intros X; rewrite original_guard by exact X; reflexivity|].
    split; [intros X Y; rewrite original_guard2 by assumption; reflexivity|]. intros X Y Z.
    assert (Hp : position_ok (p_line g) (p_column g)) by (split; lia).
    destruct (original_unfold c0 c g b Hc Hp) as [[Hn E]|[s [t [Es [Hs _]]]]]; [rewrite E; reflexivity|].
    exfalso. apply Z. destruct (state_readable _ _ _ Hs) as [t0 Et]. exists s, t0. auto.
  Qed.

  (** *** names and sources *)
  Lemma name_at_spec : forall c i, u32 i -> bc_name_at L c i =
    match find_name (smj_names (bc_source_map c)) (Some i) with
    | Ok (Some n) => Ok n | Ok None => Panic PIndex | Panic p => Panic p end.
  Proof.
    intros c i Hi. unfold bc_name_at, find_name. destruct (smj_names (bc_source_map c)) as [l|]; [|reflexivity].
    cbn [unwrap bind]. unfold u32 in Hi. change (2^32) with 4294967296 in Hi. rewrite to_usize_id by lia.
    unfold vec_index, vec_get. destruct ((0 <=? i) && (i <? len l)) eqn:E.
    - destruct (nth_error l (Z.to_nat i)); reflexivity.
    - assert (En : nth_error l (Z.to_nat i) = None) by (apply nth_error_None; unfold len in E; lia).
      rewrite En. reflexivity.
  Qed.

  Lemma at_spec : forall c i, u32 i -> len (bc_get_sources L c) < 2^31 ->
    as_at (bc_absolute_sources c) (to_i32 i) = nth_error (bc_get_sources L c) (Z.to_nat i).
  Proof.
    intros c i Hi Hl. unfold as_at, bc_get_sources, as_to_vec in *. set (l := as_array (bc_absolute_sources c)) in *.
    unfold u32 in Hi. change (2^32) with 4294967296 in Hi. change (2^31) with 2147483648 in Hl.
    pose proof (len_nonneg _ l) as Hn. rewrite (to_i32_id (len l)) by lia.
    destruct (Z_lt_dec i 2147483648) as [Hs|Hs].
    - rewrite to_i32_id by lia. destruct ((0 <=? i) && (i <? len l)) eqn:E.
      + rewrite to_usize_id by lia. unfold vec_get. rewrite E. reflexivity.
      + symmetry. apply nth_error_None. unfold len in E. lia.
    - destruct (to_i32_eqm i) as [k Hk]. pose proof (to_i32_range i).
      replace ((0 <=? to_i32 i) && (to_i32 i <? len l)) with false by lia.
      symmetry. apply nth_error_None. unfold len in *. lia.
  Qed.

  Lemma original_answer_spec : forall c t m o, raw_u32 m -> raw_i31 m -> rm_original m = Some o ->
    len (bc_get_sources L c) < 2^31 ->
    bc_original_answer md L (bc_set_mappings L c t) m o
    = match find_name (smj_names (bc_source_map c)) (ol_name o) with
      | Ok name => Ok (original_answer (bc_get_sources L c) m o name)
      | Panic p => Panic p
      end.
  Proof.
    intros c t m o [U1 [U2 [U3 U4]]] [I1 [I2 I4]] Eo Hl. rewrite Eo in U4, I4.
    destruct U4 as [U4 [U5 [U6 U7]]]. destruct I4 as [I4 I5].
    unfold u32, i31 in *. change (2^32) with 4294967296 in *. change (2^31) with 2147483648 in *.
    assert (En : option_map_res (bc_name_at L (bc_set_mappings L c t)) (ol_name o)
                 = find_name (smj_names (bc_source_map c)) (ol_name o)).
    { destruct (ol_name o) as [n|]; [|reflexivity]. cbn [option_map_res]. rewrite name_at_spec by exact U7.
      cbn [bc_set_mappings bc_source_map]. unfold find_name. destruct (smj_names (bc_source_map c)) as [l|]; [|reflexivity].
      destruct (nth_error l (Z.to_nat n)); reflexivity. }
    unfold bc_original_answer. rewrite En. destruct (find_name _ _) as [name|p]; cbn [bind]; [|reflexivity].
    rewrite !u32_add_ok by lia. cbn [bind].
    pose proof (at_spec c (ol_source o) U4 Hl) as Ha. cbn [bc_set_mappings bc_absolute_sources].
    rewrite Ha. rewrite !to_i32_id by lia. unfold original_answer.
    destruct (rm_last_column m) as [lc|]; cbn [option_map]; [|reflexivity].
    unfold as_signed. change (2^31) with 2147483648. change (2^32) with 4294967296.
    destruct (lc <? 2147483648) eqn:El; [rewrite to_i32_id by lia; reflexivity|].
    do 3 f_equal. unfold to_i32. change (2^31) with 2147483648. change (2^32) with 4294967296.
    replace (lc + 2147483648) with (lc - 2147483648 + 1 * 4294967296) by lia. rewrite Z.mod_add by lia.
    rewrite Z.mod_small by lia. lia.
  Qed.

  Lemma original_spec_at : forall c0 c g b l, fresh L c0 -> follows md L U c0 c ->
    len (bc_get_sources L c0) < 2^31 -> readable L (bc_source_map c0) -> reports L c l -> Forall raw_i31 l ->
    position_ok (p_line g) (p_column g) ->
    exists found, nearest (by_place l) (p_line g - 1, p_column g) (default_bias b) found
      /\ answer (bc_original_position_for md L c g b)
         = original_outcome (bc_source_map c0) (bc_get_sources L c0) (p_line g) found.
  Proof.
    intros c0 c g b l Hf Hc Hlen Hr R Hi Hp.
    destruct (original_unfold c0 c g b Hc Hp) as [[Hn E]|[s [t [Es [Hs [R' [Hnear E]]]]]]]; [contradiction|].
    assert (El : l = lm_by_generated L t) by (unfold reports in *; congruence). subst l.
    exists (lm_original_for L t (p_line g - 1) (p_column g) (default_bias b)). split; [exact Hnear|].
    rewrite E. unfold original_outcome.
    destruct (lm_original_for L t (p_line g - 1) (p_column g) (default_bias b)) as [m|]; [|reflexivity].
    destruct Hnear as [p [Hm _]]. apply in_by_place in Hm. destruct Hm as [Hm _].
    pose proof (proj2 (mo_sorted L ok _ _ _ Hs)) as Hu. rewrite Forall_forall in Hu, Hi.
    pose proof (Hu _ Hm) as Um. pose proof (Hi _ Hm) as Im.
    assert (Eb : (to_i32 (rm_line m) =? p_line g) = (rm_line m =? p_line g)).
    { destruct Hp as [Hp _]. unfold i32_max in Hp. change (2^31 - 1) with 2147483647 in Hp.
      pose proof (to_i32_eq_pos (rm_line m) (p_line g) (proj1 Um) Hp) as H0.
      destruct (rm_line m =? p_line g) eqn:X; [apply Z.eqb_eq; apply H0; lia | apply Z.eqb_neq; rewrite H0; lia]. }
    rewrite Eb. destruct (rm_line m =? p_line g); [|reflexivity].
    destruct (rm_original m) as [o|] eqn:Eo; cbn [option_map_res]; [|reflexivity].
    assert (Esrc : bc_get_sources L c = bc_get_sources L c0).
    { unfold bc_get_sources. rewrite (fo_sources _ _ _ _ _ Hc). reflexivity. }
    rewrite original_answer_spec; [|exact Um|exact Im|exact Eo|rewrite Esrc; exact Hlen].
    rewrite (fo_map _ _ _ _ _ Hc), Esrc. destruct (find_name _ _); reflexivity.
  Qed.
  Lemma original_spec : forall c0 qs c g b l, opened md L U c0 -> asked md L U c0 qs = Ok c ->
    len (bc_get_sources L c0) < 2^31 -> readable L (bc_source_map c0) -> reports L c l -> Forall raw_i31 l ->
    position_ok (p_line g) (p_column g) ->
    exists found, nearest (by_place l) (p_line g - 1, p_column g) (default_bias b) found
      /\ answer (bc_original_position_for md L c g b)
         = original_outcome (bc_source_map c0) (bc_get_sources L c0) (p_line g) found.
  Proof.
    intros c0 qs c g b l Ho H. destruct (history md L U _ _ _ Ho H) as [Hf Hc].
    exact (original_spec_at c0 c g b l Hf Hc).
  Qed.

  (** ** generated_position_for *)
  Lemma in_of_source : forall src l m p, In (m, p) (of_source src l) ->
    exists o, rm_original m = Some o /\ ol_source o = src /\ p = (ol_line o, ol_column o)
      /\ exists m', In m' l /\ m = strip m'.
  Proof.
    intros src. induction l as [|x l IH]; intros m p H; cbn in H; [contradiction|].
    destruct (rm_original x) as [o|] eqn:Eo.
    - destruct (ol_source o =? src) eqn:Es.
      + destruct H as [H|H].
        * inv H. exists o. cbn. split; [exact Eo|]. split; [lia|]. split; [reflexivity|]. exists x. split; [left|]; reflexivity.
        * destruct (IH _ _ H) as [o' [H1 [H2 [H3 [m' [H4 H5]]]]]]. exists o'. repeat split; try assumption.
          exists m'. split; [right|]; assumption.
      + destruct (IH _ _ H) as [o' [H1 [H2 [H3 [m' [H4 H5]]]]]]. exists o'. repeat split; try assumption.
        exists m'. split; [right|]; assumption.
    - destruct (IH _ _ H) as [o' [H1 [H2 [H3 [m' [H4 H5]]]]]]. exists o'. repeat split; try assumption.
      exists m'. split; [right|]; assumption.
  Qed.

  Lemma spans_next : forall l m z, spans l -> In m l -> rm_last_column m = Some z ->
    exists m', In m' l /\ rm_column m' = z.
  Proof.
    induction l as [|x l IH]; intros m z Hs Hm E; [contradiction|]. destruct Hs as [Hx Hs].
    destruct Hm as [<-|Hm].
    - destruct l as [|y l]; [congruence|]. destruct Hx as [H1 H2].
      destruct (Z.eq_dec (rm_line x) (rm_line y)) as [D|D]; [|rewrite (H2 D) in E; discriminate].
      rewrite (H1 D) in E. injection E as <-. exists y. split; [right; left|]; reflexivity.
    - destruct (IH _ _ Hs Hm E) as [m' [H1 H2]]. exists m'. split; [right|]; assumption.
  Qed.

  Lemma ends_small : forall l r z, Forall raw_u32 l -> Forall raw_i31 l -> ends_right l r -> rm_last_column r = Some z ->
    0 <= z < 2147483648.
  Proof.
    intros l r z Hu Hi [H|[l' [H1 [H2 H3]]]] E; [congruence|].
    destruct (spans_next _ _ _ H2 H3 E) as [m' [H4 <-]].
    assert (X : In (strip m') (map strip l)) by (rewrite <- H1; apply in_map; exact H4).
    apply in_map_iff in X. destruct X as [x [E2 X]]. rewrite Forall_forall in Hu, Hi.
    destruct (Hu _ X) as [_ [Y _]]. destruct (Hi _ X) as [_ [Z _]].
    replace (rm_column m') with (rm_column x) by (change (rm_column (strip x) = rm_column (strip m')); congruence).
    unfold u32, i31 in *. change (2^31) with 2147483648 in Z. lia.
  Qed.

  Lemma generated_spec_at : forall c0 c src i line column b l, fresh L c0 -> follows md L U c0 c ->
    len (bc_get_sources L c0) < 2^31 -> readable L (bc_source_map c0) -> reports L c l -> Forall raw_i31 l ->
    source_lookup md L U c0 src = Ok (Some i) -> position_ok line column ->
    exists found last, nearest (of_source (Z.of_nat i) l) (line - 1, column) (default_bias b) found
      /\ answer (bc_generated_position_for md L U c src line column b)
         = generated_outcome (bc_source_map c0) (bc_get_sources L c0) i found last
      /\ end_shown (bc_computed_column_spans c = true) l found last.
  Proof.
    intros c0 c src i line column b l Hf Hc Hlen Hr R Hi Hlk [Hp1 Hp2].
    unfold i32_max in *. change (2^31 - 1) with 2147483647 in *.
    pose proof (find_step c0 c src Hf Hc Hlen) as Hs. rewrite Hlk in Hs.
    destruct Hs as [c1 [Ef [Hc1 [Em Ec]]]]. cbn [option_map] in Ef.
    assert (Hib : u32 (Z.of_nat i) /\ Z.of_nat i < 2147483648).
    { destruct (lookup_bound md L U _ _ _ Hlk) as [u Hu].
      assert (i < length (bc_get_sources L c0))%nat by (apply nth_error_Some; congruence).
      unfold len in Hlen. change (2^31) with 2147483648 in Hlen. unfold u32. change (2^32) with 4294967296. lia. }
    destruct Hib as [Hi1 Hi2].
    unfold bc_generated_position_for. rewrite Ef. cbn [bind].
    replace (line <? 1) with false by lia. replace (column <? 0) with false by lia.
    destruct (ensure_readable md L U _ _ Hc1 Hr) as [t Et]. rewrite Et. cbn [bind].
    destruct (ensure_ok md L U _ _ _ _ Hc1 Et) as [s [Es [Hs _]]].
    assert (El : l = lm_by_generated L t).
    { assert (Et' : bc_ensure_mappings L c = Ok (t, bc_set_mappings L c (Some t))).
      { destruct (ensure_readable md L U _ _ Hc Hr) as [t' Et']. rewrite Et'.
        assert (t' = t); [|congruence].
        unfold bc_ensure_mappings in Et, Et'. rewrite Em in Et. destruct (bc_mappings c) as [t0|] eqn:X.
        - cbn [bind] in Et, Et'. rewrite X in Et'. rewrite Em in Et. cbn in *. congruence.
        - unfold bc_parse_mappings in *. rewrite (fo_map _ _ _ _ _ Hc1) in Et. rewrite (fo_map _ _ _ _ _ Hc) in Et'.
          destruct (smj_mappings (bc_source_map c0)) as [s0|]; cbn [unwrap bind] in *; [|discriminate].
          destruct (lm_parse L s0); cbn in *; congruence. }
      apply (reports_iff _ _ _ _ _ Hc Et') in R. exact R. }
    subst l. rewrite i32_sub_ok by lia. cbn [bind].
    rewrite (to_u32_id (Z.of_nat i)) by (unfold u32 in Hi1; change (2^32) with 4294967296 in Hi1; lia).
    rewrite !to_u32_id by lia.
    pose proof (mo_generated_for L ok s _ t (Z.of_nat i) (line - 1) column (default_bias b) Hs Hi1) as Hnear.
    assert (X : forall z, 0 <= z <= 2147483647 -> u32 z) by (intros z Hz; unfold u32; change (2^32) with 4294967296; lia).
    assert (Hu1 : u32 (line - 1)) by (apply X; lia). assert (Hu2 : u32 column) by (apply X; lia).
    specialize (Hnear Hu1 Hu2).
    fold (default_bias b). destruct (lm_generated_for L t (Z.of_nat i) (line - 1) column (default_bias b)) as [found t2] eqn:Eg.
    cbn [fst] in Hnear. exists (option_map strip found).
    set (cs := bc_set_mappings L (bc_set_mappings L c1 (Some t)) (Some t2)).
    destruct found as [m|]; cbn [option_map] in *.
    - assert (Hm : exists o, rm_original m = Some o /\ ol_source o = Z.of_nat i
          /\ raw_u32 (strip m) /\ raw_i31 (strip m)).
      { destruct Hnear as [p [Hin _]]. destruct (in_of_source _ _ _ _ Hin) as [o [H1 [H2 [_ [m' [H4 H5]]]]]].
        exists o. split; [exact H1|]. split; [exact H2|]. rewrite H5.
        pose proof (proj2 (mo_sorted L ok _ _ _ Hs)) as Hu. rewrite Forall_forall in Hu, Hi.
        destruct (Hu _ H4) as [V1 [V2 [_ V4]]]. destruct (Hi _ H4) as [W1 [W2 W4]].
        split; [split; [assumption|split; [assumption|split; [exact I|assumption]]] | split; [assumption|split; assumption]]. }
      destruct Hm as [o [Eo [Eso [[V1 [V2 [_ V4]]] [W1 [W2 W4]]]]]].
      cbn [strip rm_line rm_column rm_last_column rm_original] in V1, V2, V4, W1, W2, W4.
      rewrite Eo in V4, W4 |- *. destruct V4 as [V4 [V5 [V6 V7]]]. destruct W4 as [W4 W5]. cbn [unwrap bind].
      unfold u32, i31 in V1, V2, V5, V6, W1, W2, W4, W5.
      change (2^32) with 4294967296 in *. change (2^31) with 2147483648 in *.
      rewrite Eso. rewrite (to_i32_id (Z.of_nat i)) by lia. rewrite Z.eqb_refl.
      unfold bc_generated_answer. rewrite u32_add_ok by lia. cbn [bind]. rewrite Eso.
      rewrite name_at_spec by exact Hi1.
      set (last := if bc_computed_column_spans cs && is_none (rm_last_column m) then Some (-1)
                   else option_map to_i32 (rm_last_column m)).
      exists last. split; [exact Hnear|]. split.
      + cbn [generated_outcome strip rm_original rm_line rm_column]. rewrite Eo.
        subst cs. cbn [bc_set_mappings bc_source_map bc_absolute_sources bc_computed_column_spans] in *.
        rewrite (fo_map _ _ _ _ _ Hc1), (fo_sources _ _ _ _ _ Hc1).
        pose proof (at_spec c0 (Z.of_nat i) Hi1 Hlen) as Ha. rewrite Ha. rewrite Nat2Z.id. rewrite !to_i32_id by lia.
        assert (Hfn : find_name (smj_names (bc_source_map c0)) (Some (Z.of_nat i)) <> Ok None).
        { unfold find_name. destruct (smj_names (bc_source_map c0)) as [ns|]; [|discriminate].
          destruct (nth_error ns _); discriminate. }
        destruct (find_name (smj_names (bc_source_map c0)) (Some (Z.of_nat i))) as [[n|]|p]; cbn [bind answer]; try reflexivity.
        exfalso. apply Hfn. reflexivity.
      + exists m. split; [reflexivity|].
        assert (He : ends_right (lm_by_generated L t) m).
        { apply (mo_found_last L ok s _ t m Hs) with (src := Z.of_nat i) (l := line - 1) (c := column) (bias := default_bias b).
          rewrite Eg. reflexivity. }
        split; [exact He|].
        assert (Hz : option_map to_i32 (rm_last_column m) = rm_last_column m).
        { destruct (rm_last_column m) as [z|] eqn:Ez; [|reflexivity]. cbn. f_equal. apply to_i32_id.
          pose proof (ends_small _ _ _ (proj2 (mo_sorted L ok _ _ _ Hs)) Hi He Ez). lia. }
        assert (Hsp : bc_computed_column_spans cs = true <-> bc_computed_column_spans c = true).
        { subst cs. cbn [bc_set_mappings bc_computed_column_spans]. rewrite Ec. reflexivity. }
        subst last. rewrite Hz. split; intros Hq.
        * rewrite (proj2 Hsp Hq). destruct (rm_last_column m); reflexivity.
        * destruct (bc_computed_column_spans cs); [exfalso; apply Hq, Hsp; reflexivity|]. reflexivity.
    - exists (Some 0). split; [exact Hnear|]. split; [reflexivity|exact I].
  Qed.
  Lemma generated_spec : forall c0 qs c src i line column b l, opened md L U c0 -> asked md L U c0 qs = Ok c ->
    len (bc_get_sources L c0) < 2^31 -> readable L (bc_source_map c0) -> reports L c l -> Forall raw_i31 l ->
    source_lookup md L U c0 src = Ok (Some i) -> position_ok line column ->
    exists found last, nearest (of_source (Z.of_nat i) l) (line - 1, column) (default_bias b) found
      /\ answer (bc_generated_position_for md L U c src line column b)
         = generated_outcome (bc_source_map c0) (bc_get_sources L c0) i found last
      /\ end_shown (In QSpans qs) l found last.
  Proof.
    intros c0 qs c src i line column b l Ho H Hlen Hr R Hi Hlk Hp. destruct (history md L U _ _ _ Ho H) as [Hf Hc].
    destruct (generated_spec_at c0 c src i line column b l Hf Hc Hlen Hr R Hi Hlk Hp) as [found [last [A [B C]]]].
    exists found, last. split; [exact A|]. split; [exact B|].
    assert (Hsp : bc_computed_column_spans c = true <-> In QSpans qs).
    { rewrite (asked_spans md L U c0 qs c0 c Hf (follows_refl md L U _ Hf) H). rewrite (fr_spans _ _ Hf).
      split; [intros [X'|X']; [discriminate|exact X'] | auto]. }
    destruct found as [m|]; [|exact I]. destruct C as [r [C1 [C2 [C3 C4]]]]. exists r. split; [exact C1|]. split; [exact C2|].
    split; intros Q; [apply C3; apply Hsp; exact Q | apply C4; rewrite Hsp; exact Q].
  Qed.

  Lemma at_place_not_nil : forall A (q : loc) (l : list (A * loc)),
    filter (fun x => (fst (snd x) =? fst q) && (snd (snd x) =? snd q)) l <> [] -> exists a, In (a, q) l.
  Proof.
    intros A q l H. destruct (filter (fun x : A * loc => (fst (snd x) =? fst q) && (snd (snd x) =? snd q)) l) as [|[a p] r] eqn:E; [exfalso; exact (H E)|].
    assert (Hi : In (a, p) (filter (fun x : A * loc => (fst (snd x) =? fst q) && (snd (snd x) =? snd q)) l))
      by (rewrite E; left; reflexivity).
    apply filter_In in Hi. destruct Hi as [Hi Hp]. cbn in Hp. exists a.
    assert (p = q) as <-; [|exact Hi]. destruct p, q; cbn in *. f_equal; lia.
  Qed.

  Lemma generated_exact : forall c0 qs c src i line column b l, opened md L U c0 -> asked md L U c0 qs = Ok c ->
    len (bc_get_sources L c0) < 2^31 -> readable L (bc_source_map c0) -> reports L c l -> Forall raw_i31 l ->
    source_lookup md L U c0 src = Ok (Some i) -> position_ok line column ->
    at_place (line - 1, column) (of_source (Z.of_nat i) l) <> [] ->
    match find_name (smj_names (bc_source_map c0)) (Some (Z.of_nat i)) with
    | Panic p => answer (bc_generated_position_for md L U c src line column b) = Panic p
    | Ok name => exists a, answer (bc_generated_position_for md L U c src line column b) = Ok (Some a)
        /\ m_original a = Some (mkPos (line - 1) column) /\ m_name a = name
        /\ m_source a = nth_error (bc_get_sources L c0) i
    end.
  Proof.
    intros c0 qs c src i line column b l Ho H Hlen Hr R Hi Hlk Hp Hm.
    destruct (generated_spec c0 qs c src i line column b l Ho H Hlen Hr R Hi Hlk Hp) as [found [last [Hnear [E _]]]].
    assert (Hex : exists a, In (a, (line - 1, column)) (of_source (Z.of_nat i) l)).
    { apply at_place_not_nil. intros X. apply Hm. unfold at_place. rewrite X. reflexivity. }
    destruct Hex as [a Ha]. rewrite E. destruct found as [m|].
    - destruct Hnear as [p [Hin Hd]].
      assert (p = (line - 1, column)).
      { destruct Hd as [Hd|[Hd _]]; [exact Hd|]. exfalso. exact (Hd _ _ Ha eq_refl). }
      subst p. destruct (in_of_source _ _ _ _ Hin) as [o [E1 [_ [E3 _]]]]. injection E3 as E3 E4.
      cbn [generated_outcome]. rewrite E1. destruct (find_name _ _) as [name|p]; [|reflexivity].
      eexists. split; [reflexivity|]. cbn. rewrite <- E3, <- E4. repeat split; reflexivity.
    - exfalso. cbn [nearest] in Hnear. pose proof (Hnear _ _ Ha) as X. unfold loc_lt in X. cbn in X.
      destruct (default_bias b); lia.
  Qed.

  (** ** The remaining outcomes of the queries that take a source *)
  Lemma source_query_guards : forall c0 qs c src, opened md L U c0 -> asked md L U c0 qs = Ok c ->
    len (bc_get_sources L c0) < 2^31 ->
    (forall p, source_lookup md L U c0 src = Panic p ->
       (forall line column b, answer (bc_generated_position_for md L U c src line column b) = Panic p)
       /\ (forall line column, answer (bc_all_generated_position_for md L U c src line column) = Panic p))
    /\ (source_lookup md L U c0 src = Ok None ->
       (forall line column b, answer (bc_generated_position_for md L U c src line column b) = Ok None)
       /\ (forall line column, answer (bc_all_generated_position_for md L U c src line column) = Ok []))
    /\ (forall i, source_lookup md L U c0 src = Ok (Some i) ->
       (forall line column b, line < 1 -> answer (bc_generated_position_for md L U c src line column b) = Panic PLine)
       /\ (forall line column b, 1 <= line -> column < 0 ->
            answer (bc_generated_position_for md L U c src line column b) = Panic PColumn)
       /\ (forall line column b, 1 <= line -> 0 <= column -> ~ readable L (bc_source_map c0) ->
            answer (bc_generated_position_for md L U c src line column b) = Panic PUnwrapNone)
       /\ (forall line column, line < 1 -> answer (bc_all_generated_position_for md L U c src line column) = Panic PLine)
       /\ (forall line column, 1 <= line -> column < 0 ->
            answer (bc_all_generated_position_for md L U c src line (Some column)) = Panic PColumn)
       /\ (forall line column, 1 <= line -> match column with Some z => 0 <= z | None => True end ->
            ~ readable L (bc_source_map c0) ->
            answer (bc_all_generated_position_for md L U c src line column) = Panic PUnwrapNone)).
  Proof.
    intros c0 qs c src Ho H Hlen. destruct (history md L U _ _ _ Ho H) as [Hf Hc].
    pose proof (find_step c0 c src Hf Hc Hlen) as Hs.
    split; [|split].
    - intros p Hp. rewrite Hp in Hs. split; intros.
      + unfold bc_generated_position_for. rewrite Hs. reflexivity.
      + unfold bc_all_generated_position_for. rewrite Hs. reflexivity.
    - intros Hp. rewrite Hp in Hs. destruct Hs as [c1 [Ef _]]. split; intros.
      + unfold bc_generated_position_for. rewrite Ef. reflexivity.
      + unfold bc_all_generated_position_for. rewrite Ef. reflexivity.
    - intros i Hp. rewrite Hp in Hs. destruct Hs as [c1 [Ef [Hc1 _]]]. cbn [option_map] in Ef.
      unfold bc_generated_position_for, bc_all_generated_position_for. rewrite Ef. cbn [bind].
      replace (Z.of_nat i <? 0) with false by lia.
      repeat apply conj.
      + intros line column b X. replace (line <? 1) with true by lia. reflexivity.
      + intros line column b X Y. replace (line <? 1) with false by lia. replace (column <? 0) with true by lia. reflexivity.
      + intros line column b X Y Hn. replace (line <? 1) with false by lia. replace (column <? 0) with false by lia.
        rewrite (proj1 (ensure_unreadable md L U _ _ Hc1 Hn)). reflexivity.
      + intros line column X. replace (line <? 1) with true by lia. reflexivity.
      + intros line column X Y. replace (line <? 1) with false by lia. replace (column <? 0) with true by lia. reflexivity.
      + intros line column X Y Hn. replace (line <? 1) with false by lia.
        replace (match column with Some r => r | None => 0 end <? 0) with false by (destruct column; lia).
        rewrite (proj1 (ensure_unreadable md L U _ _ Hc1 Hn)). reflexivity.
  Qed.

  (** ** all_generated_position_for *)
  Lemma ensure_same : forall c0 c c1, follows md L U c0 c -> follows md L U c0 c1 ->
    bc_mappings c1 = bc_mappings c -> readable L (bc_source_map c0) ->
    exists t, bc_ensure_mappings L c = Ok (t, bc_set_mappings L c (Some t))
      /\ bc_ensure_mappings L c1 = Ok (t, bc_set_mappings L c1 (Some t)).
  Proof.
    intros c0 c c1 Hc Hc1 Em Hr.
    destruct (ensure_readable md L U _ _ Hc Hr) as [t' Et']. destruct (ensure_readable md L U _ _ Hc1 Hr) as [t Et].
    exists t. split; [|exact Et]. assert (t' = t); [|congruence].
    unfold bc_ensure_mappings in Et, Et'. rewrite Em in Et. destruct (bc_mappings c) as [t0|] eqn:X.
    - cbn [bind] in Et, Et'. rewrite X in Et'. rewrite Em in Et. cbn in *. congruence.
    - unfold bc_parse_mappings in *. rewrite (fo_map _ _ _ _ _ Hc1) in Et. rewrite (fo_map _ _ _ _ _ Hc) in Et'.
      destruct (smj_mappings (bc_source_map c0)) as [s0|]; cbn [unwrap bind] in *; [|discriminate].
      destruct (lm_parse L s0); cbn in *; congruence.
  Qed.

  Lemma all_generated_spec_at : forall c0 c src i line column l, fresh L c0 -> follows md L U c0 c ->
    len (bc_get_sources L c0) < 2^31 -> readable L (bc_source_map c0) -> reports L c l ->
    source_lookup md L U c0 src = Ok (Some i) ->
    let col := match column with Some z => z | None => 0 end in
    position_ok line col ->
    exists r, answer (bc_all_generated_position_for md L U c src line column) = Ok r /\ Forall (ends_right l) r
      /\ (at_place (line, col) (of_source (Z.of_nat i) l) <> [] ->
          Permutation (map strip r) (at_place (line, col) (of_source (Z.of_nat i) l))).
  Proof.
    intros c0 c src i line column l Hf Hc Hlen Hr R Hlk col [Hp1 Hp2].
    unfold i32_max in *. change (2^31 - 1) with 2147483647 in *.
    pose proof (find_step c0 c src Hf Hc Hlen) as Hs. rewrite Hlk in Hs.
    destruct Hs as [c1 [Ef [Hc1 [Em Ec]]]]. cbn [option_map] in Ef.
    assert (Hib : u32 (Z.of_nat i) /\ Z.of_nat i < 2147483648).
    { destruct (lookup_bound md L U _ _ _ Hlk) as [u Hu].
      assert (i < length (bc_get_sources L c0))%nat by (apply nth_error_Some; congruence).
      unfold len in Hlen. change (2^31) with 2147483648 in Hlen. unfold u32. change (2^32) with 4294967296. lia. }
    destruct Hib as [Hi1 Hi2].
    unfold bc_all_generated_position_for. fold col. rewrite Ef. cbn [bind]. replace (Z.of_nat i <? 0) with false by lia.
    replace (line <? 1) with false by lia. replace (col <? 0) with false by lia.
    destruct (ensure_same _ _ _ Hc Hc1 Em Hr) as [t [Et' Et]]. rewrite Et. cbn [bind].
    destruct (ensure_ok md L U _ _ _ _ Hc1 Et) as [s [Es [Hs _]]].
    apply (reports_iff _ _ _ _ _ Hc Et') in R. subst l.
    rewrite (to_u32_id (Z.of_nat i)) by (unfold u32 in Hi1; change (2^32) with 4294967296 in Hi1; lia).
    rewrite !to_u32_id by lia.
    assert (X : forall z, 0 <= z <= 2147483647 -> u32 z) by (intros z Hz; unfold u32; change (2^32) with 4294967296; lia).
    assert (Hu1 : u32 line) by (apply X; lia). assert (Hu2 : u32 col) by (apply X; lia).
    pose proof (mo_all_generated L ok s _ t (Z.of_nat i) line col Hs Hi1 Hu1 Hu2) as Ha. cbv zeta in Ha.
    assert (He : Forall (ends_right (lm_by_generated L t)) (fst (lm_all_generated L t (Z.of_nat i) line (Some col)))).
    { apply Forall_forall. intros m Hm. exact (proj1 (proj2 (mo_found_last L ok s _ t m Hs)) _ _ _ Hm). }
    destruct (lm_all_generated L t (Z.of_nat i) line (Some col)) as [r t2]. cbn [fst answer] in *.
    exists r. split; [reflexivity|]. split; [exact He | exact Ha].
  Qed.
  Lemma all_generated_spec : forall c0 qs c src i line column l, opened md L U c0 -> asked md L U c0 qs = Ok c ->
    len (bc_get_sources L c0) < 2^31 -> readable L (bc_source_map c0) -> reports L c l ->
    source_lookup md L U c0 src = Ok (Some i) ->
    let col := match column with Some z => z | None => 0 end in
    position_ok line col ->
    exists r, answer (bc_all_generated_position_for md L U c src line column) = Ok r /\ Forall (ends_right l) r
      /\ (at_place (line, col) (of_source (Z.of_nat i) l) <> [] ->
          Permutation (map strip r) (at_place (line, col) (of_source (Z.of_nat i) l))).
  Proof.
    intros c0 qs c src i line column l Ho H. destruct (history md L U _ _ _ Ho H) as [Hf Hc].
    exact (all_generated_spec_at c0 c src i line column l Hf Hc).
  Qed.

  (** ** compute_column_spans *)
  Lemma spans_spec : forall c0 qs c, opened md L U c0 -> asked md L U c0 qs = Ok c ->
    (readable L (bc_source_map c0) -> exists c', bc_compute_column_spans L c = Ok c')
    /\ (~ readable L (bc_source_map c0) -> bc_compute_column_spans L c = Panic PUnwrapNone)
    /\ (forall c', bc_compute_column_spans L c = Ok c' ->
        bc_compute_column_spans L c' = Ok c'
        /\ (forall l l', reports L c l -> reports L c' l' -> map strip l' = map strip l)
        /\ (forall qs' c2 l, asked md L U c' qs' = Ok c2 -> reports L c2 l -> spans l)).
  Proof.
    intros c0 qs c Ho H. destruct (history md L U _ _ _ Ho H) as [Hf Hc].
    split; [|split].
    - intros Hr. unfold bc_compute_column_spans. destruct (bc_computed_column_spans c); [eauto|].
      destruct (ensure_readable md L U _ _ Hc Hr) as [t ->]. cbn [bind]. eauto.
    - intros Hn. unfold bc_compute_column_spans. destruct (ensure_unreadable md L U _ _ Hc Hn) as [E Em].
      pose proof (fo_state _ _ _ _ _ Hc) as Hs. rewrite Em in Hs. rewrite Hs, E. reflexivity.
    - intros c' Hs. assert (Ha : ask md L U c QSpans = Ok c') by exact Hs.
      destruct (ask_follows md L U _ _ _ _ Hf Hc Ha) as [Hc' Hsp].
      assert (Happ : forall q c2, asked md L U c' q = Ok c2 -> asked md L U c0 (qs ++ QSpans :: q) = Ok c2).
      { intros q c2 Hq. clear - H Hq Ha. revert c0 H. induction qs as [|x qs IH]; intros c0 H; cbn [asked app] in *.
        - inv H. rewrite Ha. exact Hq.
        - destruct (ask md L U c0 x) as [c1|p]; cbn [bind] in *; [apply IH; exact H|discriminate]. }
      split; [unfold bc_compute_column_spans; rewrite Hsp; reflexivity|]. split.
      + intros l l' R R'.
        assert (Hr : forall cc ll, follows md L U c0 cc -> reports L cc ll -> exists l0, reports L c0 l0).
        { intros cc ll Hcc Rr. destruct (ensure_cases _ _ (follows_refl md L U _ Hf)) as [[s [t [E _]]]|[E [Hn _]]].
          - exists (lm_by_generated L t). apply (reports_iff _ _ _ _ _ (follows_refl md L U _ Hf) E). reflexivity.
          - unfold reports in *. rewrite (each_unreadable _ _ _ Hcc Hn) in Rr. exists [].
            rewrite (each_unreadable _ _ _ (follows_refl md L U _ Hf) Hn).
            destruct (smj_mappings (bc_source_map c0)); [reflexivity | discriminate]. }
        destruct (Hr _ _ Hc R) as [l0 R0].
        destruct (each_mapping_generated c0 qs c l l0 Ho H R0 R) as [_ [_ E1]].
        destruct (each_mapping_generated c0 (qs ++ [QSpans]) c' l' l0 Ho (Happ [] c' eq_refl) R0 R') as [_ [_ E2]].
        congruence.
      + intros qs' c2 l Hq R. pose proof (Happ _ _ Hq) as H2.
        destruct (history md L U _ _ _ Ho H2) as [_ Hc2].
        assert (Hsp2 : bc_computed_column_spans c2 = true).
        { apply (asked_spans md L U c0 _ c0 c2 Hf (follows_refl md L U _ Hf) H2). right. apply in_app_iff. right. left. reflexivity. }
        destruct (ensure_cases _ _ Hc2) as [[s [t [E [Es Hst]]]]|[E [Hn Em]]].
        * apply (reports_iff _ _ _ _ _ Hc2 E) in R. subst l. rewrite Hsp2 in Hst. exact (mo_spans L ok _ _ Hst).
        * pose proof (fo_state _ _ _ _ _ Hc2) as X. rewrite Em in X. congruence.
  Qed.

  Lemma reports_sorted : forall c0 qs c l, opened md L U c0 -> asked md L U c0 qs = Ok c -> reports L c l ->
    StronglySorted raw_le l.
  Proof.
    intros c0 qs c l Ho H R. destruct (history md L U _ _ _ Ho H) as [Hf Hc].
    destruct (ensure_cases _ _ Hc) as [[s [t [E [Es Hst]]]]|[E [Hn Em]]].
    - apply (reports_iff _ _ _ _ _ Hc E) in R. subst l. exact (proj1 (mo_sorted L ok _ _ _ Hst)).
    - unfold reports in R. rewrite (each_unreadable _ _ _ Hc Hn) in R.
      assert (l = []) by (destruct (smj_mappings (bc_source_map c0)); cbn in R; congruence). subst l. constructor.
  Qed.

  (** Last columns are right or missing, and right after compute_column_spans. *)
  Lemma last_columns : forall c0 qs c l, opened md L U c0 -> asked md L U c0 qs = Ok c -> reports L c l ->
    (spans l \/ Forall (fun m => rm_last_column m = None) l) /\ (In QSpans qs -> spans l).
  Proof.
    intros c0 qs c l Ho H R. destruct (history md L U _ _ _ Ho H) as [Hf Hc].
    destruct (ensure_cases _ _ Hc) as [[s [t [E [Es Hst]]]]|[E [Hn Em]]].
    - apply (reports_iff _ _ _ _ _ Hc E) in R. subst l. split; [exact (mo_last L ok _ _ _ Hst)|].
      intros Hq. assert (Hsp : bc_computed_column_spans c = true).
      { apply (asked_spans md L U c0 _ c0 c Hf (follows_refl md L U _ Hf) H). right. exact Hq. }
      rewrite Hsp in Hst. exact (mo_spans L ok _ _ Hst).
    - unfold reports in R. rewrite (each_unreadable _ _ _ Hc Hn) in R.
      assert (l = []) by (destruct (smj_mappings (bc_source_map c0)); cbn in R; congruence). subst l.
      split; [left; exact I | intros; exact I].
  Qed.

  (** ** Contents *)
  Lemma content_spec_at : forall c0 c src p, fresh L c0 -> follows md L U c0 c ->
    len (bc_get_sources L c0) < 2^31 ->
    answer (bc_source_content_for md L U c src p)
    = match smj_sources_content (bc_source_map c0) with
      | None => Ok None
      | Some contents =>
          match source_lookup md L U c0 src with
          | Panic p => Panic p
          | Ok None => match p with Some false => Ok None | _ => Panic PMissing end
          | Ok (Some i) =>
              match nth_error contents i with Some text => Ok (Some text) | None => Panic PIndex end
          end
      end.
  Proof.
    intros c0 c src p Hf Hc Hlen.
    unfold bc_source_content_for. rewrite (fo_map _ _ _ _ _ Hc).
    destruct (smj_sources_content (bc_source_map c0)) as [sc|]; [|reflexivity].
    pose proof (find_step c0 c src Hf Hc Hlen) as Hs.
    destruct (source_lookup md L U c0 src) as [[i|]|p'] eqn:Hlk.
    - destruct Hs as [c1 [Ef _]]. rewrite Ef. cbn [option_map bind].
      destruct (lookup_bound md L U _ _ _ Hlk) as [u Hu].
      assert (i < length (bc_get_sources L c0))%nat by (apply nth_error_Some; congruence).
      unfold len in Hlen. change (2^31) with 2147483648 in Hlen. rewrite to_usize_id by lia.
      unfold vec_index. rewrite vec_get_nth. destruct (nth_error sc i); reflexivity.
    - destruct Hs as [c1 [Ef _]]. rewrite Ef. cbn [option_map bind]. destruct p as [[|]|]; reflexivity.
    - rewrite Hs. reflexivity.
  Qed.
  Lemma content_spec : forall c0 qs c src p, opened md L U c0 -> asked md L U c0 qs = Ok c ->
    len (bc_get_sources L c0) < 2^31 ->
    answer (bc_source_content_for md L U c src p)
    = match smj_sources_content (bc_source_map c0) with
      | None => Ok None
      | Some contents =>
          match source_lookup md L U c0 src with
          | Panic p => Panic p
          | Ok None => match p with Some false => Ok None | _ => Panic PMissing end
          | Ok (Some i) =>
              match nth_error contents i with Some text => Ok (Some text) | None => Panic PIndex end
          end
      end.
  Proof.
    intros c0 qs c src p Ho H. destruct (history md L U _ _ _ Ho H) as [Hf Hc].
    exact (content_spec_at c0 c src p Hf Hc).
  Qed.

  Lemma opened_sources : forall c0, opened md L U c0 -> exists sources,
    smj_sources (bc_source_map c0) = Some sources /\ length (bc_get_sources L c0) = length sources.
  Proof.
    assert (Habs : forall j url a, compute_absolute_sources md U j url = Ok a ->
      exists sources, smj_sources j = Some sources /\ length (as_to_vec a) = length sources).
    { intros j url a H. unfold compute_absolute_sources in H.
      destruct (smj_sources j) as [sources|]; cbn [unwrap bind] in H; [|discriminate].
      destruct (mapM _ sources) as [urls|] eqn:E; cbn [bind] in H; [|discriminate]. inv H.
      exists sources. split; [reflexivity|]. rewrite (proj1 (as_from_array_vec urls)).
      revert urls E. induction sources as [|x sources IH]; intros urls E; cbn in E; [inv E; reflexivity|].
      bind_inv E. bind_inv E. inv E. cbn. f_equal. eapply IH. eassumption. }
    intros c0 [[s [url H]]|[j [url H]]].
    - unfold bc_new in H. bind_inv H. bind_inv H. inv H. eapply Habs; eassumption.
    - unfold bc_from_source_map_json in H. bind_inv H. inv H. eapply Habs; eassumption.
  Qed.

  Lemma has_contents_spec : forall c0 qs c, opened md L U c0 -> asked md L U c0 qs = Ok c ->
    len (bc_get_sources L c0) < 2^31 ->
    exists b, bc_has_contents_of_all_sources L c = Ok b
      /\ (b = true <-> exists contents, smj_sources_content (bc_source_map c0) = Some contents
            /\ (length (bc_get_sources L c) <= length contents)%nat)
      /\ (b = true -> forall src p i, source_lookup md L U c0 src = Ok (Some i) ->
          exists contents text, smj_sources_content (bc_source_map c0) = Some contents
            /\ nth_error contents i = Some text
            /\ answer (bc_source_content_for md L U c src p) = Ok (Some text)).
  Proof.
    intros c0 qs c Ho H Hlen. destruct (history md L U _ _ _ Ho H) as [Hf Hc].
    destruct (opened_sources _ Ho) as [sources [Es El]].
    assert (E : bc_get_sources L c = bc_get_sources L c0).
    { unfold bc_get_sources. rewrite (fo_sources _ _ _ _ _ Hc). reflexivity. }
    unfold bc_has_contents_of_all_sources. rewrite (fo_map _ _ _ _ _ Hc), Es. cbn [unwrap bind].
    destruct (smj_sources_content (bc_source_map c0)) as [contents|] eqn:Ec.
    - assert (Hcs : forall src p, _) by (intros src p; exact (content_spec c0 qs c src p Ho H Hlen)).
      rewrite Ec in Hcs.
      exists (len sources <=? len contents). split; [reflexivity|]. split.
      + rewrite E, El. unfold len, str. split.
        * intros X. exists contents. split; [reflexivity | lia].
        * intros [x [X Y]]. inv X. lia.
      + intros X src p i Hlk. destruct (lookup_bound md L U _ _ _ Hlk) as [u Hu].
        assert (Hi : (i < length (bc_get_sources L c0))%nat) by (apply nth_error_Some; congruence).
        destruct (nth_error contents i) as [text|] eqn:Et.
        * exists contents, text. split; [reflexivity|]. split; [exact Et|].
          rewrite Hcs, Hlk, Et. reflexivity.
        * exfalso. apply nth_error_None in Et. rewrite El in Hi. unfold len, str in *. lia.
    - exists false. split; [reflexivity|]. split; [|discriminate]. split; [discriminate|]. intros [x [X _]]. discriminate.
  Qed.

  (** ** Malformed mappings *)
  Lemma malformed : forall c0 qs c s, opened md L U c0 -> asked md L U c0 qs = Ok c ->
    len (bc_get_sources L c0) < 2^31 ->
    smj_mappings (bc_source_map c0) = Some s -> lm_parse L s = None ->
    (forall ord, bc_each_mapping L c ord = Ok ([], c))
    /\ (forall g b, position_ok (p_line g) (p_column g) ->
         bc_original_position_for md L c g b = Panic PUnwrapNone)
    /\ (forall src i line column b, source_lookup md L U c0 src = Ok (Some i) -> position_ok line column ->
         bc_generated_position_for md L U c src line column b = Panic PUnwrapNone
         /\ bc_all_generated_position_for md L U c src line (Some column) = Panic PUnwrapNone)
    /\ bc_compute_column_spans L c = Panic PUnwrapNone.
  Proof.
    intros c0 qs c s Ho H Hlen Es Ep. destruct (history md L U _ _ _ Ho H) as [Hf Hc].
    assert (Hn : ~ readable L (bc_source_map c0)) by (intros [s' [t [E1 E2]]]; congruence).
    assert (Han : forall A B (r : res (A * B)) p, answer r = Panic p -> r = Panic p).
    { intros A B [[a b]|p'] p X; cbn in X; congruence. }
    split; [|split; [|split]].
    - intros ord. rewrite (each_unreadable _ _ _ Hc Hn), Es. reflexivity.
    - intros g b Hp. destruct (original_unfold c0 c g b Hc Hp) as [[_ E]|[s' [t [Es' [Hs' _]]]]]; [exact E|].
      exfalso. apply Hn. destruct (state_readable _ _ _ Hs') as [t0 Et]. exists s', t0. auto.
    - intros src i line column b Hlk [Hp1 Hp2].
      destruct (proj2 (proj2 (source_query_guards c0 qs c src Ho H Hlen)) i Hlk) as [_ [_ [G1 [_ [_ G2]]]]].
      split; apply Han; [apply G1 | apply G2]; try lia; exact Hn.
    - exact (proj1 (proj2 (spans_spec c0 qs c Ho H)) Hn).
  Qed.

  Lemma bad_char_unreadable : forall s x, In x s -> ~ text_char x -> lm_parse L s = None.
  Proof. exact (mo_bad_char L ok). Qed.
End Props.

(** ** The two constructors *)
Lemma constructors : forall md L U s url c, bc_new md L U s url = Ok c ->
  exists j c', smj_from_str s = Some j /\ bc_from_source_map_json md L U j url = Ok c'
    /\ bc_source_map c = j /\ bc_source_map c' = j
    /\ bc_get_sources L c' = bc_get_sources L c
    /\ bc_source_map_url c = url /\ bc_source_map_url c' = None.
Proof.
  intros md L U s url c H. unfold bc_new in H.
  destruct (smj_from_str s) as [j|]; cbn [unwrap_ok bind] in H; [|discriminate].
  destruct (compute_absolute_sources md U j url) as [a|p] eqn:E; cbn [bind] in H; [|discriminate]. inv H.
  exists j. eexists. split; [reflexivity|]. split; [unfold bc_from_source_map_json; rewrite E; reflexivity|].
  repeat split; reflexivity.
Qed.
