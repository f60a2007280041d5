(** * Lemmas about additions behind everything added before: C81 *)
From Verif Require Import Base M_ArraySet M_Mapping M_Util M_SourceMap M_Generator
  S_List S_Decode S_Mapping S_Generator S_Far S_Append F_Base F_ArraySet F_Mapping F_MappingList F_Generator F_GeneratorProps F_Contents.
From Coq Require Import Sorting.Sorted Sorting.Permutation.

(** ** sources and names *)
Lemma mem_ext : forall x a b, (forall y, In y a <-> In y b) -> mem x a = mem x b.
Proof.
  intros x a b H. destruct (mem x a) eqn:E, (mem x b) eqn:F; try reflexivity.
  - apply mem_In, H, mem_In in E. congruence.
  - apply mem_In, H, mem_In in F. congruence.
Qed.

Lemma distinct_from_app : forall a b seen, exists k, distinct_from seen (a ++ b) = distinct_from seen a ++ k.
Proof.
  induction a as [|x a IH]; intros b seen; cbn [app distinct_from]; [eexists; reflexivity|].
  destruct (mem x seen); [apply IH|]. destruct (IH b (x :: seen)) as [k ->]. exists k. reflexivity.
Qed.

Lemma lists_grow : forall md U file root skip ops ops2 g j g' h k h',
  gen_run md U (gen_new file root skip) ops = Ok g -> gen_as_json md U g = Ok (j, g') ->
  gen_run md U (gen_new file root skip) (ops ++ ops2) = Ok h -> gen_as_json md U h = Ok (k, h') ->
  exists S S2 N N2, smj_sources j = Some S /\ smj_sources k = Some (S ++ S2)
    /\ smj_names j = Some N /\ smj_names k = Some (N ++ N2).
Proof.
  intros md U file root skip ops ops2 g j g' h k h' Eg Ej Eh Ek.
  destruct (generate_arrays _ _ _ _ _ _ _ _ _ Eg Ej) as [_ [-> [-> _]]].
  destruct (generate_arrays _ _ _ _ _ _ _ _ _ Eh Ek) as [_ [-> [-> _]]].
  rewrite added_mappings_app, !map_app, !present_app.
  destruct (distinct_from_app (present (map m_source (added_mappings ops))) (present (map m_source (added_mappings ops2))) []) as [S2 ES].
  destruct (distinct_from_app (present (map m_name (added_mappings ops))) (present (map m_name (added_mappings ops2))) []) as [N2 EN].
  unfold distinct. rewrite ES, EN. repeat eexists.
Qed.

(** ** the serializer *)
Definition index_kept (a b : ArraySet) : Prop := forall x i, as_index_of a x = Some i -> as_index_of b x = Some i.

Lemma first_index_app : forall x a b n, first_index x a = Some n -> first_index x (a ++ b) = Some n.
Proof.
  intros x a b. induction a as [|y a IH]; intros n H; [discriminate|]. cbn in *. destruct (str_eqb x y); [exact H|].
  destruct (first_index x a) as [m|]; [|discriminate]. rewrite (IH m eq_refl). exact H.
Qed.

Lemma names_kept : forall A B l m, names_ok A l -> names_ok B (l ++ m) -> index_kept A B.
Proof.
  intros A B l m [[HA _] EA] [[HB _] EB] x i H. unfold as_index_of in *. rewrite HA in H. rewrite HB. rewrite EA in H. rewrite EB.
  destruct (distinct_from_app l m []) as [k E]. unfold distinct in *. rewrite E.
  destruct (first_index x (distinct_from [] l)) as [n|] eqn:F; [|discriminate]. rewrite (first_index_app _ _ _ _ F). exact H.
Qed.

Lemma ser_tail_kept : forall md S S2 N N2 m st r, index_kept S S2 -> index_kept N N2 ->
  ser_tail md S N m st = Ok r -> ser_tail md S2 N2 m st = Ok r.
Proof.
  intros md S S2 N N2 m st r HS HN H. unfold ser_tail in *. destruct (m_source m) as [s|]; [|exact H].
  destruct (as_index_of S s) as [i|] eqn:E; [|discriminate]. rewrite (HS _ _ E). cbn [unwrap bind] in *.
  repeat match type of H with
  | bind ?x _ = _ => destruct x; cbn [bind] in *; [|discriminate]
  end.
  destruct (m_name m) as [n|]; [|exact H].
  destruct (as_index_of N n) as [k|] eqn:F; [|discriminate]. rewrite (HN _ _ F). exact H.
Qed.

Lemma ser_segment_kept : forall md S S2 N N2 m st r, index_kept S S2 -> index_kept N N2 ->
  ser_segment md S N m st = Ok r -> ser_segment md S2 N2 m st = Ok r.
Proof.
  intros md S S2 N N2 m st r HS HN H. unfold ser_segment in *.
  repeat match type of H with
  | bind (ser_tail _ _ _ _ _) _ = _ => fail 1
  | bind ?x _ = _ => destruct x; cbn [bind] in *; [|discriminate]
  end.
  bind_inv H. rewrite (ser_tail_kept _ _ _ _ _ _ _ _ HS HN H0). exact H.
Qed.

Lemma semicolon_head : forall md fuel line prev next r, semicolon_loop md fuel line prev next = Ok r ->
  exists t, fst r = next ++ t /\ (line <> prev -> exists u, t = ch ";" :: u).
Proof.
  intros md. induction fuel as [|fuel IH]; intros line prev next r H; cbn [semicolon_loop] in H; destruct (line =? prev) eqn:E.
  - injection H as <-. exists []. rewrite app_nil_r. split; [reflexivity | lia].
  - discriminate.
  - injection H as <-. exists []. rewrite app_nil_r. split; [reflexivity | lia].
  - bind_inv H. apply IH in H. destruct H as [t [-> _]]. exists (lit ";" ++ t). rewrite <- app_assoc.
    split; [reflexivity|]. intros _. eexists. reflexivity.
Qed.

Lemma ser_loop_more : forall md S N ms p st result s, ser_loop md S N (Some p) ms st result = Ok s ->
  exists t, s = result ++ t /\ continues t.
Proof.
  intros md S N. induction ms as [|m ms IH]; intros p st result s H; cbn [ser_loop] in H.
  - injection H as <-. exists []. rewrite app_nil_r. split; [reflexivity | left; reflexivity].
  - destruct (p_line (m_generated m) =? ss_generated_line st) eqn:El; cbn [negb] in H.
    + bind_inv H. destruct (x =? 0); [exact (IH _ _ _ _ H)|].
      bind_inv H. destruct x0 as [seg st2]. apply IH in H. destruct H as [t [-> _]].
      exists (lit "," ++ seg ++ t). rewrite <- !app_assoc. split; [reflexivity|].
      right. exists (ch ","), (seg ++ t). split; [reflexivity | left; reflexivity].
    + bind_inv H. destruct x as [next line]. bind_inv H. destruct x as [seg st2]. apply IH in H. destruct H as [t [-> _]].
      apply semicolon_head in H0. destruct H0 as [u [E Hu]]. cbn [fst app] in E. subst next.
      destruct Hu as [u' ->]; [cbn [ss_generated_line]; lia|].
      exists ((ch ";" :: u') ++ seg ++ t). rewrite <- !app_assoc. split; [reflexivity|].
      right. exists (ch ";"), (u' ++ seg ++ t). split; [reflexivity | right; reflexivity].
Qed.

Lemma ser_loop_kept : forall md S S2 N N2, index_kept S S2 -> index_kept N N2 ->
  forall a b p st result s s2, ser_loop md S N p a st result = Ok s -> ser_loop md S2 N2 p (a ++ b) st result = Ok s2 ->
  (a = [] /\ p = None /\ s = result) \/ exists t, s2 = s ++ t /\ continues t.
Proof.
  intros md S S2 N N2 HS HN. induction a as [|m a IH]; intros b p st result s s2 H K.
  - cbn [ser_loop app] in *. injection H as <-. destruct p as [p|]; [right; exact (ser_loop_more _ _ _ _ _ _ _ _ K) | left; auto].
  - right. cbn [ser_loop app] in *.
    assert (G : forall st result, ser_loop md S N (Some m) a st result = Ok s -> ser_loop md S2 N2 (Some m) (a ++ b) st result = Ok s2 ->
              exists t, s2 = s ++ t /\ continues t).
    { intros st' result' A B. destruct (IH _ _ _ _ _ _ A B) as [[_ [X _]]|X]; [discriminate | exact X]. }
    destruct (negb (p_line (m_generated m) =? ss_generated_line st)).
    + bind_inv H. rewrite H0 in K. cbn [bind] in K. destruct x as [next line]. bind_inv H.
      rewrite (ser_segment_kept _ _ _ _ _ _ _ _ HS HN H1) in K. cbn [bind] in K. destruct x as [seg st2]. exact (G _ _ H K).
    + destruct p as [p|].
      * bind_inv H. rewrite H0 in K. cbn [bind] in K. destruct (x =? 0); [exact (G _ _ H K)|].
        bind_inv H. rewrite (ser_segment_kept _ _ _ _ _ _ _ _ HS HN H1) in K. cbn [bind] in K. destruct x0 as [seg st2]. exact (G _ _ H K).
      * bind_inv H. rewrite (ser_segment_kept _ _ _ _ _ _ _ _ HS HN H0) in K. cbn [bind] in K. destruct x as [seg st2]. exact (G _ _ H K).
Qed.

(** ** the list *)
Lemma sorted_app : forall A (R : A -> A -> Prop) a b, StronglySorted R a -> StronglySorted R b ->
  (forall x y, In x a -> In y b -> R x y) -> StronglySorted R (a ++ b).
Proof.
  intros A R a b Ha Hb H. induction Ha as [|x a Ha IH HF]; [exact Hb|]. cbn. constructor.
  - apply IH. intros u v Hu Hv. apply H; [right|]; assumption.
  - apply Forall_app. split; [exact HF|]. apply Forall_forall. intros y Hy. apply H; [left; reflexivity | exact Hy].
Qed.

Lemma sorted_app_inv : forall A (R : A -> A -> Prop) a b, StronglySorted R (a ++ b) ->
  StronglySorted R a /\ StronglySorted R b /\ forall x y, In x a -> In y b -> R x y.
Proof.
  intros A R a b. induction a as [|x a IH]; intros H; cbn in *.
  - split; [constructor|]. split; [exact H | intros x y []].
  - inv H. destruct (IH H2) as [I1 [I2 I3]]. apply Forall_app in H3. destruct H3 as [F1 F2].
    split; [constructor; assumption|]. split; [exact I2|]. intros u v [<-|Hu] Hv; [|auto].
    rewrite Forall_forall in F2. auto.
Qed.

Lemma sort_app : forall a b s t, stable_sort_of a s -> stable_sort_of b t -> all_behind a b -> stable_sort_of (a ++ b) (s ++ t).
Proof.
  intros a b s t [P1 [S1 F1]] [P2 [S2 F2]] H. split; [apply Permutation_app; assumption|]. split.
  - apply sorted_app; [exact S1 | exact S2|]. intros x y Hx Hy. left. left.
    apply H; [rewrite P1; exact Hx | rewrite P2; exact Hy].
  - intros same x G. rewrite !filter_app, (F1 same x G), (F2 same x G). reflexivity.
Qed.

Lemma nodup_sorted : forall l, gen_sorted l -> NoDup (map m_generated l) -> stable_sort_of l l.
Proof.
  intros l Hs Hn. split; [reflexivity|]. split; [|reflexivity].
  induction Hs as [|x l Hs IH HF]; constructor; cbn in Hn; inv Hn; [auto|].
  rewrite Forall_forall in *. intros y Hy. specialize (HF y Hy). left. left.
  assert (m_generated x <> m_generated y) by (intros E; apply H1; rewrite E; apply in_map; exact Hy).
  unfold gen_le, pos_le in HF. unfold pos_lt. destruct HF as [HF|[HF HG]]; [left; exact HF|].
  right. split; [exact HF|]. destruct (Z.eq_dec (p_column (m_generated x)) (p_column (m_generated y))) as [E|E]; [|lia].
  exfalso. apply H. apply pos_eq; assumption.
Qed.

Lemma gen_sorted_dec : forall l, gen_sorted l \/ ~ gen_sorted l.
Proof.
  assert (D : forall x l, Forall (gen_le x) l \/ ~ Forall (gen_le x) l).
  { intros x l. destruct (Forall_Exists_dec (gen_le x)) with (l := l) as [H|H]; [|left; exact H|].
    - intros y. unfold gen_le, pos_le.
      destruct (Z_lt_dec (p_line (m_generated x)) (p_line (m_generated y))); [left; tauto|].
      destruct (Z.eq_dec (p_line (m_generated x)) (p_line (m_generated y))); [|right; lia].
      destruct (Z_le_dec (p_column (m_generated x)) (p_column (m_generated y))); [left; tauto | right; lia].
    - right. intros G. apply Exists_exists in H. destruct H as [y [Hy Hn]]. rewrite Forall_forall in G. exact (Hn (G y Hy)). }
  induction l as [|x l [IH|IH]]; [left; constructor| |].
  - destruct (D x l) as [H|H]; [left; constructor; assumption | right; intros G; inv G; contradiction].
  - right. intros G. inv G. contradiction.
Qed.

Lemma sort_exists : forall l, Forall wf_mapping l -> exists s, stable_sort_of l s /\ gen_sorted s.
Proof.
  intros l H. destruct (sort_mappings_ok 0 i32_max window_nat Debug l (wf_Forall _ H)) as [r [_ [Hr [_ Hs]]]].
  exists r. split; [exact Hr|]. apply (full_sorted_gen 0 i32_max); [|exact Hs].
  destruct Hr as [P _]. rewrite <- P. apply wf_Forall. exact H.
Qed.

Lemma held_prefix : forall o2 o1 l, held (o1 ++ o2) l -> exists l1, held o1 l1.
Proof.
  induction o2 as [|op o2 IH] using rev_ind; intros o1 l H; [rewrite app_nil_r in H; eauto|].
  rewrite app_assoc in H. inversion H as [E| ops' l1 m' H1 E|ops' l1 H1 ? E|ops' l1 a H1 ? ? E].
  - destruct (o1 ++ o2); discriminate.
  - apply app_inj_tail in E. destruct E as [-> _]. eauto.
  - apply app_inj_tail in E. destruct E as [-> _]. eauto.
  - apply app_inj_tail in E. destruct E as [-> _]. eauto.
Qed.

Lemma held_sorted_adds : forall ops l, held ops l -> gen_sorted (added ops) -> l = added ops.
Proof.
  intros ops l H. induction H as [|ops l m H IH|ops l H IH Hs|ops l a H IH Hs Ha]; rewrite ?added_app; cbn [added]; intros G.
  - reflexivity.
  - apply sorted_app_inv in G. destruct G as [G _]. rewrite (IH G). reflexivity.
  - rewrite app_nil_r in *. auto.
  - rewrite app_nil_r in *. rewrite (IH G) in Hs. contradiction.
Qed.

Section Behind.
Context (o1 : list ml_op) (h1 a1 : list Mapping).
Context (H1 : held o1 h1) (A1 : held (o1 ++ [ToArray]) a1) (W1 : Forall wf_mapping (added o1)).

Lemma a1_cases : (gen_sorted h1 /\ a1 = h1) \/ (~ gen_sorted h1 /\ stable_sort_of h1 a1).
Proof.
  inversion A1 as [E| ? ? ? ? E|? ? Ha Hs E|? l ? Ha Hs Hst E].
  - destruct o1; discriminate.
  - apply app_inj_tail in E. destruct E as [_ E]. discriminate.
  - apply app_inj_tail in E. destruct E as [-> _]. rewrite (held_unique _ _ H1 _ Ha). left. split; [exact Hs | reflexivity].
  - apply app_inj_tail in E. destruct E as [-> _]. rewrite (held_unique _ _ H1 _ Ha). right. split; assumption.
Qed.

Lemma a1_sorted : gen_sorted a1.
Proof.
  destruct a1_cases as [[H ->]|[_ H]]; [exact H|].
  assert (W : Forall wf_mapping h1) by (rewrite <- (held_perm _ _ H1); exact W1).
  destruct (sort_exists h1 W) as [s [Hs Hg]]. rewrite (stable_sort_unique _ _ _ H Hs). exact Hg.
Qed.

Lemma behind_step : forall o2 x h,
  all_behind (added o1) (added o2) -> Forall wf_mapping (added o2) ->
  gen_sorted (added o2) \/ NoDup (map m_generated (added o1)) ->
  Permutation (added o2) x -> (h = h1 ++ x \/ h = a1 ++ x) -> (gen_sorted (added o2) -> gen_sorted x) ->
  forall a, ((gen_sorted h /\ a = h) \/ (~ gen_sorted h /\ stable_sort_of h a)) ->
  exists y, Permutation (added o2) y /\ a = a1 ++ y /\ gen_sorted y.
Proof.
  intros o2 x h B W2 Hor Hp Hh Hx a Ha.
  assert (Wx : Forall wf_mapping x) by (rewrite <- Hp; exact W2).
  pose proof (held_perm _ _ H1) as P1. pose proof (held_perm _ _ A1) as P2. rewrite added_app in P2. cbn [added] in P2. rewrite app_nil_r in P2.
  assert (Bh : all_behind h1 x).
  { intros u v Hu Hv. apply B; [rewrite P1; exact Hu | rewrite Hp; exact Hv]. }
  assert (Ba : all_behind a1 x).
  { intros u v Hu Hv. apply B; [rewrite P2; exact Hu | rewrite Hp; exact Hv]. }
  assert (le : forall u v, all_behind u v -> gen_sorted u -> gen_sorted v -> gen_sorted (u ++ v)).
  { intros u v D E F. apply sorted_app; auto. intros p q Hu Hv. specialize (D p q Hu Hv). unfold gen_le, pos_le. unfold pos_lt in D. lia. }
  destruct (sort_exists x Wx) as [sx [Sx Gx]].
  assert (Px : Permutation (added o2) sx) by (rewrite Hp; apply Sx).
  destruct Ha as [[Hs ->]|[Hs Hst]].
  - exists x. split; [exact Hp|]. destruct Hh as [->| ->]; apply sorted_app_inv in Hs; destruct Hs as [G1 [G2 _]].
    + split; [|exact G2]. destruct a1_cases as [[_ ->]|[N _]]; [reflexivity | contradiction].
    + split; [reflexivity | exact G2].
  - exists sx. split; [exact Px|]. split; [|exact Gx]. destruct Hh as [->| ->].
    + destruct a1_cases as [[G E]|[N St]].
      * assert (~ gen_sorted x) by (intros F; apply Hs; apply le; assumption).
        destruct Hor as [O|O]; [exfalso; auto|].
        assert (S1 : stable_sort_of h1 h1).
        { apply nodup_sorted; [exact G|]. eapply Permutation_NoDup; [|exact O]. apply Permutation_map. exact P1. }
        rewrite E. exact (stable_sort_unique _ _ _ Hst (sort_app _ _ _ _ S1 Sx Bh)).
      * exact (stable_sort_unique _ _ _ Hst (sort_app _ _ _ _ St Sx Bh)).
    + assert (~ gen_sorted x) by (intros F; apply Hs; apply le; [exact Ba | exact a1_sorted | exact F]).
      destruct Hor as [O|O]; [exfalso; auto|].
      assert (S1 : stable_sort_of a1 a1).
      { apply nodup_sorted; [exact a1_sorted|]. eapply Permutation_NoDup; [|exact O]. apply Permutation_map. exact P2. }
      exact (stable_sort_unique _ _ _ Hst (sort_app _ _ _ _ S1 Sx Ba)).
Qed.

Lemma behind_cases : forall o2 h a, held (o1 ++ o2) h -> held (o1 ++ o2 ++ [ToArray]) a ->
  (gen_sorted h /\ a = h) \/ (~ gen_sorted h /\ stable_sort_of h a).
Proof.
  intros o2 h a Hh Ha. rewrite app_assoc in Ha.
  inversion Ha as [E| ? ? ? ? E|? ? Hb Hs E|? l ? Hb Hs Hst E].
  - destruct (o1 ++ o2); discriminate.
  - apply app_inj_tail in E. destruct E as [_ E]. discriminate.
  - apply app_inj_tail in E. destruct E as [-> _]. rewrite (held_unique _ _ Hh _ Hb). left. split; [exact Hs | reflexivity].
  - apply app_inj_tail in E. destruct E as [-> _]. rewrite (held_unique _ _ Hh _ Hb). right. split; assumption.
Qed.

Lemma behind_inv : forall o2 h, held (o1 ++ o2) h ->
  all_behind (added o1) (added o2) -> Forall wf_mapping (added o2) ->
  gen_sorted (added o2) \/ NoDup (map m_generated (added o1)) ->
  exists x, Permutation (added o2) x /\ (h = h1 ++ x \/ h = a1 ++ x) /\ (gen_sorted (added o2) -> gen_sorted x).
Proof.
  induction o2 as [|op o2 IH] using rev_ind; intros h Hh B W Hor.
  - rewrite app_nil_r in Hh. rewrite (held_unique _ _ Hh _ H1). exists []. rewrite app_nil_r. split; [constructor|]. split; [left; reflexivity | auto].
  - rewrite app_assoc in Hh. destruct (held_prefix [op] (o1 ++ o2) h Hh) as [l0 H0].
    rewrite added_app in B, W, Hor |- *. apply Forall_app in W. destruct W as [W Wm].
    assert (B0 : all_behind (added o1) (added o2)) by (intros u v Hu Hv; apply B; [exact Hu | apply in_app_iff; left; exact Hv]).
    assert (O0 : gen_sorted (added o2) \/ NoDup (map m_generated (added o1))).
    { destruct Hor as [O|O]; [left; apply sorted_app_inv in O; tauto | right; exact O]. }
    destruct (IH l0 H0 B0 W O0) as [x [Hp [Hx Hs]]].
    destruct op as [m|].
    + assert (h = l0 ++ [m]) as -> by exact (held_unique _ _ Hh _ (held_add _ _ m H0)).
      exists (x ++ [m]). cbn [added]. split; [apply Permutation_app_tail; exact Hp|]. split.
      * destruct Hx as [->| ->]; rewrite <- app_assoc; auto.
      * intros G. apply gen_sorted_snoc_inv in G. destruct G as [G1 G2]. apply gen_sorted_snoc; [auto|].
        rewrite <- Hp. exact G2.
    + cbn [added] in *. rewrite app_nil_r in *. rewrite <- app_assoc in Hh.
      destruct (behind_step o2 x l0 B0 W O0 Hp Hx Hs h (behind_cases o2 l0 h H0 Hh)) as [y [Py [-> Gy]]].
      exists y. auto.
Qed.
End Behind.

Lemma held_append : forall o1 o2 a1 a, Forall wf_mapping (added (o1 ++ o2)) -> appendable (added o1) (added o2) ->
  held (o1 ++ [ToArray]) a1 -> held (o1 ++ o2 ++ [ToArray]) a -> exists y, a = a1 ++ y /\ Permutation (added o2) y.
Proof.
  intros o1 o2 a1 a W Hor A1 A. rewrite added_app in W. apply Forall_app in W. destruct W as [W1 W2].
  destruct Hor as [G|[B Hor]].
  - exists (added o2). split; [|reflexivity].
    assert (E : a = added (o1 ++ o2 ++ [ToArray])).
    { apply held_sorted_adds; [exact A|]. rewrite !added_app. cbn. rewrite app_nil_r. exact G. }
    assert (E1 : a1 = added (o1 ++ [ToArray])).
    { apply held_sorted_adds; [exact A1|]. rewrite added_app. cbn. rewrite app_nil_r. apply sorted_app_inv in G. tauto. }
    rewrite E, E1, !added_app. cbn. rewrite !app_nil_r. reflexivity.
  - destruct (held_prefix [ToArray] o1 a1 A1) as [h1 H1]. rewrite app_assoc in A. destruct (held_prefix [ToArray] (o1 ++ o2) a A) as [h H].
    rewrite <- app_assoc in A.
    destruct (behind_inv o1 h1 a1 H1 A1 W1 o2 h H B W2 Hor) as [x [Hp [Hx Hs]]].
    destruct (behind_step o1 h1 a1 H1 A1 W1 o2 x h B W2 Hor Hp Hx Hs a (behind_cases o1 o2 h a H A)) as [y [Py [-> _]]].
    eauto.
Qed.

Lemma run_array : forall md U file root skip ops g j g', Forall wf_mapping (added_mappings ops) ->
  gen_run md U (gen_new file root skip) ops = Ok g -> gen_as_json md U g = Ok (j, g') ->
  exists a s, held (list_ops ops ++ [ToArray]) a /\ smj_mappings j = Some s
    /\ ser_loop md (g_sources g) (g_names g) None a ser_init [] = Ok s.
Proof.
  intros md U file root skip ops g j g' Hw Eg Ej. pose proof (list_run _ _ _ _ _ Eg) as El. cbn [gen_new g_mappings] in El.
  destruct (as_json_inv _ _ _ _ _ Ej) as [a [ml' [s [sc [Ea [Es [_ [-> _]]]]]]]]. exists a, s.
  split; [|split; [reflexivity | exact Es]].
  rewrite <- added_list_ops in Hw.
  destruct (history_held md _ Hw) as [l2 [a2 [l2' [E1 [_ [_ [E2 H]]]]]]].
  rewrite El in E1. injection E1 as <-. rewrite Ea in E2. injection E2 as <- <-. exact H.
Qed.

(** C81 *)
Lemma text_grows : forall md U file root skip ops ops2 g j g' h k h',
  Forall wf_mapping (added_mappings (ops ++ ops2)) -> appendable (added_mappings ops) (added_mappings ops2) ->
  gen_run md U (gen_new file root skip) ops = Ok g -> gen_as_json md U g = Ok (j, g') ->
  gen_run md U (gen_new file root skip) (ops ++ ops2) = Ok h -> gen_as_json md U h = Ok (k, h') ->
  exists s t, smj_mappings j = Some s /\ smj_mappings k = Some (s ++ t) /\ (added_mappings ops = [] \/ continues t).
Proof.
  intros md U file root skip ops ops2 g j g' h k h' Hw Ho Eg Ej Eh Ek.
  assert (Hw1 : Forall wf_mapping (added_mappings ops)) by (rewrite added_mappings_app in Hw; apply Forall_app in Hw; tauto).
  destruct (run_array _ _ _ _ _ _ _ _ _ Hw1 Eg Ej) as [a1 [s1 [A1 [Ej1 S1]]]].
  destruct (run_array _ _ _ _ _ _ _ _ _ Hw Eh Ek) as [a2 [s2 [A2 [Ek2 S2]]]].
  pose proof (base_inv_run _ _ _ _ _ _ _ Eg) as [_ _ _ B1 B2 _ _].
  pose proof (base_inv_run _ _ _ _ _ _ _ Eh) as [_ _ _ C1 C2 _ _].
  rewrite added_mappings_app, map_app, present_app in C1, C2.
  rewrite list_ops_app, <- app_assoc in A2.
  rewrite <- !added_list_ops in Ho. rewrite <- added_list_ops, list_ops_app in Hw.
  destruct (held_append _ _ _ _ Hw Ho A1 A2) as [y [-> _]].
  destruct (ser_loop_kept md _ _ _ _ (names_kept _ _ _ _ B1 C1) (names_kept _ _ _ _ B2 C2) _ _ _ _ _ _ _ S1 S2) as [[-> [_ ->]]|[t [-> Ht]]].
  - exists [], s2. split; [exact Ej1|]. split; [exact Ek2|]. left. apply held_perm in A1. rewrite added_app in A1. cbn in A1.
    rewrite app_nil_r, added_list_ops in A1. symmetry in A1. apply Permutation_nil in A1. exact A1.
  - exists s1, t. auto.
Qed.

Lemma collapsed_app : forall A (a b r1 r2 : list A), collapsed a r1 -> collapsed (a ++ b) r2 -> exists r, r2 = r1 ++ r.
Proof.
  intros A a b r1 r2 H. revert r2. induction H as [|x|x l r H IH|x y l r Hn H IH]; intros r2 H2; cbn [app] in *.
  - exists r2. reflexivity.
  - pose proof (collapsed_head _ _ _ H2) as E. destruct r2 as [|y r2]; [contradiction|]. subst y. exists r2. reflexivity.
  - inversion H2; subst; [auto | contradiction].
  - inversion H2; subst; [contradiction|]. destruct (IH _ H6) as [q ->]. exists q. reflexivity.
Qed.

Lemma steps_app : forall b a gen orig, Forall near (steps gen orig (a ++ b)) -> Forall near (steps gen orig a).
Proof.
  intros b. induction a as [|m a IH]; intros gen orig H; [constructor|]. cbn [app steps] in *.
  inversion H as [|x l H1 H2]; subst. constructor; [exact H1|]. destruct (m_original m) as [o|]; [|exact (IH _ _ H2)].
  inversion H2 as [|x l H3 H4]; subst. inversion H4 as [|x l H5 H6]; subst.
  constructor; [exact H3|]. constructor; [exact H5|]. exact (IH _ _ H6).
Qed.

Lemma mapping_eq_dec : forall x y : Mapping, {x = y} + {x <> y}.
Proof.
  assert (P : forall a b : Position, {a = b} + {a <> b}) by (decide equality; apply Z.eq_dec).
  assert (S : forall a b : str, {a = b} + {a <> b}) by (intros a b; apply (list_eq_dec N.eq_dec)).
  decide equality.
  - decide equality. apply Z.eq_dec.
  - decide equality.
  - decide equality.
  - decide equality.
Qed.

Lemma collapsed_total : forall (l : list Mapping), exists r, collapsed l r.
Proof.
  induction l as [|x l [r IH]]; [exists []; constructor|]. destruct l as [|y l]; [exists [x]; constructor|].
  destruct (mapping_eq_dec x y) as [->|N]; [exists r; constructor; exact IH | exists (x :: r); constructor; assumption].
Qed.

(** What fits in the end has always fitted. *)
Lemma fits_prefix : forall ops ops2, Forall valid_mapping (added_mappings (ops ++ ops2)) ->
  appendable (added_mappings ops) (added_mappings ops2) -> steps_fit (ops ++ ops2) -> steps_fit ops.
Proof.
  intros ops ops2 Hv Ho Hs a1 r1 A1 C1.
  assert (Hw : Forall wf_mapping (added (list_ops ops ++ list_ops ops2))).
  { rewrite <- list_ops_app, added_list_ops. eapply Forall_impl; [|exact Hv]. intros m [Hm _]. exact Hm. }
  destruct (history_held Debug _ Hw) as [l2 [a2 [l2' [_ [_ [_ [_ A2]]]]]]].
  rewrite <- app_assoc in A2. rewrite <- !added_list_ops in Ho.
  destruct (held_append _ _ _ _ Hw Ho A1 A2) as [y [-> _]].
  destruct (collapsed_total (map written (a1 ++ y))) as [r2 C2].
  rewrite app_assoc, <- list_ops_app in A2. pose proof (Hs _ _ A2 C2) as N.
  rewrite map_app in C2. destruct (collapsed_app _ _ _ _ _ C1 C2) as [r ->]. exact (steps_app _ _ _ _ N).
Qed.

Lemma read_grows : forall md U file root skip ops ops2 g j g' h k h',
  Forall valid_mapping (added_mappings (ops ++ ops2)) -> steps_fit (ops ++ ops2) ->
  few_names (2^30) (added_mappings (ops ++ ops2)) ->
  appendable (added_mappings ops) (added_mappings ops2) ->
  gen_run md U (gen_new file root skip) ops = Ok g -> gen_as_json md U g = Ok (j, g') ->
  gen_run md U (gen_new file root skip) (ops ++ ops2) = Ok h -> gen_as_json md U h = Ok (k, h') ->
  exists r r2, read_json j = Some r /\ read_json k = Some (r ++ r2).
Proof.
  intros md U file root skip ops ops2 g j g' h k h' Hv Hs Hc Ho Eg Ej Eh Ek.
  assert (Hv1 : Forall valid_mapping (added_mappings ops)) by (rewrite added_mappings_app in Hv; apply Forall_app in Hv; tauto).
  assert (Hs1 : steps_fit ops) by exact (fits_prefix _ _ Hv Ho Hs).
  assert (Hc1 : few_names (2^30) (added_mappings ops)).
  { rewrite added_mappings_app in Hc. eapply few_incl; [|exact Hc]. apply incl_appl, incl_refl. }
  destruct (roundtrip_held _ _ _ _ _ _ _ _ _ Hv1 Hs1 Hc1 Eg Ej) as [a1 [r1 [A1 [R1 [C1 _]]]]].
  destruct (roundtrip_held _ _ _ _ _ _ _ _ _ Hv Hs Hc Eh Ek) as [a2 [r2 [A2 [R2 [C2 _]]]]].
  rewrite list_ops_app, <- app_assoc in A2.
  assert (Hw : Forall wf_mapping (added (list_ops ops ++ list_ops ops2))).
  { rewrite <- list_ops_app, added_list_ops. eapply Forall_impl; [|exact Hv]. intros m [Hm _]. exact Hm. }
  rewrite <- !added_list_ops in Ho.
  destruct (held_append _ _ _ _ Hw Ho A1 A2) as [y [-> _]]. rewrite map_app in C2.
  destruct (collapsed_app _ _ _ _ _ C1 C2) as [r ->]. exists r1, r. auto.
Qed.
