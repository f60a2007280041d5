(** * Mapping lists without bounds on the coordinates *)
From Verif Require Import F_Base M_ArraySet M_Mapping M_Util M_SourceMap M_Generator S_Mapping S_Generator S_Adds F_Mapping F_MappingList F_Generator.
From Coq Require Import Sorting.Sorted Sorting.Permutation.

Lemma sub_debug : forall a b c, i32_sub Debug a b = Ok c -> c = a - b.
Proof. intros a b c. unfold i32_sub, checked_i32. destruct (in_i32 (a - b)); intros H; [congruence | discriminate]. Qed.

(** a comparison that returns in a debug build is right *)
Lemma compare_debug : forall a b c, compare_by_generated_pos_inflated Debug a b = Ok c ->
  (0 < c -> gen_le b a) /\ (c <= 0 -> gen_le a b).
Proof.
  intros a b c H. unfold compare_by_generated_pos_inflated in H. unfold gen_le, pos_le.
  destruct (i32_sub Debug (p_line (m_generated a)) (p_line (m_generated b))) as [d|p] eqn:E1; [|discriminate].
  apply sub_debug in E1. cbn [bind] in H. destruct (Z.eqb_spec d 0) as [D|D].
  2: { cbn [negb] in H. injection H as <-. lia. }
  cbn [negb] in H.
  destruct (i32_sub Debug (p_column (m_generated a)) (p_column (m_generated b))) as [d'|p] eqn:E2; [|discriminate].
  apply sub_debug in E2. cbn [bind] in H. destruct (Z.eqb_spec d' 0) as [D'|D'].
  2: { cbn [negb] in H. injection H as <-. lia. }
  split; intros _; right; lia.
Qed.

Lemma sort_insert_debug : forall x l r, StronglySorted gen_le l ->
  sort_insert (compare_by_generated_pos_inflated Debug) x l = Ok r ->
  Permutation (x :: l) r /\ StronglySorted gen_le r.
Proof.
  intros x l. induction l as [|y l IH]; intros r Hs H; cbn [sort_insert] in H.
  - injection H as <-. split; [apply Permutation_refl | repeat constructor].
  - destruct (compare_by_generated_pos_inflated Debug x y) as [c|p] eqn:E; [|discriminate]. cbn [bind] in H.
    destruct (compare_debug _ _ _ E) as [C1 C2]. inversion Hs as [|? ? S1 S2]; subst.
    destruct (0 <? c) eqn:Ec.
    + destruct (sort_insert (compare_by_generated_pos_inflated Debug) x l) as [s|p] eqn:Es; [|discriminate]. cbn [bind] in H.
      injection H as <-. destruct (IH s S1 eq_refl) as [P Q]. split.
      * eapply perm_trans; [apply perm_swap|]. constructor. exact P.
      * constructor; [exact Q|]. eapply Permutation_Forall; [exact P|]. constructor; [apply C1; lia | exact S2].
    + injection H as <-. split; [apply Permutation_refl|]. constructor; [exact Hs|].
      constructor; [apply C2; lia|]. eapply Forall_impl; [|exact S2]. intros z Hz.
      unfold gen_le in *. eapply pos_le_trans; [apply C2; lia | exact Hz].
Qed.

Lemma sort_debug : forall l r, sort_by (compare_by_generated_pos_inflated Debug) l = Ok r ->
  Permutation l r /\ StronglySorted gen_le r.
Proof.
  induction l as [|x l IH]; intros r H; cbn [sort_by] in H.
  - injection H as <-. split; [constructor | constructor].
  - destruct (sort_by (compare_by_generated_pos_inflated Debug) l) as [s|p] eqn:E; [|discriminate]. cbn [bind] in H.
    destruct (IH s eq_refl) as [P Q]. destruct (sort_insert_debug _ _ _ Q H) as [P2 Q2].
    split; [|exact Q2]. eapply perm_trans; [|exact P2]. constructor. exact P.
Qed.

(** ** what a debug build keeps *)
Definition last_of (l : MappingList) : Mapping := match ml_last l with Some m => m | None => ml_dummy_last end.

Record kept (l : MappingList) (ms : list Mapping) : Prop := {
  kept_perm : Permutation ms (ml_array l);
  kept_latest : latest (places ms) (m_generated (last_of l));
  kept_sorted : ml_sorted l = true -> gen_sorted (ml_array l) }.

Lemma kept_new : kept ml_new [].
Proof.
  split; [constructor | | constructor]. split; [left; reflexivity|]. intros p [<-|[]]. apply pos_le_refl.
Qed.

Lemma latest_add_after : forall ms M m, latest (places ms) M -> pos_le M (m_generated m) ->
  latest (places (ms ++ [m])) (m_generated m).
Proof.
  intros ms M m [H1 H2] H. unfold places. rewrite map_app. cbn [map]. split.
  - right. apply in_or_app. right. left. reflexivity.
  - intros p [<-|Hp].
    + eapply pos_le_trans; [apply H2; left; reflexivity | exact H].
    + apply in_app_or in Hp. destruct Hp as [Hp|[<-|[]]]; [|apply pos_le_refl].
      eapply pos_le_trans; [apply H2; right; exact Hp | exact H].
Qed.
Lemma latest_add_before : forall ms M m, latest (places ms) M -> pos_le (m_generated m) M ->
  latest (places (ms ++ [m])) M.
Proof.
  intros ms M m [H1 H2] H. unfold places. rewrite map_app. cbn [map]. split.
  - destruct H1 as [H1|H1]; [left; exact H1 | right; apply in_or_app; left; exact H1].
  - intros p [<-|Hp]; [apply H2; left; reflexivity|].
    apply in_app_or in Hp. destruct Hp as [Hp|[<-|[]]]; [apply H2; right; exact Hp | exact H].
Qed.

Lemma after_debug : forall a b r, generated_position_after Debug a b = Ok r ->
  if r then gen_le a b else gen_le b a.
Proof.
  intros a b r H. unfold generated_position_after in H.
  destruct ((p_line (m_generated a) <? p_line (m_generated b))
            || ((p_line (m_generated b) =? p_line (m_generated a))
                && (p_column (m_generated a) <=? p_column (m_generated b)))) eqn:E.
  - injection H as <-. unfold gen_le, pos_le. lia.
  - destruct (compare_by_generated_pos_inflated Debug a b) as [c|p] eqn:Ec; [|discriminate]. cbn [bind] in H.
    injection H as <-. destruct (compare_debug _ _ _ Ec) as [C1 C2]. destruct (Z.leb_spec c 0); auto.
Qed.

Lemma kept_add : forall l ms m l', kept l ms -> ml_add Debug l m = Ok l' -> kept l' (ms ++ [m]).
Proof.
  intros l ms m l' [P L S] H. unfold ml_add in H. fold (last_of l) in H.
  destruct (generated_position_after Debug (last_of l) m) as [r|p] eqn:E; [|discriminate]. cbn [bind] in H.
  pose proof (after_debug _ _ _ E) as A. destruct r; injection H as <-.
  - split; cbn [ml_array ml_sorted].
    + apply Permutation_app_tail. exact P.
    + exact (latest_add_after _ _ _ L A).
    + intros Hs. apply gen_sorted_snoc; [apply S; exact Hs|]. eapply Permutation_Forall; [exact P|].
      apply Forall_forall. intros x Hx. unfold gen_le. eapply pos_le_trans; [|exact A].
      apply (proj2 L). right. apply in_map. exact Hx.
  - split; cbn [ml_array ml_sorted].
    + apply Permutation_app_tail. exact P.
    + exact (latest_add_before _ _ _ L A).
    + discriminate.
Qed.

Lemma kept_array : forall l ms a l', kept l ms -> ml_to_array Debug l = Ok (a, l') ->
  kept l' ms /\ Permutation ms a /\ gen_sorted a.
Proof.
  intros l ms a l' [P L S] H. unfold ml_to_array in H. destruct (ml_sorted l) eqn:E; cbn [negb] in H.
  - injection H as <- <-. split; [split; auto|]. split; [exact P | apply S; reflexivity].
  - destruct (sort_by (compare_by_generated_pos_inflated Debug) (ml_array l)) as [s|p] eqn:Es; [|discriminate].
    cbn [bind] in H. injection H as <- <-. destruct (sort_debug _ _ Es) as [P2 Q].
    assert (P3 : Permutation ms s) by (eapply perm_trans; [exact P | exact P2]).
    split; [|split; [exact P3 | exact Q]]. split; [exact P3 | exact L | intros _; exact Q].
Qed.

Lemma kept_run : forall ops l ms l', kept l ms -> ml_run Debug l ops = Ok l' -> kept l' (ms ++ added ops).
Proof.
  induction ops as [|[m|] ops IH]; intros l ms l' K H; cbn [ml_run added] in *.
  - injection H as <-. rewrite app_nil_r. exact K.
  - destruct (ml_add Debug l m) as [l1|p] eqn:E; [|discriminate]. cbn [bind] in H.
    rewrite (app_assoc ms [m] (added ops) : ms ++ m :: added ops = (ms ++ [m]) ++ added ops).
    exact (IH _ _ _ (kept_add _ _ _ _ K E) H).
  - destruct (ml_to_array Debug l) as [[a l1]|p] eqn:E; [|discriminate]. cbn [bind snd] in H.
    exact (IH _ _ _ (proj1 (kept_array _ _ _ _ K E)) H).
Qed.

Lemma debug_sorted : forall ops l a l', ml_run Debug ml_new ops = Ok l -> ml_to_array Debug l = Ok (a, l') ->
  Permutation (added ops) a /\ gen_sorted a.
Proof. intros ops l a l' H1 H2. exact (proj2 (kept_array _ _ _ _ (kept_run _ _ _ _ kept_new H1) H2)). Qed.

(** ** when adding panics *)
Lemma add_exact_at : forall l ms m, kept l ms -> Forall i32_place ms -> i32_place m ->
  exists M, latest (places ms) M
    /\ (far_before (m_generated m) M -> ml_add Debug l m = Panic POverflow)
    /\ (~ far_before (m_generated m) M -> exists l', ml_add Debug l m = Ok l').
Proof.
  intros l ms m [_ L _] Hms Hm.
  exists (m_generated (last_of l)). split; [exact L|].
  assert (R : in_window i32_min i32_max (m_generated (last_of l))).
  { destruct L as [[<-|L] _]; [unfold in_window, i32_min, i32_max; cbn; lia|].
    apply in_map_iff in L. destruct L as [x [<- Hx]]. rewrite Forall_forall in Hms. exact (Hms x Hx). }
  unfold ml_add. fold (last_of l). generalize dependent (last_of l). intros x _ [R1 R2]. destruct Hm as [M1 M2].
  unfold generated_position_after, far_before.
  unfold i32_min, i32_max in *. change (2 ^ 31) with 2147483648 in *.
  destruct ((p_line (m_generated x) <? p_line (m_generated m))
            || ((p_line (m_generated m) =? p_line (m_generated x))
                && (p_column (m_generated x) <=? p_column (m_generated m)))) eqn:E.
  - split; [intros F; lia|]. intros _. cbn [bind]. eexists. reflexivity.
  - unfold compare_by_generated_pos_inflated.
    destruct (Z.le_gt_cases (p_line (m_generated x) - p_line (m_generated m)) 2147483647) as [A|A].
    + rewrite i32_sub_ok by lia. cbn [bind]. destruct (Z.eqb_spec (p_line (m_generated x) - p_line (m_generated m)) 0) as [B|B]; cbn [negb].
      * destruct (Z.le_gt_cases (p_column (m_generated x) - p_column (m_generated m)) 2147483647) as [C|C].
        -- rewrite i32_sub_ok by lia. cbn [bind].
           replace (negb (p_column (m_generated x) - p_column (m_generated m) =? 0)) with true by lia. cbn [bind].
           split; [intros F; lia|]. intros _. destruct (_ <=? 0); eexists; reflexivity.
        -- split; [|intros F; exfalso; lia]. intros _. unfold i32_sub at 1, checked_i32.
           replace (in_i32 _) with false by (unfold in_i32, i32_min, i32_max; change (2 ^ 31) with 2147483648; lia). reflexivity.
      * cbn [bind]. split; [intros F; lia|]. intros _. destruct (_ <=? 0); eexists; reflexivity.
    + split; [|intros F; exfalso; lia]. intros _. unfold i32_sub at 1, checked_i32.
      replace (in_i32 _) with false by (unfold in_i32, i32_min, i32_max; change (2 ^ 31) with 2147483648; lia). reflexivity.
Qed.

Lemma add_exact : forall ops l m, ml_run Debug ml_new ops = Ok l ->
  Forall i32_place (added ops) -> i32_place m ->
  exists M, latest (places (added ops)) M
    /\ (far_before (m_generated m) M -> ml_add Debug l m = Panic POverflow)
    /\ (~ far_before (m_generated m) M -> exists l', ml_add Debug l m = Ok l').
Proof. intros ops l m H. exact (add_exact_at l (added ops) m (kept_run _ _ _ _ kept_new H)). Qed.

Lemma latest_unique : forall l M N, latest l M -> latest l N -> M = N.
Proof. intros l M N [H1 H2] [H3 H4]. apply pos_le_antisym; auto. Qed.

Lemma far_dec : forall p M, {far_before p M} + {~ far_before p M}.
Proof.
  intros p M. unfold far_before. destruct (Z_lt_dec i32_max (p_line M - p_line p)); [left; lia|].
  destruct (Z.eq_dec (p_line M) (p_line p)); [|right; lia].
  destruct (Z_lt_dec i32_max (p_column M - p_column p)); [left; lia | right; lia].
Qed.

Lemma gen_adds : forall md U ms g g', gen_run md U g (map GAdd ms) = Ok g' ->
  ml_run md (g_mappings g) (adds ms) = Ok (g_mappings g').
Proof.
  intros md U. induction ms as [|m ms IH]; intros g g' H; cbn [map gen_run gen_step adds ml_run] in *.
  - injection H as <-. reflexivity.
  - unfold gen_add_mapping in H. destruct (ml_add md (g_mappings g) m) as [l|p] eqn:E; [|discriminate].
    cbn [bind] in *. exact (IH _ _ H).
Qed.

Lemma gen_adds_snoc : forall md U ms m g, gen_run md U g (map GAdd (ms ++ [m]))
  = let* g := gen_run md U g (map GAdd ms) in gen_add_mapping md g m.
Proof.
  intros md U. induction ms as [|x ms IH]; intros m g; cbn [app map gen_run gen_step bind].
  - destruct (gen_add_mapping md g m); reflexivity.
  - destruct (gen_add_mapping md g x) as [g1|p]; cbn [bind]; [apply IH | reflexivity].
Qed.

Lemma comparable_app : forall a b, comparable (a ++ b) -> comparable a.
Proof.
  intros a b H before m after M -> L. apply (H before m (after ++ b) M); [|exact L].
  rewrite <- app_assoc. reflexivity.
Qed.

Lemma comparable_snoc : forall ms m M, comparable ms -> latest (places ms) M -> ~ far_before (m_generated m) M ->
  comparable (ms ++ [m]).
Proof.
  intros ms m M C L F before x after N E Ln. destruct after as [|y after] using rev_ind.
  - apply app_inj_tail in E. destruct E as [<- <-]. rewrite (latest_unique _ _ _ Ln L). exact F.
  - clear IHafter. rewrite app_comm_cons, app_assoc in E. apply app_inj_tail in E. destruct E as [E _].
    exact (C before x after N E Ln).
Qed.

Lemma adds_either : forall U file root skip ms, Forall i32_place ms ->
  (comparable ms /\ exists g, gen_run Debug U (gen_new file root skip) (map GAdd ms) = Ok g)
  \/ (~ comparable ms /\ gen_run Debug U (gen_new file root skip) (map GAdd ms) = Panic POverflow).
Proof.
  intros U file root skip ms. induction ms as [|m ms IH] using rev_ind; intros Hr.
  - left. split; [|eexists; reflexivity]. intros [|? ?] ? ? ? E; discriminate.
  - apply Forall_app in Hr. destruct Hr as [Hr Hm]. inversion Hm as [|? ? Hm1 _]; subst. rewrite gen_adds_snoc.
    destruct (IH Hr) as [[C [g E]]|[C E]]; rewrite E; cbn [bind].
    + pose proof (gen_adds _ _ _ _ _ E) as El. cbn [gen_new g_mappings] in El.
      destruct (add_exact (adds ms) (g_mappings g) m El) as [M [L [F1 F2]]]; [rewrite added_adds; exact Hr | exact Hm1 |].
      rewrite added_adds in L. unfold gen_add_mapping. destruct (far_dec (m_generated m) M) as [F|F].
      * right. split; [|rewrite (F1 F); reflexivity]. intros X. exact (X ms m [] M eq_refl L F).
      * left. split; [exact (comparable_snoc _ _ _ C L F)|]. destruct (F2 F) as [l' ->]. eexists. reflexivity.
    + right. split; [|reflexivity]. intros X. apply C. exact (comparable_app _ _ X).
Qed.

Lemma adds_exact : forall U file root skip ms, Forall i32_place ms ->
  (comparable ms -> exists g, gen_run Debug U (gen_new file root skip) (map GAdd ms) = Ok g)
  /\ (~ comparable ms -> gen_run Debug U (gen_new file root skip) (map GAdd ms) = Panic POverflow).
Proof.
  intros U file root skip ms H. destruct (adds_either U file root skip ms H) as [[C E]|[C E]]; split; auto; contradiction.
Qed.

(** ** release builds *)
Lemma sub_release : forall a b, exists c, i32_sub Release a b = Ok c.
Proof. intros a b. unfold i32_sub, checked_i32. destruct (in_i32 (a - b)); eexists; reflexivity. Qed.

Lemma compare_release : forall a b, exists c, compare_by_generated_pos_inflated Release a b = Ok c.
Proof.
  intros a b. unfold compare_by_generated_pos_inflated.
  destruct (sub_release (p_line (m_generated a)) (p_line (m_generated b))) as [x ->]. cbn [bind].
  destruct (negb _); [eexists; reflexivity|].
  destruct (sub_release (p_column (m_generated a)) (p_column (m_generated b))) as [y ->]. cbn [bind].
  destruct (negb _); [eexists; reflexivity|]. destruct (negb _); [eexists; reflexivity|].
  destruct (m_original a) as [oa|]; [|eexists; reflexivity]. destruct (m_original b) as [ob|]; [|eexists; reflexivity].
  destruct (sub_release (p_line oa) (p_line ob)) as [z ->]. cbn [bind]. destruct (negb _); [eexists; reflexivity|].
  destruct (sub_release (p_column oa) (p_column ob)) as [w ->]. cbn [bind]. destruct (negb _); eexists; reflexivity.
Qed.

Lemma sort_release : forall l, exists s, sort_by (compare_by_generated_pos_inflated Release) l = Ok s /\ Permutation l s.
Proof.
  assert (I : forall x l, exists s, sort_insert (compare_by_generated_pos_inflated Release) x l = Ok s /\ Permutation (x :: l) s).
  { intros x. induction l as [|y l [s [IH P]]]; cbn [sort_insert]; [eexists; split; [reflexivity | apply Permutation_refl]|].
    destruct (compare_release x y) as [c ->]. cbn [bind]. destruct (0 <? c).
    - rewrite IH. cbn [bind]. eexists. split; [reflexivity|]. eapply perm_trans; [apply perm_swap|]. constructor. exact P.
    - eexists. split; [reflexivity | apply Permutation_refl]. }
  induction l as [|x l [s [IH P]]]; cbn [sort_by]; [eexists; split; [reflexivity | constructor]|].
  rewrite IH. cbn [bind]. destruct (I x s) as [r [-> Q]]. eexists. split; [reflexivity|].
  eapply perm_trans; [|exact Q]. constructor. exact P.
Qed.

Lemma array_release : forall l, exists a l', ml_to_array Release l = Ok (a, l') /\ Permutation (ml_array l) a /\ ml_array l' = a.
Proof.
  intros l. unfold ml_to_array. destruct (negb (ml_sorted l)).
  - destruct (sort_release (ml_array l)) as [s [-> P]]. cbn [bind]. eexists. eexists. split; [reflexivity|]. split; [exact P | reflexivity].
  - eexists. eexists. split; [reflexivity|]. split; [apply Permutation_refl | reflexivity].
Qed.

Lemma release_runs : forall ops l, exists l', ml_run Release l ops = Ok l' /\ Permutation (ml_array l ++ added ops) (ml_array l').
Proof.
  induction ops as [|[m|] ops IH]; intros l; cbn [ml_run added].
  - exists l. split; [reflexivity|]. rewrite app_nil_r. apply Permutation_refl.
  - assert (A : exists l1, ml_add Release l m = Ok l1 /\ ml_array l1 = ml_array l ++ [m]).
    { unfold ml_add, generated_position_after.
      destruct (_ || _)%bool; cbn [bind]; [eexists; split; reflexivity|].
      destruct (compare_release (match ml_last l with Some m => m | None => ml_dummy_last end) m) as [c ->]. cbn [bind].
      destruct (c <=? 0); eexists; split; reflexivity. }
    destruct A as [l1 [-> A]]. cbn [bind]. destruct (IH l1) as [l' [H P]]. exists l'. split; [exact H|].
    rewrite A, <- app_assoc in P. exact P.
  - destruct (array_release l) as [a [l1 [-> [P E]]]]. cbn [bind snd]. destruct (IH l1) as [l' [H Q]]. exists l'. split; [exact H|].
    eapply perm_trans; [|exact Q]. apply Permutation_app_tail. rewrite E. exact P.
Qed.

Lemma release_complete : forall ops, exists l a l', ml_run Release ml_new ops = Ok l
  /\ ml_to_array Release l = Ok (a, l') /\ Permutation (added ops) a.
Proof.
  intros ops. destruct (release_runs ops ml_new) as [l [H P]]. destruct (array_release l) as [a [l' [E [Q _]]]].
  exists l, a, l'. split; [exact H|]. split; [exact E|]. eapply perm_trans; [exact P | exact Q].
Qed.

Lemma unavailable : gen_from_source_map = Panic PUnimplemented /\ gen_apply_sourcemap = Panic PUnimplemented.
Proof. split; reflexivity. Qed.

(** ** lines below 1 *)
Lemma semicolons_never : forall n line prev next r, line < prev -> semicolon_loop Debug n line prev next <> Ok r.
Proof.
  induction n as [|n IH]; intros line prev next r H E; cbn [semicolon_loop] in E;
    (replace (line =? prev) with false in E by lia); [discriminate|].
  unfold i32_add, checked_i32 in E. destruct (in_i32 (prev + 1)); cbn [bind] in E; [|discriminate].
  apply IH in E; [exact E | lia].
Qed.

Lemma low_never : forall U file root skip ops m g r, In m (added_mappings ops) -> p_line (m_generated m) < 1 ->
  gen_run Debug U (gen_new file root skip) ops = Ok g -> gen_as_json Debug U g <> Ok r.
Proof.
  intros U file root skip ops m g [j g'] Hm Hl H E. apply list_run in H. cbn [gen_new g_mappings] in H.
  apply as_json_inv in E. destruct E as [a [ml' [s [_ [Ea [Es _]]]]]].
  destruct (debug_sorted _ _ _ _ H Ea) as [P S]. rewrite added_list_ops in P.
  apply (Permutation_in _ P) in Hm. destruct a as [|x a]; [destruct Hm|].
  assert (Hx : p_line (m_generated x) < 1).
  { inversion S as [|? ? _ F]; subst. destruct Hm as [->|Hm]; [exact Hl|].
    rewrite Forall_forall in F. specialize (F m Hm). unfold gen_le, pos_le in F. lia. }
  cbn [ser_loop ser_init ss_generated_line] in Es. replace (p_line (m_generated x) =? 1) with false in Es by lia. cbn [negb] in Es.
  destruct (semicolon_loop Debug _ _ _ _) as [r|p] eqn:Er; [|discriminate].
  apply semicolons_never in Er; [exact Er | lia].
Qed.
