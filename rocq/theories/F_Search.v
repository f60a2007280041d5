(** * Lemmas about binary_search *)
From Verif Require Import F_Base M_BinarySearch S_Search.

Lemma nil_or_not : forall {A} (l : list A), l = [] \/ l <> [].
Proof. intros A [|x l]; [left; reflexivity | right; discriminate]. Qed.

Section Safety.
  Context {T1 T2 : Type} (md : mode) (needle : T1) (hay : list T2)
          (compare1 : T1 -> T2 -> res Z) (compare2 : T2 -> T2 -> res Z).
  Hypothesis short : len hay < 2147483647.

  (** outcome: a valid answer, or a panic raised by a comparison *)
  Definition safe1 (r : res Z) : Prop :=
    (exists i, r = Ok i /\ -1 <= i < len hay)
    \/ (exists p x, r = Panic p /\ In x hay /\ compare1 needle x = Panic p).
  Definition safe2 (r : res Z) : Prop :=
    (exists i, r = Ok i /\ -1 <= i < len hay)
    \/ (exists p x y, r = Panic p /\ In x hay /\ In y hay /\ compare2 x y = Panic p).

  Lemma mid_eq : forall low high, low < high -> Z.quot (high - low) 2 + low = (high - low) / 2 + low.
  Proof. intros. rewrite Z.quot_div_nonneg by lia. reflexivity. Qed.

  (** one unfolding, with the arithmetic discharged *)
  Lemma rs_unfold : forall fuel low high bias, -1 <= low -> low + 2 <= high -> high <= len hay ->
    exists mid h, low < mid < high /\ mid = (high - low) / 2 + low /\ vec_get hay mid = Some h /\
    recursive_search md (S fuel) low high needle hay compare1 bias =
    let* cmp := compare1 needle h in
    if cmp =? 0 then Ok mid
    else if 0 <? cmp then
      if 1 <? high - mid then recursive_search md fuel mid high needle hay compare1 bias
      else if bias =? LEAST_UPPER_BOUND then Ok (if high <? len hay then high else -1) else Ok mid
    else if 1 <? mid - low then recursive_search md fuel low mid needle hay compare1 bias
    else if bias =? LEAST_UPPER_BOUND then Ok mid else Ok (if low <? 0 then -1 else low).
  Proof.
    intros fuel low high bias H1 H2 H3. pose proof (len_nonneg _ hay).
    set (mid := (high - low) / 2 + low).
    assert (1 <= (high - low) / 2) by (apply Z.div_le_lower_bound; lia).
    assert ((high - low) / 2 < high - low) by (apply Z.div_lt; lia).
    destruct (vec_get_in_range _ hay mid) as [h Hh]; [lia|].
    exists mid, h. split; [lia|]. split; [reflexivity|]. split; [exact Hh|].
    cbn [recursive_search]. rewrite (i32_sub_ok md high low) by lia. cbn [bind].
    assert (Hm := mid_eq low high ltac:(lia)).
    rewrite i32_add_ok by lia. rewrite Hm. fold mid. cbn [bind].
    rewrite to_usize_id by lia. rewrite (proj2 (vec_index_ok _ _ _ _) Hh). cbn [bind].
    rewrite i32_sub_ok by lia. rewrite (i32_sub_ok md mid low) by lia. cbn [bind].
    rewrite to_i32_id by lia. reflexivity.
  Qed.

  Lemma vec_get_In : forall i (h : T2), vec_get hay i = Some h -> In h hay.
  Proof. intros i h H. apply vec_get_some_nth in H. destruct H as [_ H]. eapply nth_error_In; exact H. Qed.

  Lemma rs_safe : forall fuel low high bias, -1 <= low -> low + 2 <= high -> high <= len hay ->
    high - low <= Z.of_nat fuel ->
    safe1 (recursive_search md fuel low high needle hay compare1 bias).
  Proof.
    induction fuel as [|fuel IH]; intros low high bias H1 H2 H3 Hf; [lia|].
    destruct (rs_unfold fuel low high bias H1 H2 H3) as [mid [h [Hm [_ [Hh E]]]]]. rewrite E.
    destruct (compare1 needle h) as [cmp|p] eqn:Ec; cbn [bind].
    2:{ right. exists p, h. repeat split; [eapply vec_get_In; exact Hh | exact Ec]. }
    destruct (cmp =? 0); [left; exists mid; split; [reflexivity|lia]|].
    destruct (0 <? cmp).
    - destruct (1 <? high - mid) eqn:E1; [apply IH; lia|].
      destruct (bias =? LEAST_UPPER_BOUND).
      + left. exists (if high <? len hay then high else -1). split; [reflexivity|].
        destruct (high <? len hay) eqn:E2; lia.
      + left. exists mid. split; [reflexivity|lia].
    - destruct (1 <? mid - low) eqn:E1; [apply IH; lia|].
      destruct (bias =? LEAST_UPPER_BOUND).
      + left. exists mid. split; [reflexivity|lia].
      + left. exists (if low <? 0 then -1 else low). split; [reflexivity|].
        destruct (low <? 0) eqn:E2; lia.
  Qed.

  Lemma fe_unfold : forall fuel index, 0 < index < len hay ->
    exists x y, vec_get hay index = Some x /\ vec_get hay (index - 1) = Some y /\
    first_equal md (S fuel) index hay compare2 =
    let* c := compare2 x y in
    if negb (c =? 0) then Ok index else first_equal md fuel (index - 1) hay compare2.
  Proof.
    intros fuel index H.
    destruct (vec_get_in_range _ hay index) as [x Hx]; [lia|].
    destruct (vec_get_in_range _ hay (index - 1)) as [y Hy]; [lia|].
    exists x, y. split; [exact Hx|]. split; [exact Hy|].
    cbn [first_equal]. assert (E : (0 <? index) = true) by lia. rewrite E.
    rewrite to_usize_id by lia. rewrite (proj2 (vec_index_ok _ _ _ _) Hx). cbn [bind].
    rewrite i32_sub_ok by lia. cbn [bind]. rewrite to_usize_id by lia.
    rewrite (proj2 (vec_index_ok _ _ _ _) Hy). reflexivity.
  Qed.

  Lemma fe_zero : forall fuel index, index <= 0 -> first_equal md fuel index hay compare2 = Ok index.
  Proof.
    intros fuel index H. assert (E : (0 <? index) = false) by lia.
    destruct fuel; cbn [first_equal]; rewrite E; reflexivity.
  Qed.

  Lemma fe_safe : forall fuel index, 0 <= index < len hay -> index = Z.of_nat fuel ->
    safe2 (first_equal md fuel index hay compare2).
  Proof.
    induction fuel as [|fuel IH]; intros index H Hf.
    - rewrite fe_zero by lia. left. exists index. split; [reflexivity|lia].
    - destruct (fe_unfold fuel index ltac:(lia)) as [x [y [Hx [Hy E]]]]. rewrite E.
      destruct (compare2 x y) as [c|p] eqn:Ec; cbn [bind].
      + destruct (negb (c =? 0)); [left; exists index; split; [reflexivity|lia]|]. apply IH; lia.
      + right. exists p, x, y. repeat split; [eapply vec_get_In; exact Hx | eapply vec_get_In; exact Hy | exact Ec].
  Qed.

  (** C09 *)
  Lemma search_safe : forall bias,
    (exists i, search md needle hay compare1 compare2 bias = Ok i
       /\ -1 <= i < len hay /\ (hay = [] -> i = -1))
    \/ (exists p, search md needle hay compare1 compare2 bias = Panic p /\
         ((exists x, In x hay /\ compare1 needle x = Panic p)
          \/ (exists x y, In x hay /\ In y hay /\ compare2 x y = Panic p))).
  Proof.
    intros bias. destruct hay as [|h0 t] eqn:Eh.
    - left. exists (-1). rewrite len_nil. repeat split; lia.
    - rewrite <- Eh in *. assert (Hne : hay <> []) by congruence.
      assert (Hl : 1 <= len hay) by (rewrite Eh, len_cons; pose proof (len_nonneg _ t); lia).
      assert (E : search md needle hay compare1 compare2 bias =
        let* index := recursive_search md (S (S (List.length hay))) (-1)
            (to_i32 (len hay)) needle hay compare1
            (match bias with Some b => b | None => GREATEST_LOWER_BOUND end) in
        if index <? 0 then Ok (-1) else first_equal md (Z.to_nat index) index hay compare2)
        by (rewrite Eh; reflexivity).
      rewrite E. rewrite to_i32_id by lia.
      set (b := match bias with Some b => b | None => GREATEST_LOWER_BOUND end).
      destruct (rs_safe (S (S (length hay))) (-1) (len hay) b) as [[i [Ei Hi]]|[p [x [Ei [Hx Hp]]]]];
        [lia|lia|lia|unfold len; lia| |]; rewrite Ei; cbn [bind].
      + destruct (i <? 0) eqn:Ei0.
        * left. exists (-1). repeat split; [lia|lia].
        * destruct (fe_safe (Z.to_nat i) i) as [[j [Ej Hj]]|[p [x [y [Ej [Hx [Hy Hp]]]]]]]; [lia|lia| |].
          -- left. exists j. split; [exact Ej|]. split; [exact Hj|]. contradiction.
          -- right. exists p. split; [exact Ej|]. right. eauto.
      + right. exists p. split; [reflexivity|]. left. eauto.
  Qed.
End Safety.

Section Sorted.
  Context {T1 T2 : Type} (md : mode) (needle : T1) (hay : list T2)
          (c1 : T1 -> T2 -> Z) (c2 : T2 -> T2 -> Z).
  Hypothesis short : len hay < 2147483647.
  Hypothesis cons : consistent c1 c2.
  Hypothesis srt : sorted c2 hay.

  Let compare1 a b : res Z := Ok (c1 a b).
  Let compare2 a b : res Z := Ok (c2 a b).

  Lemma srt_get : forall i j x y, i <= j -> vec_get hay i = Some x -> vec_get hay j = Some y -> c2 x y <= 0.
  Proof.
    intros i j x y H Hx Hy. apply vec_get_some_nth in Hx. apply vec_get_some_nth in Hy.
    destruct Hx as [Hi Hx]. destruct Hy as [Hj Hy].
    eapply srt; [|exact Hx|exact Hy]. lia.
  Qed.

  (** bracket: everything up to [low] is below the needle, from [high] on above *)
  Definition bracket (low high : Z) : Prop :=
    (forall i x, i <= low -> vec_get hay i = Some x -> 0 < c1 needle x)
    /\ (forall i x, high <= i -> vec_get hay i = Some x -> c1 needle x < 0).

  (** what recursive_search finds *)
  Definition found (bias r : Z) : Prop :=
    (exists x, vec_get hay r = Some x /\ c1 needle x = 0)
    \/ (exists k, -1 <= k < len hay /\ bracket k (k + 1) /\
         r = if bias =? LEAST_UPPER_BOUND then (if k + 1 <? len hay then k + 1 else -1) else k).

  Lemma bracket_low : forall low high mid h, bracket low high -> vec_get hay mid = Some h ->
    0 < c1 needle h -> bracket mid high.
  Proof.
    intros low high mid h [B1 B2] Hh Hc. split; [|exact B2].
    intros i x Hi Hx. pose proof (srt_get i mid x h Hi Hx Hh) as Hs.
    pose proof (c1_mono _ _ cons needle x h Hs). lia.
  Qed.
  Lemma bracket_high : forall low high mid h, bracket low high -> vec_get hay mid = Some h ->
    c1 needle h < 0 -> bracket low mid.
  Proof.
    intros low high mid h [B1 B2] Hh Hc. split; [exact B1|].
    intros i x Hi Hx. pose proof (srt_get mid i h x Hi Hh Hx) as Hs.
    pose proof (c1_mono _ _ cons needle h x Hs). lia.
  Qed.

  Lemma rs_found : forall fuel low high bias, -1 <= low -> low + 2 <= high -> high <= len hay ->
    high - low <= Z.of_nat fuel -> bracket low high ->
    exists r, recursive_search md fuel low high needle hay compare1 bias = Ok r /\ found bias r.
  Proof.
    induction fuel as [|fuel IH]; intros low high bias H1 H2 H3 Hf HB; [lia|].
    destruct (rs_unfold md needle hay compare1 short fuel low high bias H1 H2 H3)
      as [mid [h [Hm [_ [Hh E]]]]].
    rewrite E. unfold compare1 at 1. cbn [bind].
    destruct (c1 needle h =? 0) eqn:E0.
    { exists mid. split; [reflexivity|]. left. exists h. split; [exact Hh | lia]. }
    destruct (0 <? c1 needle h) eqn:E1.
    - assert (HB' := bracket_low _ _ _ _ HB Hh ltac:(lia)).
      destruct (1 <? high - mid) eqn:E2; [apply IH; try lia; exact HB'|].
      assert (high = mid + 1) by lia. subst high.
      exists (if bias =? LEAST_UPPER_BOUND then (if mid + 1 <? len hay then mid + 1 else -1) else mid).
      split; [destruct (bias =? LEAST_UPPER_BOUND); reflexivity|].
      right. exists mid. split; [lia|]. split; [exact HB' | reflexivity].
    - assert (HB' := bracket_high _ _ _ _ HB Hh ltac:(lia)).
      destruct (1 <? mid - low) eqn:E2; [apply IH; try lia; exact HB'|].
      assert (mid = low + 1) by lia. subst mid.
      exists (if bias =? LEAST_UPPER_BOUND then low + 1 else if low <? 0 then -1 else low).
      split; [destruct (bias =? LEAST_UPPER_BOUND); reflexivity|].
      right. exists low. split; [lia|]. split; [exact HB'|].
      destruct (bias =? LEAST_UPPER_BOUND).
      + assert (E3 : (low + 1 <? len hay) = true) by lia. rewrite E3. reflexivity.
      + destruct (low <? 0) eqn:E3; lia.
  Qed.

  (** first_equal goes to the first index of the run of equal elements *)
  Lemma fe_first : forall fuel index x, index = Z.of_nat fuel -> vec_get hay index = Some x ->
    exists r y, first_equal md fuel index hay compare2 = Ok r /\ 0 <= r <= index
      /\ vec_get hay r = Some y /\ c2 x y = 0 /\ c2 y x = 0
      /\ forall j z, j < r -> vec_get hay j = Some z -> c2 z y <> 0.
  Proof.
    induction fuel as [|fuel IH]; intros index x Hf Hx.
    - rewrite fe_zero by lia. exists index, x. repeat split; try lia; try apply (c2_refl _ _ cons).
      + exact Hx.
      + intros j z Hj Hz. apply vec_get_range in Hz. lia.
    - pose proof (vec_get_range _ _ _ _ Hx) as Hr.
      destruct (fe_unfold md hay compare2 short fuel index ltac:(lia)) as [x' [y [Hx' [Hy E]]]].
      rewrite Hx in Hx'. inv Hx'. rewrite E. unfold compare2 at 1. cbn [bind].
      destruct (negb (c2 x' y =? 0)) eqn:En.
      + exists (Z.of_nat (S fuel)), x'. repeat split; try lia; try apply (c2_refl _ _ cons); [exact Hx|].
        intros j z Hj Hz Hc.
        pose proof (srt_get j (Z.of_nat (S fuel) - 1) z y ltac:(lia) Hz Hy) as Hzy.
        pose proof (srt_get (Z.of_nat (S fuel) - 1) (Z.of_nat (S fuel)) y x' ltac:(lia) Hy Hx) as Hyx.
        pose proof (c2_antisym _ _ cons z x'). pose proof (c2_antisym _ _ cons x' y).
        pose proof (c2_trans _ _ cons x' z y ltac:(lia) Hzy). lia.
      + destruct (IH (Z.of_nat (S fuel) - 1) y) as [r [w [Er [Hrr [Hw [C1 [C2 Hm]]]]]]]; [lia|exact Hy|].
        exists r, w. split; [exact Er|]. split; [lia|]. split; [exact Hw|].
        assert (c2 x' y = 0) by lia.
        pose proof (c2_antisym _ _ cons x' y). pose proof (c2_antisym _ _ cons x' w).
        pose proof (c2_trans _ _ cons x' y w ltac:(lia) ltac:(lia)).
        pose proof (c2_trans _ _ cons w y x' ltac:(lia) ltac:(lia)).
        split; [lia|]. split; [lia|]. exact Hm.
  Qed.

  Lemma c1_eqv : forall x y, c2 x y = 0 -> Z.sgn (c1 needle x) = Z.sgn (c1 needle y).
  Proof.
    intros x y H. pose proof (c2_antisym _ _ cons x y).
    pose proof (c1_mono _ _ cons needle x y ltac:(lia)).
    pose proof (c1_mono _ _ cons needle y x ltac:(lia)). lia.
  Qed.

  Lemma vec_get_In' : forall i (h : T2), vec_get hay i = Some h -> In h hay.
  Proof. intros i h H. apply vec_get_some_nth in H. destruct H as [_ H]. eapply nth_error_In; exact H. Qed.
  Lemma In_vec_get : forall h : T2, In h hay -> exists i, vec_get hay i = Some h.
  Proof.
    intros h H. apply In_nth_error in H. destruct H as [n H]. exists (Z.of_nat n).
    rewrite vec_get_nth. exact H.
  Qed.

  (** overall: a representative index, or -1 *)
  Lemma search_found : forall bias,
    exists r, search md needle hay compare1 compare2 bias = Ok r /\
      let b := match bias with Some b => b | None => GREATEST_LOWER_BOUND end in
      ((r = -1 /\ (hay = [] \/ found b (-1)))
       \/ (0 <= r /\ exists i x y, found b i /\ vec_get hay i = Some x /\ vec_get hay r = Some y
             /\ c2 x y = 0 /\ c2 y x = 0
             /\ forall j z, j < r -> vec_get hay j = Some z -> c2 z y <> 0)).
  Proof.
    intros bias.
    destruct (nil_or_not hay) as [Eh|Hne].
    { exists (-1). rewrite Eh. split; [reflexivity|]. left. auto. }
    assert (Hl : 1 <= len hay) by (destruct hay; [contradiction|]; rewrite len_cons; pose proof (len_nonneg _ l); lia).
    set (b := match bias with Some b => b | None => GREATEST_LOWER_BOUND end).
    assert (E : search md needle hay compare1 compare2 bias =
        let* index := recursive_search md (S (S (List.length hay))) (-1)
            (to_i32 (len hay)) needle hay compare1 b in
        if index <? 0 then Ok (-1) else first_equal md (Z.to_nat index) index hay compare2)
        by (destruct hay; [contradiction | reflexivity]).
    rewrite E. rewrite to_i32_id by lia.
    destruct (rs_found (S (S (length hay))) (-1) (len hay) b) as [i [Ei Hi]]; [lia|lia|lia|unfold len; lia| |].
    { split; intros j x Hj Hx; apply vec_get_range in Hx; lia. }
    rewrite Ei. cbn [bind]. destruct (i <? 0) eqn:Ei0.
    - exists (-1). split; [reflexivity|]. left. split; [reflexivity|]. right.
      assert (i = -1); [|subst; exact Hi].
      destruct Hi as [[x [Hx _]]|[k [Hk [_ Hr]]]]; [apply vec_get_range in Hx; lia|].
      destruct (b =? LEAST_UPPER_BOUND); [destruct (k + 1 <? len hay)|]; lia.
    - assert (exists x, vec_get hay i = Some x) as [x Hx].
      { apply vec_get_in_range.
        destruct Hi as [[x [Hx _]]|[k [Hk [_ Hr]]]]; [apply vec_get_range in Hx; lia|].
        destruct (b =? LEAST_UPPER_BOUND); [destruct (k + 1 <? len hay) eqn:Ek|]; lia. }
      destruct (fe_first (Z.to_nat i) i x) as [r [y [Er [Hr [Hy [C1 [C2 Hm]]]]]]]; [lia|exact Hx|].
      exists r. split; [exact Er|]. right. split; [lia|]. exists i, x, y. auto 10.
  Qed.

  (** C12 *)
  Lemma search_first : forall bias r,
    search md needle hay compare1 compare2 bias = Ok r -> r <> -1 ->
    exists x, nth_error hay (Z.to_nat r) = Some x
      /\ forall j y, (j < Z.to_nat r)%nat -> nth_error hay j = Some y -> c2 y x <> 0.
  Proof.
    intros bias r E Hr. destruct (search_found bias) as [r' [E' H]].
    rewrite E in E'. inv E'. destruct H as [[H _]|[H0 [i [x [y [_ [_ [Hy [_ [_ Hm]]]]]]]]]]; [contradiction|].
    exists y. apply vec_get_some_nth in Hy. split; [tauto|].
    intros j z Hj Hz. apply (Hm (Z.of_nat j) z); [lia|]. rewrite vec_get_nth. exact Hz.
  Qed.

  (** C10 *)
  Lemma search_glb : forall bias, bias <> Some LEAST_UPPER_BOUND ->
    exists r, search md needle hay compare1 compare2 bias = Ok r /\
      ((r = -1 /\ forall x, In x hay -> c1 needle x < 0)
       \/ (0 <= r /\ exists x, nth_error hay (Z.to_nat r) = Some x
             /\ greatest_lower c1 c2 needle hay x
             /\ ((exists y, In y hay /\ c1 needle y = 0) -> c1 needle x = 0))).
  Proof.
    intros bias Hb. destruct (search_found bias) as [r [E H]]. exists r. split; [exact E|].
    set (b := match bias with Some b => b | None => GREATEST_LOWER_BOUND end) in *. cbn zeta in H.
    assert (Eb : (b =? LEAST_UPPER_BOUND) = false).
    { unfold b. destruct bias as [z|]; [|reflexivity].
      destruct (z =? LEAST_UPPER_BOUND) eqn:Ez; [|reflexivity]. exfalso. apply Hb. f_equal. lia. }
    unfold found in H. rewrite Eb in H.
    destruct H as [[Hr [He|Hf]]|[H0 [i [x [y [Hf [Hx [Hy [C1 [C2 _]]]]]]]]]].
    - left. split; [exact Hr|]. rewrite He. intros x [].
    - left. split; [exact Hr|]. destruct Hf as [[x [Hx _]]|[k [Hk [HB Hk2]]]].
      { apply vec_get_range in Hx. lia. }
      intros x Hin. apply In_vec_get in Hin. destruct Hin as [j Hj].
      apply (proj2 HB j x); [|exact Hj]. apply vec_get_range in Hj. lia.
    - right. split; [exact H0|]. exists y.
      split; [apply vec_get_some_nth in Hy; tauto|].
      pose proof (c1_eqv x y C1) as Hsg.
      destruct Hf as [[x' [Hx' Hc]]|[k [Hk [HB Hk2]]]].
      + rewrite Hx in Hx'. inv Hx'. split; [|intros _; lia].
        repeat split; [eapply vec_get_In'; exact Hy | lia |].
        intros z Hz Hcz. apply In_vec_get in Hz. destruct Hz as [j Hj].
        assert (c2 z x' <= 0).
        { destruct (Z_le_dec j i) as [Hji|Hji]; [eapply srt_get; eassumption|].
          assert (c2 x' z <= 0) by (eapply (srt_get i j); [lia | eassumption | eassumption]).
          pose proof (c1_mono _ _ cons needle x' z H).
          assert (c1 needle z = 0) by lia.
          pose proof (c1_equal _ _ cons needle z x' H2 Hc). lia. }
        eapply (c2_trans _ _ cons); [exact H | lia].
      + subst k. split.
        * repeat split; [eapply vec_get_In'; exact Hy | pose proof (proj1 HB i x ltac:(lia) Hx); lia |].
          intros z Hz Hcz. apply In_vec_get in Hz. destruct Hz as [j Hj].
          destruct (Z_le_dec j i) as [Hji|Hji].
          -- pose proof (srt_get j i z x Hji Hj Hx). eapply (c2_trans _ _ cons); [eassumption | lia].
          -- pose proof (proj2 HB j z ltac:(lia) Hj). lia.
        * intros [z [Hz Hcz]]. exfalso. apply In_vec_get in Hz. destruct Hz as [j Hj].
          destruct (Z_le_dec j i) as [Hji|Hji].
          -- pose proof (proj1 HB j z Hji Hj). lia.
          -- pose proof (proj2 HB j z ltac:(lia) Hj). lia.
  Qed.

  (** C11 *)
  Lemma search_lub :
    exists r, search md needle hay compare1 compare2 (Some LEAST_UPPER_BOUND) = Ok r /\
      ((r = -1 /\ forall x, In x hay -> 0 < c1 needle x)
       \/ (0 <= r /\ exists x, nth_error hay (Z.to_nat r) = Some x
             /\ least_upper c1 c2 needle hay x
             /\ ((exists y, In y hay /\ c1 needle y = 0) -> c1 needle x = 0))).
  Proof.
    destruct (search_found (Some LEAST_UPPER_BOUND)) as [r [E H]]. exists r. split; [exact E|].
    cbn zeta in H. unfold found in H. rewrite Z.eqb_refl in H.
    destruct H as [[Hr [He|Hf]]|[H0 [i [x [y [Hf [Hx [Hy [C1 [C2 _]]]]]]]]]].
    - left. split; [exact Hr|]. rewrite He. intros x [].
    - left. split; [exact Hr|]. destruct Hf as [[x [Hx _]]|[k [Hk [HB Hk2]]]].
      { apply vec_get_range in Hx. lia. }
      intros x Hin. apply In_vec_get in Hin. destruct Hin as [j Hj].
      apply (proj1 HB j x); [|exact Hj]. apply vec_get_range in Hj.
      destruct (k + 1 <? len hay) eqn:Ek; lia.
    - right. split; [exact H0|]. exists y.
      split; [apply vec_get_some_nth in Hy; tauto|].
      pose proof (c1_eqv x y C1) as Hsg.
      destruct Hf as [[x' [Hx' Hc]]|[k [Hk [HB Hk2]]]].
      + rewrite Hx in Hx'. inv Hx'. split; [|intros _; lia].
        repeat split; [eapply vec_get_In'; exact Hy | lia |].
        intros z Hz Hcz. apply In_vec_get in Hz. destruct Hz as [j Hj].
        assert (c2 x' z <= 0).
        { destruct (Z_le_dec i j) as [Hji|Hji]; [eapply srt_get; eassumption|].
          assert (c2 z x' <= 0) by (eapply (srt_get j i); [lia | eassumption | eassumption]).
          pose proof (c1_mono _ _ cons needle z x' H).
          assert (c1 needle z = 0) by lia.
          pose proof (c1_equal _ _ cons needle x' z Hc H2). lia. }
        eapply (c2_trans _ _ cons); [|exact H]. lia.
      + pose proof (vec_get_range _ _ _ _ Hx) as Hir.
        destruct (k + 1 <? len hay) eqn:Ek; [|lia]. subst i. split.
        * repeat split; [eapply vec_get_In'; exact Hy | pose proof (proj2 HB (k+1) x ltac:(lia) Hx); lia |].
          intros z Hz Hcz. apply In_vec_get in Hz. destruct Hz as [j Hj].
          destruct (Z_le_dec (k+1) j) as [Hji|Hji].
          -- pose proof (srt_get (k+1) j x z Hji Hx Hj). eapply (c2_trans _ _ cons); [|eassumption]. lia.
          -- pose proof (proj1 HB j z ltac:(lia) Hj). lia.
        * intros [z [Hz Hcz]]. exfalso. apply In_vec_get in Hz. destruct Hz as [j Hj].
          destruct (Z_le_dec (k+1) j) as [Hji|Hji].
          -- pose proof (proj2 HB j z Hji Hj). lia.
          -- pose proof (proj1 HB j z ltac:(lia) Hj). lia.
  Qed.
End Sorted.

Lemma sub_consistent : consistent Z.sub Z.sub.
Proof. split; intros; lia. Qed.

Lemma five_sorted : sorted Z.sub [2; 4; 4; 4; 9].
Proof.
  intros i j x y H Hi Hj.
  do 5 (destruct i as [|i]; [do 5 (destruct j as [|j]; [inv Hi; inv Hj; lia|]); destruct j; discriminate|]).
  destruct i; discriminate.
Qed.
