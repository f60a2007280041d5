(** * Lemmas about the elements a search looks at *)
From Verif Require Import F_Base M_BinarySearch S_Looks F_Search.

Section Looks.
  Context {T1 T2 : Type} (md : mode) (needle : T1) (hay : list T2)
          (compare1 : T1 -> T2 -> res Z) (compare2 : T2 -> T2 -> res Z).
  Context (short : len hay < 2147483647).

  Lemma vec_index_nth : forall (l : list T2) i, 0 <= i < 2147483647 ->
    vec_index l (to_usize i) = match nth_error l (Z.to_nat i) with Some x => Ok x | None => Panic PIndex end.
  Proof.
    intros l i H. unfold vec_index. unfold to_usize. change (2^64) with 18446744073709551616.
    rewrite Z.mod_small by lia. rewrite <- (Z2Nat.id i) at 1 by lia. rewrite vec_get_nth. reflexivity.
  Qed.

  Lemma recursion_looks : forall bias k fuel low high, 2 <= high - low <= 2 ^ Z.of_nat k ->
    -1 <= low -> high <= len hay ->
    exists seen, len seen <= Z.of_nat k
      /\ looks_only_at (fun l => recursive_search md fuel low high needle l compare1 bias) hay seen.
  Proof.
    intros bias. induction k as [|k IH]; intros fuel low high Hw Hl Hh.
    - change (2 ^ Z.of_nat 0) with 1 in Hw. lia.
    - rewrite Nat2Z.inj_succ, Z.pow_succ_r in Hw by lia.
      destruct fuel as [|fuel].
      { exists []. split; [change (@len nat []) with 0; lia|]. intros l' _ _. reflexivity. }
      set (mid := Z.quot (high - low) 2 + low).
      assert (Hq : Z.quot (high - low) 2 = (high - low) / 2) by (apply Z.quot_div_nonneg; lia).
      pose proof (Z.div_mod (high - low) 2 ltac:(lia)) as Dm.
      pose proof (Z.mod_pos_bound (high - low) 2 ltac:(lia)) as Bm.
      assert (Hmid : low < mid < high) by (unfold mid; lia).
      set (deeper := fun l c =>
        if c =? 0 then Ok mid
        else if 0 <? c then
          if 1 <? high - mid then recursive_search md fuel mid high needle l compare1 bias
          else if bias =? LEAST_UPPER_BOUND then Ok (if high <? to_i32 (len l) then high else -1) else Ok mid
        else
          if 1 <? mid - low then recursive_search md fuel low mid needle l compare1 bias
          else if bias =? LEAST_UPPER_BOUND then Ok mid else Ok (if low <? 0 then -1 else low)).
      assert (Step : forall l, recursive_search md (S fuel) low high needle l compare1 bias
        = let* h := vec_index l (to_usize mid) in let* c := compare1 needle h in deeper l c).
      { intros l. cbn [recursive_search]. rewrite i32_sub_ok by lia. cbn [bind].
        rewrite i32_add_ok by lia. cbn [bind]. fold mid.
        destruct (vec_index l (to_usize mid)) as [h|]; [|reflexivity]. cbn [bind].
        destruct (compare1 needle h) as [c|]; [|reflexivity]. cbn [bind]. unfold deeper.
        rewrite !i32_sub_ok by lia. reflexivity. }
      assert (D : forall c, exists seen, len seen <= Z.of_nat k /\ looks_only_at (fun l => deeper l c) hay seen).
      { intros c. unfold deeper.
        assert (Nil : @len nat [] <= Z.of_nat k) by (change (@len nat []) with 0; lia).
        destruct (c =? 0); [exists []; split; [exact Nil|]; intros l' _ _; reflexivity|].
        destruct (0 <? c).
        - destruct (1 <? high - mid) eqn:E.
          + apply IH; unfold mid in *; lia.
          + exists []. split; [exact Nil|]. intros l' E' _. unfold len. rewrite E'. reflexivity.
        - destruct (1 <? mid - low) eqn:E.
          + apply IH; unfold mid in *; lia.
          + exists []. split; [exact Nil|]. intros l' _ _. reflexivity. }
      destruct (nth_error hay (Z.to_nat mid)) as [h|] eqn:Eh.
      2:{ apply nth_error_None in Eh. unfold len in *. lia. }
      assert (V : forall l, nth_error l (Z.to_nat mid) = Some h -> vec_index l (to_usize mid) = Ok h).
      { intros l El. rewrite vec_index_nth by lia. rewrite El. reflexivity. }
      destruct (compare1 needle h) as [c|p] eqn:Ec.
      + destruct (D c) as [seen [Hs Hd]]. exists (Z.to_nat mid :: seen). split; [rewrite len_cons; lia|].
        intros l' E' Hn. rewrite !Step.
        rewrite (V l') by (rewrite (Hn _ (or_introl eq_refl)); exact Eh). rewrite (V hay Eh). cbn [bind].
        rewrite Ec. cbn [bind]. apply Hd; [exact E'|]. intros i Hi. apply Hn. right. exact Hi.
      + exists [Z.to_nat mid]. split; [change (@len nat [Z.to_nat mid]) with 1; lia|].
        intros l' E' Hn. rewrite !Step.
        rewrite (V l') by (rewrite (Hn _ (or_introl eq_refl)); exact Eh). rewrite (V hay Eh). cbn [bind].
        rewrite Ec. reflexivity.
  Qed.

  (** The scan for the first of equals: [k] equal neighbours *)
  Lemma scan_looks : forall fuel index, 0 <= index < len hay ->
    exists r k, (k <= Z.to_nat index)%nat /\ r = (Z.to_nat index - k)%nat
      /\ looks_only_at (fun l => first_equal md fuel index l compare2) hay (seq (r - 1) (k + 2))
      /\ (forall i, first_equal md fuel index hay compare2 = Ok i -> i = Z.of_nat r)
      /\ (forall i x y, (r < i <= r + k)%nat -> nth_error hay i = Some x -> nth_error hay (i - 1) = Some y ->
            compare2 x y = Ok 0).
  Proof.
    induction fuel as [|fuel IH]; intros index Hi.
    - cbn [first_equal]. exists (Z.to_nat index), O. split; [lia|]. split; [lia|].
      split; [intros l' _ _; cbn [first_equal]; destruct (0 <? index); reflexivity|]. split; [|intros; lia].
      destruct (0 <? index); [discriminate|]. intros i H. injection H as <-. lia.
    - destruct (0 <? index) eqn:E0.
      2:{ cbn [first_equal]. rewrite E0. exists (Z.to_nat index), O. split; [lia|]. split; [lia|].
          split; [intros l' _ _; reflexivity|]. split; [|intros; lia].
          intros i H. injection H as <-. lia. }
      destruct (nth_error hay (Z.to_nat index)) as [a|] eqn:Ea.
      2:{ apply nth_error_None in Ea. unfold len in *. lia. }
      destruct (nth_error hay (Z.to_nat (index - 1))) as [b|] eqn:Eb.
      2:{ apply nth_error_None in Eb. unfold len in *. lia. }
      assert (Step : forall l, nth_error l (Z.to_nat index) = Some a -> nth_error l (Z.to_nat (index - 1)) = Some b ->
        first_equal md (S fuel) index l compare2
        = let* c := compare2 a b in if negb (c =? 0) then Ok index else first_equal md fuel (index - 1) l compare2).
      { intros l Hla Hlb. cbn [first_equal]. rewrite E0. rewrite i32_sub_ok by lia.
        rewrite !vec_index_nth by lia. rewrite Hla. cbn [bind]. rewrite vec_index_nth by lia. rewrite Hlb. cbn [bind]. reflexivity. }
      destruct (compare2 a b) as [c|p] eqn:Ec.
      + destruct (negb (c =? 0)) eqn:En.
        * exists (Z.to_nat index), O. split; [lia|]. split; [lia|]. split; [|split; [|intros; lia]].
          -- intros l' _ Hl'. rewrite (Step hay Ea Eb). rewrite (Step l'); [rewrite ?Ec; cbn [bind]; rewrite En; reflexivity | |].
             ++ rewrite Hl'; [exact Ea|]. apply in_seq. lia.
             ++ rewrite Hl'; [exact Eb|]. apply in_seq. lia.
          -- rewrite (Step hay Ea Eb), ?Ec. cbn [bind].
             rewrite En. intros i H. injection H as <-. lia.
        * assert (c = 0) by (destruct (c =? 0) eqn:Ez; [lia|discriminate]). subst c.
          destruct (IH (index - 1)) as [r [k [Hk [Hr [Hlook [Hres Heq]]]]]]; [lia|].
          exists r, (S k). split; [lia|]. split; [lia|]. split; [|split].
          -- intros l' El' Hl'. rewrite (Step hay Ea Eb). rewrite (Step l').
             ++ rewrite ?Ec. cbn [bind]. rewrite En. apply Hlook; [exact El'|].
                intros i Hi'. apply Hl'. apply in_seq in Hi'. apply in_seq. lia.
             ++ rewrite Hl'; [exact Ea|]. apply in_seq. lia.
             ++ rewrite Hl'; [exact Eb|]. apply in_seq. lia.
          -- rewrite (Step hay Ea Eb), ?Ec. cbn [bind].
             rewrite En. exact Hres.
          -- intros i x y Hi' Hx Hy. destruct (Nat.eq_dec i (Z.to_nat index)) as [->|Hne].
             ++ rewrite Ea in Hx. injection Hx as <-. replace (Z.to_nat index - 1)%nat with (Z.to_nat (index - 1)) in Hy by lia.
                rewrite Eb in Hy. injection Hy as <-. exact Ec.
             ++ apply (Heq i); [lia | exact Hx | exact Hy].
      + exists (Z.to_nat index), O. split; [lia|]. split; [lia|]. split; [|split; [|intros; lia]].
        * intros l' _ Hl'. rewrite (Step hay Ea Eb). rewrite (Step l'); [reflexivity | |].
          -- rewrite Hl'; [exact Ea|]. apply in_seq. lia.
          -- rewrite Hl'; [exact Eb|]. apply in_seq. lia.
        * rewrite (Step hay Ea Eb), ?Ec. discriminate.
  Qed.

  (** C87 *)
  Lemma search_looks : forall bias, exists few scan,
    looks_only_at (fun l => search md needle l compare1 compare2 bias) hay (few ++ scan)
    /\ len few <= Z.log2 (len hay) + 1
    /\ (scan = []
        \/ exists r k, scan = seq (r - 1) (k + 2)
            /\ (forall i, search md needle hay compare1 compare2 bias = Ok i -> i = Z.of_nat r)
            /\ (forall i x y, (r < i <= r + k)%nat -> nth_error hay i = Some x -> nth_error hay (i - 1) = Some y ->
                  compare2 x y = Ok 0)).
  Proof.
    intros bias. destruct (nil_or_not hay) as [->|Hne].
    { exists [], []. split; [|split; [vm_compute; discriminate | left; reflexivity]].
      intros l' E _. destruct l'; [reflexivity|discriminate]. }
    assert (Hn : 1 <= len hay) by (destruct hay; [contradiction|]; rewrite len_cons; pose proof (len_nonneg _ l); lia).
    set (b := match bias with Some b => b | None => GREATEST_LOWER_BOUND end).
    set (rs := fun l => recursive_search md (S (S (List.length hay))) (-1) (len hay) needle l compare1 b).
    assert (St : forall l, List.length l = List.length hay -> search md needle l compare1 compare2 bias
      = let* index := rs l in if index <? 0 then Ok (-1) else first_equal md (Z.to_nat index) index l compare2).
    { intros l El. unfold search. destruct l as [|x l]; [destruct hay; [contradiction|discriminate]|].
      unfold rs. fold b. rewrite El. replace (to_i32 (len (x :: l))) with (len hay); [reflexivity|].
      unfold len at 2. rewrite El. fold (len hay). rewrite to_i32_id; [reflexivity|lia]. }
    destruct (recursion_looks b (Z.to_nat (Z.log2 (len hay) + 1)) (S (S (List.length hay))) (-1) (len hay))
      as [few [Hf Hl]]; [|lia|lia|].
    { pose proof (Z.log2_nonneg (len hay)). rewrite Z2Nat.id by lia.
      pose proof (Z.log2_spec (len hay) ltac:(lia)). rewrite <- Z.add_1_r in *. lia. }
    fold rs in Hl. pose proof (Z.log2_nonneg (len hay)) as L0. rewrite Z2Nat.id in Hf by lia.
    exists few. destruct (rs hay) as [index|p] eqn:Er.
    - destruct (index <? 0) eqn:Ei.
      + exists []. split; [|split; [exact Hf | left; reflexivity]]. intros l' El' Hl'.
        rewrite !St by (exact El' || reflexivity). rewrite (Hl l' El'), Er.
        * cbn [bind]. rewrite Ei. reflexivity.
        * intros i Hi. apply Hl'. rewrite app_nil_r. exact Hi.
      + assert (Hb : index < len hay).
        { unfold rs in Er.
          destruct (rs_safe md needle hay compare1 short (S (S (List.length hay))) (-1) (len hay) b) as [[i [E B]]|[p [x [E _]]]];
            [lia|lia|lia|unfold len; lia|idtac|congruence].
          rewrite E in Er. injection Er as <-. lia. }
        destruct (scan_looks (Z.to_nat index) index) as [r [k [Hk [Hr [Hs [Hres Heq]]]]]]; [lia|].
        exists (seq (r - 1) (k + 2)). split; [|split; [exact Hf|]].
        * intros l' El' Hl'. rewrite !St by (exact El' || reflexivity). rewrite (Hl l' El'), Er.
          -- cbn [bind]. rewrite Ei. apply Hs; [exact El'|]. intros i Hi. apply Hl', in_app_iff. right. exact Hi.
          -- intros i Hi. apply Hl', in_app_iff. left. exact Hi.
        * right. exists r, k. split; [reflexivity|]. split; [|exact Heq].
          rewrite St by reflexivity. rewrite Er. cbn [bind]. rewrite Ei. exact Hres.
    - exists []. split; [|split; [exact Hf | left; reflexivity]]. intros l' El' Hl'.
      rewrite !St by (exact El' || reflexivity). rewrite (Hl l' El'), Er; [reflexivity|].
      intros i Hi. apply Hl'. rewrite app_nil_r. exact Hi.
  Qed.
End Looks.
