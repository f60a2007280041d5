(** * Lemmas about serialize_mappings *)
From Verif Require Import F_Base M_Base64Vlq M_ArraySet M_Mapping M_SourceMap M_MapLib M_Generator
  S_Vlq S_Decode S_Mapping S_Generator F_Vlq F_Sort F_Mapping F_MappingList F_Decode.
From Coq Require Import Sorting.Sorted Sorting.Permutation.

(** ** The semicolon loop *)
Lemma semicolon_loop_ok : forall md n line prev next, line = prev + Z.of_nat n ->
  -2147483648 <= prev -> line <= 2147483647 ->
  semicolon_loop md n line prev next = Ok (next ++ repeat semicolon n, line).
Proof.
  intros md. induction n as [|n IH]; intros line prev next E H1 H2; cbn [semicolon_loop].
  - assert (Ep : line = prev) by lia. clear E. subst line. rewrite Z.eqb_refl. cbn [repeat].
    rewrite app_nil_r. reflexivity.
  - assert (E1 : (line =? prev) = false) by lia. rewrite E1.
    rewrite i32_add_ok by lia. cbn [bind]. rewrite IH by lia.
    cbn [repeat]. rewrite <- app_assoc. reflexivity.
Qed.

Lemma semicolon_fuel_up : forall line prev, 0 <= line - prev < 4294967296 ->
  semicolon_fuel line prev = Z.to_nat (line - prev).
Proof.
  intros line prev H. unfold semicolon_fuel. change (2^32) with 4294967296.
  rewrite Z.mod_small by exact H. reflexivity.
Qed.

(** Checks on, target below the start: the counter overflows. *)
Lemma semicolon_loop_debug : forall n line prev next, -2147483648 <= line < prev -> prev <= 2147483647 ->
  2147483647 - prev < Z.of_nat n ->
  semicolon_loop Debug n line prev next = Panic POverflow.
Proof.
  induction n as [|n IH]; intros line prev next H1 H3 H2; [lia|]. cbn [semicolon_loop].
  assert (E1 : (line =? prev) = false) by lia. rewrite E1.
  destruct (Z.eq_dec prev 2147483647) as [->|Hne].
  - reflexivity.
  - rewrite i32_add_ok by lia. cbn [bind]. apply IH; lia.
Qed.

(** Checks off: it wraps around. *)
Lemma semicolon_loop_release : forall n line prev next,
  -2147483648 <= line <= 2147483647 -> -2147483648 <= prev <= 2147483647 ->
  (line - prev) mod 4294967296 = Z.of_nat n ->
  semicolon_loop Release n line prev next = Ok (next ++ repeat semicolon n, line).
Proof.
  induction n as [|n IH]; intros line prev next Hl Hp E; cbn [semicolon_loop].
  - assert (line = prev).
    { change (Z.of_nat 0) with 0 in E. apply Z.mod_divide in E; [|lia]. destruct E as [k E].
      assert (k = 0) by lia. subst k. lia. }
    subst. rewrite Z.eqb_refl. cbn [repeat]. rewrite app_nil_r. reflexivity.
  - destruct (line =? prev) eqn:E1.
    { apply Z.eqb_eq in E1. subst. rewrite Z.sub_diag, Z.mod_0_l in E by lia. lia. }
    unfold i32_add. assert (Hs : checked_i32 Release (prev + 1) = Ok (to_i32 (prev + 1))).
    { unfold checked_i32. destruct (in_i32 (prev + 1)) eqn:Ei; [|reflexivity].
      apply in_i32_iff in Ei. rewrite to_i32_id by exact Ei. reflexivity. }
    rewrite Hs. cbn [bind]. rewrite IH.
    + cbn [repeat]. rewrite <- app_assoc. reflexivity.
    + exact Hl.
    + apply to_i32_range.
    + destruct (to_i32_eqm (prev + 1)) as [k Hk]. rewrite Hk.
      replace (line - (prev + 1 + k * 4294967296)) with ((line - prev - 1) + (- k) * 4294967296) by lia.
      rewrite Z_mod_plus_full. pose proof (Z.div_mod (line - prev) 4294967296 ltac:(lia)) as D.
      rewrite E in D. pose proof (Z.mod_pos_bound (line - prev) 4294967296 ltac:(lia)).
      symmetry. apply (Z.mod_unique_pos _ _ ((line - prev) / 4294967296)); lia.
Qed.

(** ** Segments *)
Definition st_ok (st : SerState) : Prop :=
  0 <= ss_generated_column st <= 2147483647 /\ -1 <= ss_original_line st <= 2147483646
  /\ 0 <= ss_original_column st <= 2147483647 /\ 0 <= ss_name st <= 2147483647
  /\ 0 <= ss_source st <= 2147483647.

Definition known (S : ArraySet) (bound : Z) (x : option str) : Prop :=
  match x with
  | None => True
  | Some s => exists i, as_index_of S s = Some i /\ 0 <= i < bound
                        /\ nth_error (as_array S) (Z.to_nat i) = Some s
  end.

Lemma short_chars : forall t, short_field t ->
  t <> [] /\ Forall (fun c => exists d, b64_value c = Some d) t.
Proof. intros t [H _]. apply vlq_shape_chars in H. tauto. Qed.

Lemma good_seg_text : forall (F : str -> Prop) s, (forall t, F t -> short_field t) -> good_seg F s -> seg_text s.
Proof.
  intros F s HF [fields [-> [H1 H2]]].
  assert (Hne : concat fields <> []).
  { destruct fields as [|t l]; [cbn in H2; lia|]. inv H1. intros E. cbn [concat] in E. apply app_eq_nil in E.
    apply HF in H3. apply short_chars in H3. tauto. }
  assert (Hc : Forall (fun c => exists d, b64_value c = Some d) (concat fields)).
  { apply Forall_concat. eapply Forall_impl; [|exact H1]. intros t Ht. apply HF in Ht. apply short_chars in Ht. tauto. }
  split; [exact Hne|]. rewrite Forall_forall in Hc.
  split; intros H; destruct (Hc _ H) as [d E]; vm_compute in E; discriminate.
Qed.

Lemma short_short : forall t, short_field t -> short_field t.
Proof. intros t H. exact H. Qed.
Lemma shortest_short : forall t, shortest_field t -> short_field t.
Proof. intros t [[H _] _]. exact H. Qed.

Lemma good_seg_1 : forall (F : str -> Prop) a, F a -> good_seg F a.
Proof.
  intros F a Ha. exists [a]. split; [cbn; rewrite app_nil_r; reflexivity|]. split; [repeat constructor; assumption | cbn; tauto].
Qed.
Lemma good_seg_4 : forall (F : str -> Prop) a b c d, F a -> F b -> F c -> F d -> good_seg F (a ++ b ++ c ++ d).
Proof.
  intros F a b c d Ha Hb Hc Hd. exists [a; b; c; d]. split; [cbn; rewrite app_nil_r; reflexivity|].
  split; [repeat constructor; assumption | cbn; tauto].
Qed.
Lemma good_seg_5 : forall (F : str -> Prop) a b c d e, F a -> F b -> F c -> F d -> F e ->
  good_seg F (a ++ b ++ c ++ d ++ e).
Proof.
  intros F a b c d e Ha Hb Hc Hd He. exists [a; b; c; d; e]. split; [cbn; rewrite app_nil_r; reflexivity|].
  split; [repeat constructor; assumption | cbn; tauto].
Qed.

Lemma encode_good : forall md v, -2147483648 < v <= 2147483647 ->
  exists s, base64vlq_encode md v = Ok s /\ short_field s
    /\ (-1073741824 < v < 1073741824 -> shortest_field s).
Proof.
  intros md v Hv. destruct (Z_lt_dec (Z.abs v) 1073741824) as [Hl|Hl].
  - assert (Hv' : -1073741824 < v < 1073741824) by lia.
    destruct (encode_ok md v Hv') as [s [E [_ [Hu [Hs _]]]]].
    pose proof (encode_length md v s Hv' E) as L.
    exists s. split; [exact E|]. assert (Sh : short_field s) by (split; [exact Hs|lia]).
    split; [exact Sh|]. intros _. split.
    2: { intros w t' Hw Ht'. pose proof (Hu []) as Hd. rewrite app_nil_r in Hd. unfold vlq_decode in Hw. rewrite Hd in Hw.
         injection Hw as Hw. rewrite vlq_sign_signed in Hw. subst w.
         exact (encode_shortest md v s t' Hv' E Ht'). }
    split; [exact Sh|].
    specialize (Hu []). rewrite app_nil_r in Hu. rewrite Hu. intros X. injection X as X.
    unfold vlq_signed in X. destruct (v <? 0) eqn:Ev; lia.
  - destruct (encode_big md v) as [c [w [E [Hs _]]]]; [lia|].
    exists [c]. split; [exact E|]. split; [split; [exact Hs|vm_compute; discriminate]|]. intros; lia.
Qed.

Ltac enc v := let f := fresh "f" in let E := fresh "E" in let G := fresh "G" in
  let K := fresh "K" in
  match goal with |- context [base64vlq_encode ?md v] =>
    destruct (encode_good md v) as [f [E [G K]]]; [lia|]; rewrite E; cbn [bind] end.

(** A name is only looked up behind a source. *)
Definition name_known (N : ArraySet) (bound : Z) (m : Mapping) : Prop :=
  match m_source m with Some _ => known N bound (m_name m) | None => True end.

Lemma known_name : forall N bound m, known N bound (m_name m) -> name_known N bound m.
Proof. intros N bound m H. unfold name_known. destruct (m_source m); [exact H | exact I]. Qed.

Lemma ser_segment_ok : forall md S N m st, wf_mapping m -> known S 2147483648 (m_source m) ->
  name_known N 2147483648 m -> st_ok st ->
  exists seg st', ser_segment md S N m st = Ok (seg, st') /\ good_seg short_field seg /\ st_ok st'
    /\ ss_generated_line st' = ss_generated_line st.
Proof.
  intros md S N m st [[_ Hg] Hm] HS HN (H1 & H2 & H3 & H4 & H5).
  change i32_max with 2147483647 in *. unfold name_known in HN. unfold ser_segment.
  rewrite i32_sub_ok by lia. cbn [bind].
  enc (p_column (m_generated m) - ss_generated_column st).
  unfold ser_tail. cbn [ss_generated_column ss_generated_line ss_original_column ss_original_line ss_name ss_source].
  destruct (m_source m) as [s|].
  - destruct HS as [i [Ei [Hi _]]]. rewrite Ei. cbn [unwrap bind]. rewrite to_i32_id by lia.
    rewrite i32_sub_ok by lia. cbn [bind]. enc (i - ss_source st).
    destruct (m_original m) as [o|]; [|contradiction]. cbn [unwrap bind].
    destruct Hm as [Hl Hc]. change i32_max with 2147483647 in *.
    rewrite i32_sub_ok by lia. cbn [bind]. rewrite i32_sub_ok by lia. cbn [bind].
    enc (p_line o - 1 - ss_original_line st).
    rewrite i32_sub_ok by lia. cbn [bind]. enc (p_column o - ss_original_column st).
    destruct (m_name m) as [n|].
    + destruct HN as [j [Ej [Hj _]]]. rewrite Ej. cbn [unwrap bind]. rewrite to_i32_id by lia.
      rewrite i32_sub_ok by lia. cbn [bind]. enc (j - ss_name st).
      do 2 eexists. split; [reflexivity|]. split; [|split; [|reflexivity]].
      * apply good_seg_5; assumption.
      * unfold st_ok. cbn. lia.
    + do 2 eexists. split; [reflexivity|]. split; [|split; [|reflexivity]].
      * apply good_seg_4; assumption.
      * unfold st_ok. cbn. lia.
  - cbn [bind]. do 2 eexists. split; [reflexivity|]. split; [|split; [|reflexivity]].
    + rewrite app_nil_r. apply good_seg_1. assumption.
    + unfold st_ok. cbn. lia.
Qed.

(** ** The accumulator *)
Lemma ser_loop_acc : forall md S N ms prev st result,
  ser_loop md S N prev ms st result = let* s := ser_loop md S N prev ms st [] in Ok (result ++ s).
Proof.
  intros md S N. induction ms as [|m ms IH]; intros prev st result; cbn [ser_loop].
  - cbn [bind]. rewrite app_nil_r. reflexivity.
  - destruct (negb (p_line (m_generated m) =? ss_generated_line st)).
    + destruct (semicolon_loop _ _ _ _ _) as [[next line]|]; [|reflexivity]. cbn [bind].
      destruct (ser_segment _ _ _ _ _) as [[seg st']|]; [|reflexivity]. cbn [bind].
      rewrite IH. rewrite (IH _ _ ([] ++ next ++ seg)).
      destruct (ser_loop md S N (Some m) ms st' []); [|reflexivity]. cbn [bind app].
      rewrite !app_assoc. reflexivity.
    + destruct prev as [p|].
      * destruct (compare_by_generated_pos_inflated md m p) as [c|]; [|reflexivity]. cbn [bind].
        destruct (c =? 0); [apply IH|].
        destruct (ser_segment _ _ _ _ _) as [[seg st']|]; [|reflexivity]. cbn [bind].
        rewrite IH. rewrite (IH _ _ ([] ++ lit "," ++ seg)).
        destruct (ser_loop md S N (Some m) ms st' []); [|reflexivity]. cbn [bind app].
        rewrite <- !app_assoc. reflexivity.
      * destruct (ser_segment _ _ _ _ _) as [[seg st']|]; [|reflexivity]. cbn [bind].
        rewrite IH. rewrite (IH _ _ ([] ++ seg)).
        destruct (ser_loop md S N (Some m) ms st' []); [|reflexivity]. cbn [bind app].
        rewrite !app_assoc. reflexivity.
Qed.

Definition last_line (ms : list Mapping) (line : Z) : Z :=
  fold_left (fun _ m => p_line (m_generated m)) ms line.

Definition ser_mapping (S N : ArraySet) (m : Mapping) : Prop :=
  wf_mapping m /\ line1 (m_generated m)
  /\ known S 2147483648 (m_source m) /\ name_known N 2147483648 m.

Lemma st_ok_line : forall st c l, st_ok st -> 0 <= c <= 2147483647 ->
  st_ok (mkSer c l (ss_original_column st) (ss_original_line st) (ss_name st) (ss_source st)).
Proof. intros st c l H Hc. unfold st_ok in *. cbn. lia. Qed.

Section Loop.
  Context (md : mode) (S N : ArraySet) (F : str -> Prop) (P : SerState -> Prop) (G : Mapping -> Prop).
  Context (Fshort : forall t, F t -> short_field t).
  Context (Gwf : forall m, G m -> wf_mapping m /\ line1 (m_generated m)).
  Context (Pinit : P ser_init).
  Context (Pline : forall st l, P st ->
    P (mkSer 0 l (ss_original_column st) (ss_original_line st) (ss_name st) (ss_source st))).
  Context (Gseg : forall m st, G m -> P st ->
    exists seg st', ser_segment md S N m st = Ok (seg, st') /\ good_seg F seg /\ P st'
      /\ ss_generated_line st' = ss_generated_line st).

(** No panic and line structure, from the middle of a line. *)
Lemma ser_loop_mid : forall ms p st, Forall G (p :: ms) -> gen_sorted (p :: ms) ->
  P st -> ss_generated_line st = p_line (m_generated p) ->
  exists s, ser_loop md S N (Some p) ms st [] = Ok s
    /\ mid_good F s (last_line ms (p_line (m_generated p)) - p_line (m_generated p) + 1)
    /\ sep_start s.
Proof.
  induction ms as [|m ms IH]; intros p st HF Hs Hst Hl.
  - exists []. split; [reflexivity|]. split; [|left; reflexivity]. cbn [last_line fold_left].
    rewrite Z.sub_diag. apply mid_good_nil.
  - inv HF. inv Hs. rename H1 into Hp. rename H2 into HF. rename H3 into Hs. rename H4 into Hle.
    pose proof (Forall_inv HF) as Hm. destruct (Gwf _ Hm) as [Hm1 Hm2]. destruct (Gwf _ Hp) as [Hp1 Hp2].
    assert (Hpm : p_line (m_generated p) <= p_line (m_generated m)).
    { inv Hle. unfold gen_le, pos_le in H1. lia. }
    cbn [ser_loop].
    assert (Hlm : 1 <= p_line (m_generated m) <= 2147483647).
    { unfold line1 in Hm2. destruct Hm1 as [[Hm1 _] _]. change i32_max with 2147483647 in Hm1. lia. }
    assert (Hlp : 1 <= p_line (m_generated p)) by exact Hp2.
    destruct (negb (p_line (m_generated m) =? ss_generated_line st)) eqn:E.
    + cbn [ss_generated_line]. rewrite Hl. rewrite Hl in E. rewrite semicolon_fuel_up by lia.
      rewrite semicolon_loop_ok by lia. cbn [bind].
      cbn [ss_generated_column ss_original_column ss_original_line ss_name ss_source].
      match goal with |- context [ser_segment md S N m ?s] => set (st1 := s) end.
      destruct (Gseg m st1 Hm) as [seg [st' [E1 [Hg [Hst' Hl']]]]].
      { apply Pline. exact Hst. }
      rewrite E1. cbn [bind]. rewrite ser_loop_acc.
      destruct (IH m st' HF Hs Hst' Hl') as [s [E2 [Hmid Hsep]]]. rewrite E2. cbn [bind].
      eexists. split; [reflexivity|].
      destruct (Z.to_nat (p_line (m_generated m) - p_line (m_generated p))) as [|n] eqn:En; [lia|].
      split.
      * cbn [app last_line fold_left]. fold (last_line ms (p_line (m_generated m))).
        rewrite <- app_assoc.
        replace (last_line ms (p_line (m_generated m)) - p_line (m_generated p) + 1) with
          (Z.of_nat (Datatypes.S n) + (last_line ms (p_line (m_generated m)) - p_line (m_generated m) + 1)) by lia.
        apply mid_good_semicolons. apply start_good_segment; [exact (good_seg_text _ _ Fshort Hg) | exact Hg | exact Hmid].
      * right; right. cbn [repeat app]. eexists. reflexivity.
    + assert (El : p_line (m_generated m) = p_line (m_generated p)) by lia.
      rewrite compare_ok by assumption. cbn [bind].
      assert (Elast : last_line (m :: ms) (p_line (m_generated p)) - p_line (m_generated p) + 1
              = last_line ms (p_line (m_generated m)) - p_line (m_generated m) + 1).
      { cbn [last_line fold_left]. fold (last_line ms (p_line (m_generated m))). lia. }
      rewrite Elast. destruct (cmpZ m p =? 0).
      * apply IH; try assumption. lia.
      * destruct (Gseg m st Hm Hst) as [seg [st' [E1 [Hg [Hst' Hl']]]]].
        rewrite E1. cbn [bind]. rewrite ser_loop_acc.
        destruct (IH m st' HF Hs Hst') as [s [E2 [Hmid Hsep]]]; [congruence|]. rewrite E2. cbn [bind].
        eexists. split; [reflexivity|]. split.
        { change (([] ++ lit "," ++ seg) ++ s) with (comma :: seg ++ s).
          apply mid_good_segment; [exact (good_seg_text _ _ Fshort Hg) | exact Hg | exact Hmid]. }
        right; left. eexists. reflexivity.
Qed.

Lemma ser_loop_start : forall ms, Forall G ms -> gen_sorted ms ->
  exists s, ser_loop md S N None ms ser_init [] = Ok s /\ start_good F s (last_line ms 1).
Proof.
  intros [|m ms] HF Hs.
  - exists []. split; [reflexivity|]. apply start_good_nil.
  - pose proof (Forall_inv HF) as Hm. destruct (Gwf _ Hm) as [Hm1 Hm2].
    assert (Hlm : 1 <= p_line (m_generated m) <= 2147483647).
    { unfold line1 in Hm2. destruct Hm1 as [[Hm1 _] _]. change i32_max with 2147483647 in Hm1. lia. }
    cbn [ser_loop ser_init ss_generated_line ss_generated_column ss_original_column ss_original_line ss_name ss_source].
    assert (Elast : last_line (m :: ms) 1
              = Z.of_nat (Z.to_nat (p_line (m_generated m) - 1))
                + (last_line ms (p_line (m_generated m)) - p_line (m_generated m) + 1)).
    { cbn [last_line fold_left]. fold (last_line ms (p_line (m_generated m))). lia. }
    rewrite Elast.
    destruct (negb (p_line (m_generated m) =? 1)) eqn:E.
    + rewrite semicolon_fuel_up by lia. rewrite semicolon_loop_ok by lia. cbn [bind].
      match goal with |- context [ser_segment md S N m ?s] => set (st1 := s) end.
      destruct (Gseg m st1 Hm) as [seg [st' [E1 [Hg [Hst' Hl']]]]].
      { apply (Pline ser_init). exact Pinit. }
      rewrite E1. cbn [bind]. rewrite ser_loop_acc.
      destruct (ser_loop_mid ms m st' HF Hs Hst' Hl') as [s [E2 [Hmid Hsep]]]. rewrite E2. cbn [bind].
      eexists. split; [reflexivity|]. cbn [app]. rewrite <- app_assoc.
      apply start_good_semicolons. apply start_good_segment; [exact (good_seg_text _ _ Fshort Hg) | exact Hg | exact Hmid].
    + destruct (Gseg m ser_init Hm) as [seg [st' [E1 [Hg [Hst' Hl']]]]].
      { exact Pinit. }
      rewrite E1. cbn [bind]. rewrite ser_loop_acc.
      destruct (ser_loop_mid ms m st' HF Hs Hst') as [s [E2 [Hmid Hsep]]].
      { rewrite Hl'. cbn. lia. }
      rewrite E2. cbn [bind]. eexists. split; [reflexivity|]. cbn [app].
      replace (Z.to_nat (p_line (m_generated m) - 1)) with 0%nat by lia. cbn [Z.of_nat Z.add].
      apply start_good_segment; [exact (good_seg_text _ _ Fshort Hg) | exact Hg | ].
      replace (Z.of_nat 0 + (last_line ms (p_line (m_generated m)) - p_line (m_generated m) + 1))
        with (last_line ms (p_line (m_generated m)) - p_line (m_generated m) + 1) by lia. exact Hmid.
Qed.
End Loop.

(** ** Decoding what was written *)
Definition regs_of (st : SerState) : Regs :=
  mkRegs (ss_source st) (ss_original_line st) (ss_original_column st) (ss_name st).

Lemma lookup_known : forall l i s, 0 <= i -> nth_error l (Z.to_nat i) = Some s -> lookup l i = Some s.
Proof. intros l i s H E. unfold lookup. assert (E1 : (i <? 0) = false) by lia. rewrite E1. exact E. Qed.

Lemma written_eq : forall a b, written a = written b <-> same_mapping a b.
Proof.
  intros a b. unfold written, same_mapping. split.
  - intros H. injection H as H1 H2 H3 H4. auto.
  - intros [H1 [H2 [H3 H4]]]. congruence.
Qed.

Lemma resolve_cons : forall S N raw raws m r, resolve_mapping S N raw = Some m ->
  resolve S N raws = Some r -> resolve S N (raw :: raws) = Some (m :: r).
Proof. intros S N raw raws m r H1 H2. unfold resolve in *. cbn [map all_some]. rewrite H1, H2. reflexivity. Qed.

Lemma valid_shaped : forall m, expressible m -> wf_mapping m /\ shaped m.
Proof. intros m [H _]. split; [exact H|]. apply wf_window in H. tauto. Qed.

(** ** The text has the right shape *)
Lemma ser_text_short : forall md S N ms, Forall (ser_mapping S N) ms -> gen_sorted ms ->
  exists s, ser_loop md S N None ms ser_init [] = Ok s /\ start_good short_field s (last_line ms 1).
Proof.
  intros md S N ms HF Hs. apply (ser_loop_start md S N short_field st_ok (ser_mapping S N)); try assumption.
  - exact short_short.
  - intros m [H1 [H2 _]]. split; assumption.
  - unfold st_ok. cbn. lia.
  - intros st l H. apply st_ok_line; [exact H|lia].
  - intros m st [H1 [_ [H3 H4]]] Hst. apply ser_segment_ok; assumption.
Qed.

(** ** Weaker shapes *)
Lemma good_text_impl : forall (F F' : str -> Prop) s, (forall t, F t -> F' t) -> good_text F s -> good_text F' s.
Proof.
  intros F F' s H. unfold good_text. apply Forall_impl. intros l [->|Hl]; [left; reflexivity|]. right.
  eapply Forall_impl; [|exact Hl]. intros seg [fs [E [Hf Hn]]]. exists fs. split; [exact E|]. split; [|exact Hn].
  eapply Forall_impl; [|exact Hf]. exact H.
Qed.
