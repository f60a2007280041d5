(** * Lemmas about base64 digits and VLQ encoding *)
From Verif Require Import F_Base M_Base64 M_Base64Vlq S_Vlq.

Definition digit_ok (n : Z) : bool :=
  match base64_encode n with
  | Some c => match b64_value c with Some d => d =? n | None => false end
  | None => false
  end.

Lemma all_digits_ok : forallb digit_ok (map Z.of_nat (seq 0 64)) = true.
Proof. vm_compute. reflexivity. Qed.

Lemma base64_encode_value : forall n, 0 <= n < 64 ->
  exists c, base64_encode n = Some c /\ b64_value c = Some n.
Proof.
  intros n H.
  pose proof (proj1 (forallb_forall _ _) all_digits_ok n) as Hn.
  assert (Hin : In n (map Z.of_nat (seq 0 64))).
  { apply in_map_iff. exists (Z.to_nat n). split; [lia|]. apply in_seq. lia. }
  specialize (Hn Hin). unfold digit_ok in Hn.
  destruct (base64_encode n) as [c|]; [|discriminate].
  exists c. split; [reflexivity|].
  destruct (b64_value c) as [d|]; [|discriminate].
  apply Z.eqb_eq in Hn. subst. reflexivity.
Qed.

Lemma base64_encode_none : forall n, ~ (0 <= n < 64) -> base64_encode n = None.
Proof.
  intros n H. unfold base64_encode. change (to_i32 (len INT_TO_CHAR_MAP)) with 64.
  destruct ((0 <=? n) && (n <? 64)) eqn:E; [lia|reflexivity].
Qed.

Lemma b64_value_range : forall c d, b64_value c = Some d -> 0 <= d < 64.
Proof.
  intros c d. unfold b64_value.
  repeat match goal with |- context [if ?b then _ else _] => destruct b eqn:?E end;
    intros H; inv H; lia.
Qed.

Lemma b64_value_inj : forall c1 c2 d, b64_value c1 = Some d -> b64_value c2 = Some d -> c1 = c2.
Proof.
  intros c1 c2 d. unfold b64_value. unfold char in *.
  repeat match goal with |- context [if ?b then _ else _] => destruct b eqn:?E end;
    intros H1 H2; inv H1; inv H2; lia.
Qed.

Lemma b64_value_not_sep : forall c d, b64_value c = Some d -> c <> ch "," /\ c <> ch ";".
Proof.
  intros c d H; split; intros E; subst; vm_compute in H; discriminate.
Qed.

(** ** Bit operations of the loop *)
Lemma land31 : forall z, Z.land z 31 = z mod 32.
Proof. intros. change 31 with (Z.ones 5). rewrite Z.land_ones by lia. reflexivity. Qed.

Lemma lor32 : forall z, 0 <= z < 32 -> Z.lor z 32 = z + 32.
Proof.
  intros z H. rewrite Z.add_nocarry_lxor.
  - symmetry. apply Z.bits_inj'. intros n Hn. rewrite Z.lxor_spec, Z.lor_spec.
    destruct (Z.testbit 32 n) eqn:E2; [|rewrite xorb_false_r, orb_false_r; reflexivity].
    destruct (Z.eq_dec n 5) as [->|Hne].
    + assert (Z.testbit z 5 = false) as ->; [|reflexivity].
      destruct (Z.eq_dec z 0) as [->|]; [reflexivity|].
      apply Z.bits_above_log2; [lia|]. apply Z.log2_lt_pow2; [lia|]. change (2^5) with 32. lia.
    + exfalso. change 32 with (2^5) in E2; rewrite Z.pow2_bits_eqb in E2 by lia. lia.
  - apply Z.bits_inj'. intros n Hn. rewrite Z.land_spec, Z.bits_0.
    destruct (Z.testbit 32 n) eqn:E2; [|apply andb_false_r].
    change 32 with (2^5) in E2; rewrite Z.pow2_bits_eqb in E2 by lia.
    assert (n = 5) by lia. subst.
    rewrite andb_true_r.
    destruct (Z.eq_dec z 0) as [->|]; [reflexivity|].
    apply Z.bits_above_log2; [lia|]. apply Z.log2_lt_pow2; [lia|]. change (2^5) with 32. lia.
Qed.

Lemma shiftr5 : forall z, Z.shiftr z 5 = z / 32.
Proof. intros. rewrite Z.shiftr_div_pow2 by lia. reflexivity. Qed.

Lemma shiftl1 : forall z, Z.shiftl z 1 = 2 * z.
Proof. intros. rewrite Z.shiftl_mul_pow2 by lia. change (2^1) with 2. lia. Qed.

(** one iteration of the loop, on an i32 *)
Lemma vlq_loop_step : forall fuel vlq enc, 0 <= vlq <= 2147483647 ->
  vlq_loop (S fuel) vlq enc =
  let d := vlq mod 32 in
  let* c := unwrap (base64_encode (if 0 <? vlq / 32 then d + 32 else d)) in
  if vlq / 32 <=? 0 then Ok (enc ++ [c]) else vlq_loop fuel (vlq / 32) (enc ++ [c]).
Proof.
  intros fuel vlq enc H. cbn [vlq_loop].
  change VLQ_BASE_MASK with 31. change VLQ_BASE_SHIFT with 5. change VLQ_CONTINUATION_BIT with 32.
  rewrite (to_usize_id vlq) by lia. rewrite land31, shiftr5.
  assert (0 <= vlq mod 32 < 32) by (apply Z.mod_pos_bound; lia).
  assert (0 <= vlq / 32 <= vlq) by (split; [apply Z.div_pos; lia | apply Z.div_le_upper_bound; lia]).
  rewrite (to_i32_id (vlq mod 32)) by lia. rewrite (to_i32_id (vlq / 32)) by lia.
  rewrite (to_usize_id (vlq mod 32)) by lia. rewrite lor32 by lia.
  rewrite (to_i32_id (vlq mod 32 + 32)) by lia. reflexivity.
Qed.

(** what the loop does on a negative i32: one digit *)
Lemma vlq_loop_neg : forall fuel vlq, -2147483648 <= vlq < 0 ->
  exists c, vlq_loop (S fuel) vlq [] = Ok [c] /\ b64_value c = Some (vlq mod 32).
Proof.
  intros fuel vlq H. cbn [vlq_loop].
  change VLQ_BASE_MASK with 31. change VLQ_BASE_SHIFT with 5. change VLQ_CONTINUATION_BIT with 32.
  rewrite (to_usize_neg vlq) by lia. rewrite land31, shiftr5.
  assert (0 <= vlq mod 32 < 32) by (apply Z.mod_pos_bound; lia).
  replace ((vlq + 18446744073709551616) mod 32) with (vlq mod 32)
    by (change 18446744073709551616 with (576460752303423488 * 32); rewrite Z_mod_plus_full; reflexivity).
  replace ((vlq + 18446744073709551616) / 32) with (vlq / 32 + 576460752303423488)
    by (change 18446744073709551616 with (576460752303423488 * 32); rewrite Z.div_add by lia; reflexivity).
  assert (-67108864 <= vlq / 32 < 0)
    by (split; [apply Z.div_le_lower_bound; lia | apply Z.div_lt_upper_bound; lia]).
  replace (to_i32 (vlq / 32 + 576460752303423488)) with (vlq / 32).
  2:{ unfold to_i32. change (2^31) with 2147483648. change (2^32) with 4294967296.
      replace (vlq / 32 + 576460752303423488 + 2147483648)
        with (vlq / 32 + 2147483648 + 134217728 * 4294967296) by lia.
      rewrite Z_mod_plus_full. rewrite Z.mod_small by lia. lia. }
  assert (E : (0 <? vlq / 32) = false) by lia. rewrite E.
  assert (E2 : (vlq / 32 <=? 0) = true) by lia. rewrite E2.
  rewrite (to_i32_id (vlq mod 32)) by lia.
  destruct (base64_encode_value (vlq mod 32)) as [c [Hc Hv]]; [lia|].
  rewrite Hc. cbn. exists c. split; [reflexivity | exact Hv].
Qed.

Lemma log2_div32 : forall u, 32 <= u -> Z.log2 u = Z.log2 (u / 32) + 5.
Proof.
  intros u H. apply Z.log2_unique.
  - pose proof (Z.log2_nonneg (u/32)). lia.
  - assert (0 < u / 32) by (apply Z.div_str_pos; lia).
    pose proof (Z.log2_spec (u / 32) H0) as [L1 L2].
    rewrite Z.pow_add_r by (pose proof (Z.log2_nonneg (u/32)); lia).
    replace (Z.succ (Z.log2 (u / 32) + 5)) with (Z.succ (Z.log2 (u / 32)) + 5) by lia.
    rewrite Z.pow_add_r by (pose proof (Z.log2_nonneg (u/32)); lia).
    change (2^5) with 32.
    pose proof (Z.div_mod u 32). pose proof (Z.mod_pos_bound u 32). lia.
Qed.

Lemma base32_digits_step : forall u, 32 <= u -> base32_digits u = base32_digits (u / 32) + 1.
Proof.
  intros u H. unfold base32_digits. rewrite (log2_div32 u H).
  replace (Z.log2 (u / 32) + 5) with (Z.log2 (u / 32) + 1 * 5) by lia.
  rewrite Z.div_add by lia. lia.
Qed.

Lemma base32_digits_small : forall u, 0 <= u < 32 -> base32_digits u = 1.
Proof.
  intros u H. unfold base32_digits.
  assert (0 <= Z.log2 u < 5).
  { split; [apply Z.log2_nonneg|]. destruct (Z.eq_dec u 0) as [->|]; [cbn; lia|].
    apply Z.log2_lt_pow2; [lia|]. change (2^5) with 32. lia. }
  rewrite Z.div_small by lia. reflexivity.
Qed.

Lemma vlq_shape_cons : forall c s, continues c -> vlq_shape s -> vlq_shape (c :: s).
Proof.
  intros c s Hc [init [last [-> [Hi Hl]]]]. exists (c :: init), last.
  split; [reflexivity|]. split; [constructor; assumption | assumption].
Qed.

(** The loop on a non-negative i32: everything about its output at once. *)
Lemma vlq_loop_ok : forall fuel vlq enc, 0 <= vlq <= 2147483647 -> vlq < 32 ^ Z.of_nat (S fuel) ->
  exists s, vlq_loop (S fuel) vlq enc = Ok (enc ++ s)
    /\ (forall rest, vlq_unsigned (s ++ rest) = Some (vlq, rest))
    /\ vlq_shape s
    /\ len s = base32_digits vlq.
Proof.
  induction fuel as [|fuel IH]; intros vlq enc H Hf; rewrite vlq_loop_step by assumption; cbn zeta.
  - change (32 ^ Z.of_nat 1) with 32 in Hf.
    rewrite (Z.div_small vlq 32) by lia. rewrite (Z.mod_small vlq 32) by lia. cbn [Z.ltb Z.leb Z.compare].
    destruct (base64_encode_value vlq) as [c [Hc Hv]]; [lia|]. rewrite Hc. cbn [unwrap bind].
    exists [c]. repeat split.
    + intros rest. cbn. rewrite Hv. assert (E : (vlq <? 32) = true) by lia. rewrite E. reflexivity.
    + exists [], c. split; [reflexivity|]. split; [constructor | exists vlq; split; [exact Hv | lia]].
    + rewrite base32_digits_small by lia. reflexivity.
  - pose proof (Z.mod_pos_bound vlq 32 ltac:(lia)) as Hm.
    pose proof (Z.div_mod vlq 32 ltac:(lia)) as Hdm.
    destruct (Z_lt_dec vlq 32) as [Hs|Hb].
    + rewrite (Z.div_small vlq 32) by lia. rewrite (Z.mod_small vlq 32) by lia. cbn [Z.ltb Z.leb Z.compare].
      destruct (base64_encode_value vlq) as [c [Hc Hv]]; [lia|]. rewrite Hc. cbn [unwrap bind].
      exists [c]. repeat split.
      * intros rest. cbn. rewrite Hv. assert (E : (vlq <? 32) = true) by lia. rewrite E. reflexivity.
      * exists [], c. split; [reflexivity|]. split; [constructor | exists vlq; split; [exact Hv | lia]].
      * rewrite base32_digits_small by lia. reflexivity.
    + assert (Hd : 0 < vlq / 32 <= vlq) by (split; [apply Z.div_str_pos; lia | apply Z.div_le_upper_bound; lia]).
      assert (E1 : (0 <? vlq / 32) = true) by lia. rewrite E1.
      assert (E2 : (vlq / 32 <=? 0) = false) by lia. rewrite E2.
      destruct (base64_encode_value (vlq mod 32 + 32)) as [c [Hc Hv]]; [lia|]. rewrite Hc. cbn [unwrap bind].
      destruct (IH (vlq / 32) (enc ++ [c])) as [s [Hs1 [Hs2 [Hs3 Hs4]]]].
      { lia. }
      { rewrite Nat2Z.inj_succ, Z.pow_succ_r in Hf by lia.
        apply Z.div_lt_upper_bound; lia. }
      exists (c :: s). repeat split.
      * rewrite Hs1. rewrite <- app_assoc. reflexivity.
      * intros rest. cbn [app vlq_unsigned]. rewrite Hv.
        assert (E : (vlq mod 32 + 32 <? 32) = false) by lia. rewrite E.
        rewrite Hs2. do 2 f_equal. lia.
      * apply vlq_shape_cons; [|exact Hs3]. exists (vlq mod 32 + 32). split; [exact Hv | lia].
      * rewrite len_cons, Hs4. rewrite (base32_digits_step vlq) by lia. reflexivity.
Qed.

Lemma to_vlq_signed_ok : forall md v, -1073741824 < v < 1073741824 ->
  to_vlq_signed md v = Ok (vlq_signed v) /\ 0 <= vlq_signed v <= 2147483647.
Proof.
  intros md v H. unfold to_vlq_signed, vlq_signed, i32_shl.
  destruct (v <? 0) eqn:E.
  - rewrite i32_neg_ok by lia. cbn [bind]. rewrite shiftl1. rewrite to_i32_id by lia.
    rewrite i32_add_ok by lia. split; [reflexivity | lia].
  - rewrite shiftl1. rewrite to_i32_id by lia. split; [reflexivity|lia].
Qed.

Lemma vlq_sign_signed : forall v, vlq_sign (vlq_signed v) = v.
Proof.
  intros v. unfold vlq_sign, vlq_signed. destruct (v <? 0) eqn:E.
  - replace (Z.even (2 * - v + 1)) with false.
    + replace (2 * - v + 1) with (1 + - v * 2) by lia. rewrite Z.div_add by lia.
      change (1 / 2) with 0. lia.
    + symmetry. rewrite Z.even_add, Z.even_mul. reflexivity.
  - rewrite Z.even_mul. cbn [Z.even orb].
    rewrite Z.mul_comm, Z.div_mul by lia. reflexivity.
Qed.

Lemma encode_ok : forall md v, -1073741824 < v < 1073741824 ->
  exists s, base64vlq_encode md v = Ok s
    /\ (forall rest, vlq_decode (s ++ rest) = Some (v, rest))
    /\ (forall rest, vlq_unsigned (s ++ rest) = Some (vlq_signed v, rest))
    /\ vlq_shape s
    /\ len s = base32_digits (vlq_signed v).
Proof.
  intros md v H. destruct (to_vlq_signed_ok md v H) as [E R].
  unfold base64vlq_encode. rewrite E. cbn [bind].
  destruct (vlq_loop_ok 7 (vlq_signed v) []) as [s [H1 [H2 [H3 H4]]]].
  - exact R.
  - change (32 ^ Z.of_nat 8) with 1099511627776. lia.
  - exists s. repeat split; try assumption.
    intros rest. unfold vlq_decode. rewrite H2. rewrite vlq_sign_signed. reflexivity.
Qed.

(** Large magnitudes: the shift loses the top bit and one digit comes out. *)
Lemma vlq_one_digit : forall c d rest, b64_value c = Some d -> 0 <= d < 32 ->
  vlq_unsigned ([c] ++ rest) = Some (d, rest).
Proof.
  intros c d rest Hv Hd. cbn. rewrite Hv.
  assert (E : (d <? 32) = true) by lia. rewrite E. reflexivity.
Qed.

Lemma vlq_sign_small : forall u, 0 <= u < 32 -> -16 < vlq_sign u < 16.
Proof.
  intros u H. unfold vlq_sign.
  assert (0 <= u / 2 < 16) by (split; [apply Z.div_pos; lia | apply Z.div_lt_upper_bound; lia]).
  destruct (Z.even u); lia.
Qed.

Lemma final_of : forall c d, b64_value c = Some d -> d < 32 -> vlq_shape [c].
Proof.
  intros c d Hv Hd. exists [], c. split; [reflexivity|]. split; [constructor | exists d; tauto].
Qed.

Lemma encode_big : forall md v,
  1073741824 <= Z.abs v <= 2147483647 ->
  exists c w, base64vlq_encode md v = Ok [c] /\ vlq_shape [c]
    /\ (forall rest, vlq_decode ([c] ++ rest) = Some (w, rest)) /\ w <> v.
Proof.
  intros md v Hv. unfold base64vlq_encode.
  assert (exists z, to_vlq_signed md v = Ok z /\ -2147483648 <= z < 0) as [z [Ez Hz]].
  { unfold to_vlq_signed, i32_shl. destruct (v <? 0) eqn:E.
    - rewrite i32_neg_ok by lia. cbn [bind]. rewrite shiftl1.
      assert (T : to_i32 (2 * - v) = 2 * - v - 4294967296).
      { unfold to_i32. change (2^31) with 2147483648. change (2^32) with 4294967296.
        replace (2 * - v + 2147483648) with ((2 * - v - 2147483648) + 1 * 4294967296) by lia.
        rewrite Z_mod_plus_full. rewrite Z.mod_small by lia. lia. }
      rewrite T. rewrite i32_add_ok by lia. eexists. split; [reflexivity|]. lia.
    - rewrite shiftl1.
      assert (T : to_i32 (2 * v) = 2 * v - 4294967296).
      { unfold to_i32. change (2^31) with 2147483648. change (2^32) with 4294967296.
        replace (2 * v + 2147483648) with ((2 * v - 2147483648) + 1 * 4294967296) by lia.
        rewrite Z_mod_plus_full. rewrite Z.mod_small by lia. lia. }
      rewrite T. eexists. split; [reflexivity|]. lia. }
  rewrite Ez. cbn [bind].
  destruct (vlq_loop_neg 7 z Hz) as [c [Hl Hc]].
  pose proof (Z.mod_pos_bound z 32 ltac:(lia)).
  exists c, (vlq_sign (z mod 32)). repeat split.
  - exact Hl.
  - apply (final_of c (z mod 32)); [assumption | lia].
  - intros rest. unfold vlq_decode. rewrite (vlq_one_digit c (z mod 32) rest Hc) by lia. reflexivity.
  - pose proof (vlq_sign_small (z mod 32)). lia.
Qed.

Lemma encode_min_debug : base64vlq_encode Debug (-2147483648) = Panic POverflow.
Proof. vm_compute. reflexivity. Qed.

Lemma encode_min_release : base64vlq_encode Release (-2147483648) = Ok (lit "B").
Proof. vm_compute. reflexivity. Qed.

(** Minimality *)
Lemma vlq_unsigned_bound : forall s u rest, vlq_unsigned s = Some (u, rest) ->
  0 <= u /\ base32_digits u <= len s - len rest.
Proof.
  induction s as [|c s IH]; intros u rest H; cbn [vlq_unsigned] in H; [discriminate|].
  destruct (b64_value c) as [d|] eqn:Ec; [|discriminate].
  pose proof (b64_value_range _ _ Ec) as Hd.
  destruct (d <? 32) eqn:Ed.
  - inv H. rewrite base32_digits_small by lia. rewrite len_cons. lia.
  - destruct (vlq_unsigned s) as [[hi r]|] eqn:E; [|discriminate]. apply (f_equal (fun o => match o with Some p => p | None => (0, []) end)) in H; apply pair_equal_spec in H; destruct H as [<- <-].
    destruct (IH hi r eq_refl) as [H1 H2]. split; [lia|]. rewrite len_cons.
    destruct (Z.eq_dec hi 0) as [->|Hne].
    + rewrite base32_digits_small in H2 by lia. rewrite base32_digits_small by lia. lia.
    + rewrite base32_digits_step by lia.
      replace ((d - 32 + 32 * hi) / 32) with hi; [lia|].
      apply (Z.div_unique _ 32 hi (d - 32)); lia.
Qed.

Lemma base32_digits_mono : forall a b, 0 <= a <= b -> base32_digits a <= base32_digits b.
Proof.
  intros a b H. unfold base32_digits.
  pose proof (Z.log2_le_mono a b ltac:(lia)).
  pose proof (Z.div_le_mono (Z.log2 a) (Z.log2 b) 5 ltac:(lia)). lia.
Qed.

Lemma encode_shortest : forall md v s s', -1073741824 < v < 1073741824 ->
  base64vlq_encode md v = Ok s -> vlq_decode s' = Some (v, []) -> len s <= len s'.
Proof.
  intros md v s s' Hv Hs Hs'. destruct (encode_ok md v Hv) as [s0 [E [_ [_ [_ Hl]]]]].
  rewrite E in Hs. inv Hs. rewrite Hl. unfold vlq_decode in Hs'.
  destruct (vlq_unsigned s') as [[u r]|] eqn:Eu; [|discriminate].
  inversion Hs'; subst r. clear Hs'.
  destruct (vlq_unsigned_bound _ _ _ Eu) as [Hu Hd]. rewrite len_nil in Hd.
  assert (vlq_signed (vlq_sign u) <= u).
  { unfold vlq_sign, vlq_signed. pose proof (Z.div_mod u 2 ltac:(lia)).
    pose proof (Z.mod_pos_bound u 2 ltac:(lia)).
    assert (0 <= u / 2) by (apply Z.div_pos; lia).
    destruct (Z.even u) eqn:E2.
    - assert (Hz : (u / 2 <? 0) = false) by lia. rewrite Hz. lia.
    - rewrite <- Z.negb_odd in E2. apply negb_false_iff in E2.
      assert (Hm : u mod 2 = 1) by (rewrite Zmod_odd, E2; reflexivity).
      destruct (- (u / 2) <? 0) eqn:E3; lia. }
  pose proof (base32_digits_mono (vlq_signed (vlq_sign u)) u).
  assert (0 <= vlq_signed (vlq_sign u)) by (unfold vlq_signed; destruct (vlq_sign u <? 0) eqn:?; lia).
  lia.
Qed.

Lemma encode_length : forall md v s, -1073741824 < v < 1073741824 ->
  base64vlq_encode md v = Ok s -> 1 <= len s <= 7.
Proof.
  intros md v s Hv Hs. destruct (encode_ok md v Hv) as [s0 [E [_ [_ [_ Hl]]]]].
  rewrite E in Hs. inv Hs. rewrite Hl.
  destruct (to_vlq_signed_ok md v Hv) as [_ R].
  pose proof (base32_digits_mono (vlq_signed v) 2147483647 ltac:(lia)).
  pose proof (base32_digits_mono 0 (vlq_signed v) ltac:(lia)).
  change (base32_digits 2147483647) with 7 in *. change (base32_digits 0) with 1 in *. lia.
Qed.

(** ** Sequences *)
Lemma mapM_cons_ok : forall {A B} (f : A -> res B) x l r,
  mapM f (x :: l) = Ok r -> exists y ys, f x = Ok y /\ mapM f l = Ok ys /\ r = y :: ys.
Proof. intros A B f x l r H. cbn in H. bind_inv H. bind_inv H. inv H. eauto. Qed.

Lemma encode_all_ok : forall md vs, Forall (fun v => -1073741824 < v < 1073741824) vs ->
  exists ss, mapM (base64vlq_encode md) vs = Ok ss /\
    forall fuel, (length (concat ss) <= fuel)%nat -> vlq_fields fuel (concat ss) = Some vs.
Proof.
  induction vs as [|v vs IH]; intros H.
  - exists []. split; [reflexivity|]. intros [|fuel] _; reflexivity.
  - inv H. destruct (IH H3) as [ss [E1 E2]].
    destruct (encode_ok md v H2) as [s [Es [Hd [_ [Hsh Hl]]]]].
    exists (s :: ss). split.
    + cbn. rewrite Es. cbn. rewrite E1. reflexivity.
    + intros fuel Hf. cbn [concat] in *. rewrite app_length in Hf.
      destruct Hsh as [init [last [-> _]]]. rewrite app_length in Hf. cbn [length] in Hf.
      destruct fuel as [|fuel]; [lia|].
      destruct ((init ++ [last]) ++ concat ss) as [|c s'] eqn:Ec.
      { destruct init; discriminate. }
      cbn [vlq_fields]. rewrite <- Ec. rewrite Hd. rewrite E2 by lia. reflexivity.
Qed.

(** ** Assembled statements *)
Lemma vlq_shape_chars : forall s, vlq_shape s ->
  s <> [] /\ Forall (fun c => exists d, b64_value c = Some d) s /\ ~ In (ch ",") s /\ ~ In (ch ";") s.
Proof.
  intros s [init [last [-> [Hi Hl]]]].
  assert (HF : Forall (fun c => exists d, b64_value c = Some d) (init ++ [last])).
  { apply Forall_app. split.
    - eapply Forall_impl; [|exact Hi]. intros c [d [Hd _]]. eauto.
    - constructor; [|constructor]. destruct Hl as [d [Hd _]]. eauto. }
  split; [destruct init; discriminate|]. split; [exact HF|].
  rewrite Forall_forall in HF.
  split; intros Hin; apply HF in Hin; destruct Hin as [d Hd]; vm_compute in Hd; discriminate.
Qed.

Lemma encode_i32_shape : forall md v s, in_i32 v = true -> base64vlq_encode md v = Ok s -> vlq_shape s.
Proof.
  intros md v s Hv Hs. apply in_i32_iff in Hv.
  destruct (Z_lt_dec (Z.abs v) 1073741824) as [Hl|Hl].
  - destruct (encode_ok md v) as [s0 [E [_ [_ [Hsh _]]]]]; [lia|]. rewrite E in Hs. inv Hs. exact Hsh.
  - destruct (Z.eq_dec v (-2147483648)) as [->|Hne].
    + destruct md; [rewrite encode_min_debug in Hs; discriminate|].
      rewrite encode_min_release in Hs. inv Hs.
      exists [], (ch "B"). split; [reflexivity|]. split; [constructor|]. exists 1. split; [reflexivity|lia].
    + destruct (encode_big md v) as [c [w [E [Hsh _]]]]; [lia|]. rewrite E in Hs. inv Hs. exact Hsh.
Qed.

Lemma encode_roundtrip_iff : forall md v, in_i32 v = true ->
  ((exists s, base64vlq_encode md v = Ok s /\ vlq_decode s = Some (v, [])) <-> Z.abs v < 2^30).
Proof.
  intros md v Hv. apply in_i32_iff in Hv. change (2^30) with 1073741824. split.
  - intros [s [Hs Hd]]. destruct (Z_lt_dec (Z.abs v) 1073741824) as [Hl|Hl]; [exact Hl|exfalso].
    destruct (Z.eq_dec v (-2147483648)) as [->|Hne].
    + destruct md; [rewrite encode_min_debug in Hs; discriminate|].
      rewrite encode_min_release in Hs. inv Hs. vm_compute in Hd. discriminate.
    + destruct (encode_big md v) as [c [w [E [_ [Hw Hn]]]]]; [lia|]. rewrite E in Hs. inv Hs.
      specialize (Hw []). rewrite app_nil_r in Hw. rewrite Hw in Hd. inv Hd. contradiction.
  - intros H. destruct (encode_ok md v) as [s [E [Hd _]]]; [lia|].
    exists s. split; [exact E|]. specialize (Hd []). rewrite app_nil_r in Hd. exact Hd.
Qed.

Lemma encode_outside : forall md v, in_i32 v = true -> 2^30 <= Z.abs v ->
  (v = i32_min /\ md = Debug /\ base64vlq_encode md v = Panic POverflow)
  \/ (exists c w, base64vlq_encode md v = Ok [c] /\ vlq_decode [c] = Some (w, []) /\ w <> v
        /\ ~ (v = i32_min /\ md = Debug)).
Proof.
  intros md v Hv Hb. apply in_i32_iff in Hv. change (2^30) with 1073741824 in Hb.
  change i32_min with (-2147483648).
  destruct (Z.eq_dec v (-2147483648)) as [->|Hne].
  - destruct md; [left; repeat split; apply encode_min_debug|].
    right. exists (ch "B"), 0. rewrite encode_min_release. repeat split; [lia|].
    intros [_ H]; discriminate.
  - right. destruct (encode_big md v) as [c [w [E [_ [Hw Hn]]]]]; [lia|].
    exists c, w. split; [exact E|]. specialize (Hw []). rewrite app_nil_r in Hw. split; [exact Hw|].
    split; [exact Hn|]. tauto.
Qed.

Lemma encode_list_roundtrip : forall md vs, Forall (fun v => Z.abs v < 2^30) vs ->
  exists ss, mapM (base64vlq_encode md) vs = Ok ss /\ vlq_decode_all (concat ss) = Some vs.
Proof.
  intros md vs H. destruct (encode_all_ok md vs) as [ss [E1 E2]].
  - eapply Forall_impl; [|exact H]. cbn beta. change (2^30) with 1073741824. intros; lia.
  - exists ss. split; [exact E1|]. apply E2. lia.
Qed.

Lemma encode_list_injective : forall md vs ws ss ts,
  Forall (fun v => Z.abs v < 2^30) vs -> Forall (fun v => Z.abs v < 2^30) ws ->
  mapM (base64vlq_encode md) vs = Ok ss -> mapM (base64vlq_encode md) ws = Ok ts ->
  concat ss = concat ts -> vs = ws.
Proof.
  intros md vs ws ss ts Hv Hw Es Et Hc.
  destruct (encode_list_roundtrip md vs Hv) as [ss' [E1 D1]].
  destruct (encode_list_roundtrip md ws Hw) as [ts' [E2 D2]].
  rewrite Es in E1. inv E1. rewrite Et in E2. inv E2.
  rewrite Hc in D1. rewrite D1 in D2. inv D2. reflexivity.
Qed.

Lemma base64_encode_iff : forall n c, base64_encode n = Some c <-> b64_value c = Some n.
Proof.
  intros n c. destruct (Z_le_dec 0 n) as [H0|H0].
  - destruct (Z_lt_dec n 64) as [H1|H1].
    + destruct (base64_encode_value n) as [c' [E V]]; [lia|]. rewrite E. split; intros H.
      * inv H. exact V.
      * f_equal. eapply b64_value_inj; eassumption.
    + rewrite base64_encode_none by lia. split; intros H; [discriminate|].
      apply b64_value_range in H. lia.
  - rewrite base64_encode_none by lia. split; intros H; [discriminate|].
    apply b64_value_range in H. lia.
Qed.

Lemma base64_encode_defined : forall n, (exists c, base64_encode n = Some c) <-> 0 <= n < 64.
Proof.
  intros n. split.
  - intros [c H]. apply base64_encode_iff in H. apply b64_value_range in H. exact H.
  - intros H. destruct (base64_encode_value n H) as [c [E _]]. eauto.
Qed.

Lemma base64_encode_inj : forall n m c, base64_encode n = Some c -> base64_encode m = Some c -> n = m.
Proof.
  intros n m c H1 H2. apply base64_encode_iff in H1. apply base64_encode_iff in H2. congruence.
Qed.

Lemma encode_decode_rest : forall md v, Z.abs v < 2^30 ->
  exists s, base64vlq_encode md v = Ok s /\ forall rest, vlq_decode (s ++ rest) = Some (v, rest).
Proof.
  intros md v H. change (2^30) with 1073741824 in H.
  destruct (encode_ok md v) as [s [E [Hd _]]]; [lia|]. eauto.
Qed.

Lemma encode_chars : forall md v s, in_i32 v = true -> base64vlq_encode md v = Ok s ->
  s <> [] /\ Forall (fun c => exists d, b64_value c = Some d) s
  /\ ~ In (ch ",") s /\ ~ In (ch ";") s /\ vlq_shape s.
Proof.
  intros md v s Hv Hs. pose proof (encode_i32_shape md v s Hv Hs) as Hsh.
  pose proof (vlq_shape_chars s Hsh). tauto.
Qed.

Lemma encode_minimal : forall md v s, Z.abs v < 2^30 -> base64vlq_encode md v = Ok s ->
  len s = base32_digits (vlq_signed v) /\ 1 <= len s <= 7
  /\ forall s', vlq_decode s' = Some (v, []) -> len s <= len s'.
Proof.
  intros md v s Hv Hs. change (2^30) with 1073741824 in Hv. repeat split.
  - destruct (encode_ok md v) as [s0 [E [_ [_ [_ Hl]]]]]; [lia|]. rewrite E in Hs. inv Hs. exact Hl.
  - apply (encode_length md v); [lia | exact Hs].
  - apply (encode_length md v); [lia | exact Hs].
  - intros s' Hd. eapply encode_shortest; [|exact Hs|exact Hd]. lia.
Qed.

Lemma encode_range : forall md v, in_i32 v = true ->
  ((exists s, base64vlq_encode md v = Ok s /\ vlq_decode s = Some (v, [])) <-> Z.abs v < 2^30)
  /\ (2^30 <= Z.abs v ->
      (v = i32_min /\ md = Debug /\ base64vlq_encode md v = Panic POverflow)
      \/ (exists c w, base64vlq_encode md v = Ok [c] /\ vlq_decode [c] = Some (w, []) /\ w <> v
            /\ ~ (v = i32_min /\ md = Debug))).
Proof.
  intros md v H. split; [exact (encode_roundtrip_iff md v H) | exact (encode_outside md v H)].
Qed.

Lemma base64_table :
  (forall n, (exists c, base64_encode n = Some c) <-> 0 <= n < 64)
  /\ (forall n c, base64_encode n = Some c <-> b64_value c = Some n)
  /\ (forall n m c, base64_encode n = Some c -> base64_encode m = Some c -> n = m).
Proof.
  split; [exact base64_encode_defined|]. split; [exact base64_encode_iff | exact base64_encode_inj].
Qed.
