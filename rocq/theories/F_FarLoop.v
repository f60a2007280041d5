(** * Writing and reading positions that may be far apart *)
From Verif Require Import F_Base M_Base64Vlq M_ArraySet M_Mapping M_SourceMap M_MapLib M_Util M_Generator
  S_Vlq S_Decode S_List S_Mapping S_Generator S_Far F_Vlq F_Sort F_Mapping F_MappingList F_Decode F_Serialize.
From Coq Require Import Sorting.Sorted Sorting.Permutation.

Lemma near_iff : forall d, near d <-> -1073741824 < d < 1073741824.
Proof. intros d. unfold near. change (2^30) with 1073741824. lia. Qed.

Lemma near_dec : forall d, {near d} + {~ near d}.
Proof. intros d. unfold near. apply Z_lt_dec. Qed.

(** ** Fields *)
Lemma encode_any : forall md v, -2147483648 < v <= 2147483647 ->
  exists s w, base64vlq_encode md v = Ok s /\ short_field s
    /\ (forall rest, vlq_decode (s ++ rest) = Some (w, rest)) /\ (w = v <-> near v)
    /\ (near v -> shortest_field s).
Proof.
  intros md v H. pose proof (near_iff v) as Nv. destruct (Z_lt_dec (Z.abs v) 1073741824) as [Hl|Hl].
  - destruct (encode_ok md v) as [s [E [Hd _]]]; [lia|]. exists s, v. split; [exact E|].
    destruct (encode_good md v H) as [s' [E' [Hs Hs']]]. rewrite E in E'. injection E' as <-.
    split; [exact Hs|]. split; [exact Hd|]. rewrite Nv. split; [lia | exact Hs'].
  - destruct (encode_big md v) as [c [w [E [Hs [Hd Hw]]]]]; [lia|]. exists [c], w. split; [exact E|].
    split; [split; [exact Hs | vm_compute; discriminate]|]. split; [exact Hd|]. rewrite Nv. split; [split; [contradiction|lia] | lia].
Qed.

(** [s] reads as [w], whatever follows. *)
Definition reads (s : str) (w : Z) : Prop :=
  s <> [] /\ forall rest, vlq_decode (s ++ rest) = Some (w, rest).

Lemma fields_read : forall fs ws fuel, Forall2 reads fs ws -> (List.length (concat fs) <= fuel)%nat ->
  vlq_fields fuel (concat fs) = Some ws.
Proof.
  intros fs ws fuel H. revert fuel. induction H as [|f w fs ws [Hne Hd] _ IH]; intros fuel Hf.
  - destruct fuel; reflexivity.
  - cbn [concat] in *. rewrite app_length in Hf. destruct f as [|c f]; [contradiction|].
    destruct fuel as [|fuel]; [cbn in Hf; lia|]. cbn [app vlq_fields].
    change (c :: f ++ concat fs) with ((c :: f) ++ concat fs). rewrite Hd. rewrite IH; [reflexivity|].
    cbn in Hf. lia.
Qed.

Lemma all_read : forall fs ws, Forall2 reads fs ws -> vlq_decode_all (concat fs) = Some ws.
Proof. intros fs ws H. apply fields_read; [exact H | apply le_n]. Qed.

Ltac enc_any v := let f := fresh "f" in let w := fresh "w" in let E := fresh "E" in let G := fresh "G" in
  let D := fresh "D" in let W := fresh "W" in let R := fresh "R" in let K := fresh "K" in
  match goal with |- context [base64vlq_encode ?md v] =>
    destruct (encode_any md v) as [f [w [E [G [D [W K]]]]]]; [lia|]; rewrite E; cbn [bind];
    assert (R : reads f w) by (split; [exact (proj1 (short_chars _ G)) | exact D]) end.

(** ** Segments *)
Definition far_map (S N : ArraySet) (m : Mapping) : Prop :=
  expressible m /\ known S 1073741824 (m_source m) /\ name_known N 1073741824 m.

(** The running values after mappings up to [generated], with last original
    position [original] *)
Definition st_far (generated original : Position) (st : SerState) : Prop :=
  ss_generated_line st = p_line generated /\ ss_generated_column st = p_column generated
  /\ ss_original_line st = p_line original - 1 /\ ss_original_column st = p_column original
  /\ 0 <= p_column generated <= 2147483647 /\ 1 <= p_line original <= 2147483647
  /\ 0 <= p_column original <= 2147483647
  /\ 0 <= ss_name st < 1073741824 /\ 0 <= ss_source st < 1073741824.

Definition next_original (original : Position) (m : Mapping) : Position :=
  match m_original m with Some o => o | None => original end.

Definition segment_steps (generated original : Position) (m : Mapping) : list Z :=
  (p_column (m_generated m) - p_column generated)
  :: match m_original m with
     | Some o => [p_line o - p_line original; p_column o - p_column original]
     | None => []
     end.

Lemma u32_ok : forall z, 0 <= z <= 2147483647 -> in_u32 z = true.
Proof. intros. apply in_u32_iff. lia. Qed.

Lemma ser_segment_any : forall md S N m st gen orig, far_map S N m -> st_far gen orig st ->
  p_line gen = p_line (m_generated m) ->
  exists seg st', ser_segment md S N m st = Ok (seg, st') /\ good_seg short_field seg
    /\ st_far (m_generated m) (next_original orig m) st'
    /\ (Forall near (segment_steps gen orig m) ->
        exists raw, decode_segment (p_line (m_generated m) - 1) (ss_generated_column st) (regs_of st) seg
                    = Some (raw, ss_generated_column st', regs_of st')
          /\ resolve_mapping (as_array S) (as_array N) raw = Some (read_back m))
    /\ (~ Forall near (segment_steps gen orig m) ->
        forall raw g r, decode_segment (p_line (m_generated m) - 1) (ss_generated_column st) (regs_of st) seg
                        = Some (raw, g, r) ->
          resolve_mapping (as_array S) (as_array N) raw <> Some (read_back m))
    /\ (Forall near (segment_steps gen orig m) -> good_seg shortest_field seg).
Proof.
  intros md S N m st gen orig [[[[Hg0 Hg] Hm] [Hl1 Hl2]] [HS HN]] (L & G & OL & OC & B1 & B2 & B3 & B4 & B5) Hline.
  change i32_max with 2147483647 in *. unfold name_known in HN. unfold ser_segment.
  rewrite i32_sub_ok by lia. cbn [bind].
  enc_any (p_column (m_generated m) - ss_generated_column st).
  unfold ser_tail. cbn [ss_generated_column ss_generated_line ss_original_column ss_original_line ss_name ss_source].
  unfold decode_segment, regs_of, next_original, segment_steps. cbn [r_source r_line r_column r_name].
  assert (Egen : mkPos (p_line (m_generated m) - 1 + 1) (p_column (m_generated m)) = m_generated m).
  { destruct (m_generated m) as [l c]. cbn. f_equal. lia. }
  unfold read_back.
  destruct (m_source m) as [s|] eqn:Es.
  - destruct HS as [i [Ei [Hi Hni]]]. rewrite Ei. cbn [unwrap bind]. rewrite to_i32_id by lia.
    rewrite i32_sub_ok by lia. cbn [bind]. enc_any (i - ss_source st).
    assert (w0 = i - ss_source st) by (apply W0, near_iff; lia). subst w0.
    destruct (m_original m) as [o|] eqn:Eo; [|contradiction]. cbn [unwrap bind].
    destruct Hm as [Hl Hc]. change i32_max with 2147483647 in *. unfold line1 in Hl2.
    assert (Eorig : mkPos (p_line o - 1 + 1) (p_column o) = o).
    { destruct o as [l c]. cbn. f_equal. lia. }
    rewrite i32_sub_ok by lia. cbn [bind]. rewrite i32_sub_ok by lia. cbn [bind].
    enc_any (p_line o - 1 - ss_original_line st).
    rewrite i32_sub_ok by lia. cbn [bind]. enc_any (p_column o - ss_original_column st).
    assert (Near : Forall near [p_column (m_generated m) - p_column gen; p_line o - p_line orig; p_column o - p_column orig]
                   <-> w = p_column (m_generated m) - ss_generated_column st
                       /\ w0 = p_line o - 1 - ss_original_line st /\ w1 = p_column o - ss_original_column st).
    { rewrite W, W1, W2. rewrite G, OL, OC. replace (p_line o - 1 - (p_line orig - 1)) with (p_line o - p_line orig) by lia.
      split.
      - intros F. inv F. inv H2. inv H4. auto.
      - intros [F1 [F2 F3]]. repeat constructor; assumption. }
    destruct (m_name m) as [n|] eqn:En.
    + destruct HN as [j [Ej [Hj Hnj]]]. rewrite Ej. cbn [unwrap bind]. rewrite to_i32_id by lia.
      rewrite i32_sub_ok by lia. cbn [bind]. enc_any (j - ss_name st).
      assert (w2 = j - ss_name st) by (apply W3, near_iff; lia). subst w2.
      do 2 eexists. split; [reflexivity|]. split; [|split].
      * apply good_seg_5; assumption.
      * unfold st_far. cbn. lia.
      * pose proof (all_read [f; f0; f1; f2; f3] [w; i - ss_source st; w0; w1; j - ss_name st]) as A.
        cbn [concat] in A. rewrite app_nil_r in A. rewrite A by (repeat (apply Forall2_cons; [assumption|]); constructor).
        replace (ss_source st + (i - ss_source st)) with i by lia.
        replace (ss_name st + (j - ss_name st)) with j by lia.
        cbn [ss_generated_column ss_generated_line ss_original_column ss_original_line ss_name ss_source r_source r_line r_column r_name].
        split; [|split].
        { intros F. apply Near in F. destruct F as [-> [-> ->]].
          replace (ss_generated_column st + (p_column (m_generated m) - ss_generated_column st)) with (p_column (m_generated m)) by lia.
          replace (ss_original_line st + (p_line o - 1 - ss_original_line st)) with (p_line o - 1) by lia.
          replace (ss_original_column st + (p_column o - ss_original_column st)) with (p_column o) by lia.
          rewrite !u32_ok by lia. eexists. split; [reflexivity|].
          unfold resolve_mapping. cbn [rm_line rm_column rm_original ol_source ol_line ol_column ol_name].
          rewrite (lookup_known _ i s) by (lia || assumption). rewrite (lookup_known _ j n) by (lia || assumption).
          rewrite Egen, Eorig. reflexivity. }
        { intros F raw g r X Y. apply F, Near.
          match type of X with (if ?b then _ else _) = _ => destruct b; [|discriminate] end.
          injection X as <- <- <-. revert Y.
          unfold resolve_mapping. cbn [rm_line rm_column rm_original ol_source ol_line ol_column ol_name].
          rewrite (lookup_known _ i s) by (lia || assumption). rewrite (lookup_known _ j n) by (lia || assumption).
          rewrite <- Egen at 2. intros Y. injection Y; intros Yo Yg. pose proof (f_equal p_line Yo) as Y1. pose proof (f_equal p_column Yo) as Y2. cbn in Y1, Y2. lia. }
        { intros F. apply Near in F. destruct F as [F1 [F2 F3]].
          apply good_seg_5; [apply K, W, F1 | apply K0, near_iff; lia | apply K1, W1, F2 | apply K2, W2, F3 | apply K3, near_iff; lia]. }
    + do 2 eexists. split; [reflexivity|]. split; [|split].
      * apply good_seg_4; assumption.
      * unfold st_far. cbn. lia.
      * pose proof (all_read [f; f0; f1; f2] [w; i - ss_source st; w0; w1]) as A.
        cbn [concat] in A. rewrite app_nil_r in A. rewrite A by (repeat (apply Forall2_cons; [assumption|]); constructor).
        replace (ss_source st + (i - ss_source st)) with i by lia.
        cbn [ss_generated_column ss_generated_line ss_original_column ss_original_line ss_name ss_source r_source r_line r_column r_name].
        split; [|split].
        { intros F. apply Near in F. destruct F as [-> [-> ->]].
          replace (ss_generated_column st + (p_column (m_generated m) - ss_generated_column st)) with (p_column (m_generated m)) by lia.
          replace (ss_original_line st + (p_line o - 1 - ss_original_line st)) with (p_line o - 1) by lia.
          replace (ss_original_column st + (p_column o - ss_original_column st)) with (p_column o) by lia.
          rewrite !u32_ok by lia. eexists. split; [reflexivity|].
          unfold resolve_mapping. cbn [rm_line rm_column rm_original ol_source ol_line ol_column ol_name].
          rewrite (lookup_known _ i s) by (lia || assumption).
          rewrite Egen, Eorig. reflexivity. }
        { intros F raw g r X Y. apply F, Near.
          match type of X with (if ?b then _ else _) = _ => destruct b; [|discriminate] end.
          injection X as <- <- <-. revert Y.
          unfold resolve_mapping. cbn [rm_line rm_column rm_original ol_source ol_line ol_column ol_name].
          rewrite (lookup_known _ i s) by (lia || assumption).
          rewrite <- Egen at 2. intros Y. injection Y; intros Yo Yg. pose proof (f_equal p_line Yo) as Y1. pose proof (f_equal p_column Yo) as Y2. cbn in Y1, Y2. lia. }
        { intros F. apply Near in F. destruct F as [F1 [F2 F3]].
          apply good_seg_4; [apply K, W, F1 | apply K0, near_iff; lia | apply K1, W1, F2 | apply K2, W2, F3]. }
  - destruct (m_original m) as [o|] eqn:Eo; [contradiction|]. cbn [bind].
    assert (Near : Forall near [p_column (m_generated m) - p_column gen]
                   <-> w = p_column (m_generated m) - ss_generated_column st).
    { rewrite W. rewrite G. split; [intros F; inv F; assumption | intros F; repeat constructor; assumption]. }
    do 2 eexists. split; [reflexivity|]. split; [|split].
    + rewrite app_nil_r. apply good_seg_1. assumption.
    + unfold st_far. cbn. lia.
    + pose proof (all_read [f] [w]) as A.
      cbn [concat] in A. rewrite A by (repeat (apply Forall2_cons; [assumption|]); constructor).
      cbn [ss_generated_column ss_generated_line ss_original_column ss_original_line ss_name ss_source].
      split; [|split].
      * intros F. apply Near in F. rewrite F.
        replace (ss_generated_column st + (p_column (m_generated m) - ss_generated_column st)) with (p_column (m_generated m)) by lia.
        rewrite !u32_ok by lia. eexists. split; [reflexivity|].
        unfold resolve_mapping. cbn [rm_line rm_column rm_original]. rewrite Egen. reflexivity.
      * intros F raw g r X Y. apply F, Near.
        match type of X with (if ?b then _ else _) = _ => destruct b; [|discriminate] end.
        injection X as <- <- <-. revert Y.
        unfold resolve_mapping. cbn [rm_line rm_column rm_original].
        rewrite <- Egen at 2. intros Y. injection Y; intros; lia.
      * intros F. rewrite app_nil_r. apply good_seg_1, K, W, Near, F.
Qed.

(** ** The loop *)
Definition base (generated : Position) (m : Mapping) : Position :=
  mkPos (p_line (m_generated m)) (if p_line (m_generated m) =? p_line generated then p_column generated else 0).

Lemma steps_cons : forall gen orig m ms,
  steps gen orig (m :: ms) = segment_steps (base gen m) orig m ++ steps (m_generated m) (next_original orig m) ms.
Proof.
  intros gen orig m ms. cbn [steps]. unfold segment_steps, base, next_original. cbn [p_column].
  destruct (m_original m); reflexivity.
Qed.

Lemma steps_near : forall gen orig m ms, Forall near (steps gen orig (m :: ms))
  <-> Forall near (segment_steps (base gen m) orig m) /\ Forall near (steps (m_generated m) (next_original orig m) ms).
Proof. intros. rewrite steps_cons. apply Forall_app. Qed.

Lemma steps_same : forall gen gen' orig m ms, base gen m = base gen' m ->
  steps gen orig (m :: ms) = steps gen' orig (m :: ms).
Proof. intros gen gen' orig m ms H. rewrite !steps_cons, H. reflexivity. Qed.

(** What is read from somewhere on: [r] exactly if all steps are near *)
Definition verdict (S N : ArraySet) (decoded : option (list RawMapping)) (ds : list Z) (r : list Mapping) : Prop :=
  (Forall near ds -> exists raws, decoded = Some raws
     /\ resolve (as_array S) (as_array N) raws = Some (map read_back r))
  /\ (~ Forall near ds -> forall raws, decoded = Some raws ->
        resolve (as_array S) (as_array N) raws <> Some (map read_back r)).

Lemma resolve_inv : forall S N raw raws m r, resolve S N (raw :: raws) = Some (m :: r) ->
  resolve_mapping S N raw = Some m /\ resolve S N raws = Some r.
Proof.
  intros S N raw raws m r H. unfold resolve in *. cbn [map all_some] in H.
  destruct (resolve_mapping S N raw); [|discriminate].
  destruct (all_some (map (resolve_mapping S N) raws)); [|discriminate]. injection H as -> ->. auto.
Qed.

Lemma verdict_cons : forall S N m st st' gen orig seg line g (rest : Z -> Regs -> option (list RawMapping)) r,
  (Forall near (segment_steps (base gen m) orig m) ->
     exists raw, decode_segment line g (regs_of st) seg = Some (raw, ss_generated_column st', regs_of st')
       /\ resolve_mapping (as_array S) (as_array N) raw = Some (read_back m)) ->
  (~ Forall near (segment_steps (base gen m) orig m) ->
     forall raw g' r', decode_segment line g (regs_of st) seg = Some (raw, g', r') ->
       resolve_mapping (as_array S) (as_array N) raw <> Some (read_back m)) ->
  verdict S N (rest (ss_generated_column st') (regs_of st')) (steps (m_generated m) (next_original orig m) r) r ->
  verdict S N (match decode_segment line g (regs_of st) seg with
               | None => None
               | Some (raw, g', r') => match rest g' r' with None => None | Some l => Some (raw :: l) end
               end) (steps gen orig (written m :: r)) (written m :: r).
Proof.
  intros S N m st st' gen orig seg line g rest r H1 H2 [V1 V2].
  change (steps gen orig (written m :: r)) with (steps gen orig (m :: r)). unfold verdict. rewrite steps_near.
  cbn [map]. change (read_back (written m)) with (read_back m).
  destruct (Forall_dec _ near_dec (segment_steps (base gen m) orig m)) as [F|F].
  - destruct (H1 F) as [raw [-> Hr]]. split.
    + intros [_ F2]. destruct (V1 F2) as [raws [-> Hraws]]. exists (raw :: raws). split; [reflexivity|].
      apply resolve_cons; assumption.
    + intros F2 raws Hraws Hres. destruct (rest (ss_generated_column st') (regs_of st')) as [l|] eqn:El; [|discriminate].
      injection Hraws as <-. apply resolve_inv in Hres. destruct Hres as [_ Hres]. refine (V2 _ l eq_refl Hres).
      intros F3. apply F2. auto.
  - split; [intros [F' _]; contradiction|]. intros _ raws Hraws Hres.
    destruct (decode_segment line g (regs_of st) seg) as [[[raw g'] r']|] eqn:Ed; [|discriminate].
    destruct (rest g' r') as [l|]; [|discriminate]. injection Hraws as <-. apply resolve_inv in Hres.
    exact (H2 F raw g' r' eq_refl (proj1 Hres)).
Qed.

Lemma far_loop_mid : forall md S N ms p st orig, Forall (far_map S N) (p :: ms) -> gen_sorted (p :: ms) ->
  st_far (m_generated p) orig st ->
  exists s r, ser_loop md S N (Some p) ms st [] = Ok s /\ sep_start s
    /\ collapsed (map written (p :: ms)) (written p :: r)
    /\ verdict S N (mid_from (p_line (m_generated p) - 1) (ss_generated_column st) (regs_of st) s)
               (steps (m_generated p) orig r) r
    /\ (Forall near (steps (m_generated p) orig r) ->
        mid_good shortest_field s (last_line ms (p_line (m_generated p)) - p_line (m_generated p) + 1)).
Proof.
  intros md S N. induction ms as [|m ms IH]; intros p st orig HF Hs Hst.
  - exists [], []. split; [reflexivity|]. split; [left; reflexivity|]. split; [constructor|].
    split; [|intros _; cbn [last_line fold_left]; rewrite Z.sub_diag; apply mid_good_nil].
    split; [intros _; exists []; split; reflexivity|]. intros F. exfalso. apply F. constructor.
  - inv HF. inv Hs. rename H1 into Hp. rename H2 into HF. rename H3 into Hs. rename H4 into Hle.
    pose proof (Forall_inv HF) as Hm.
    assert (Hpm : p_line (m_generated p) <= p_line (m_generated m)).
    { inv Hle. unfold gen_le, pos_le in H1. lia. }
    destruct Hp as [Hp _]. pose proof Hm as [Hmv _].
    pose proof (valid_shaped _ Hp) as [Hpw Hps]. pose proof (valid_shaped _ Hmv) as [Hmw Hms].
    cbn [ser_loop].
    assert (Hlm : 1 <= p_line (m_generated m) <= 2147483647).
    { destruct Hmv as [_ [Hmv _]]. unfold line1 in Hmv. destruct Hmw as [[Hmw _] _].
      change i32_max with 2147483647 in Hmw. lia. }
    assert (Hlp : 1 <= p_line (m_generated p)) by (destruct Hp as [_ [Hp _]]; exact Hp).
    pose proof Hst as (Hl & Hgc & Hol & Hoc & B1 & B2 & B3 & B4 & B5).
    destruct (negb (p_line (m_generated m) =? ss_generated_line st)) eqn:E.
    + cbn [ss_generated_line]. rewrite Hl. rewrite Hl in E. rewrite semicolon_fuel_up by lia.
      rewrite semicolon_loop_ok by lia. cbn [bind].
      cbn [ss_generated_column ss_original_column ss_original_line ss_name ss_source].
      match goal with |- context [ser_segment md S N m ?s] => set (st1 := s) end.
      assert (Eb : base (m_generated p) m = mkPos (p_line (m_generated m)) 0).
      { unfold base. destruct (p_line (m_generated m) =? p_line (m_generated p)); [discriminate|reflexivity]. }
      destruct (ser_segment_any md S N m st1 (base (m_generated p) m) orig Hm) as [seg [st' [E1 [Hg [Hst' [Hd1 [Hd2 Hd3]]]]]]].
      { rewrite Eb. unfold st_far. cbn. lia. }
      { rewrite Eb. reflexivity. }
      rewrite E1. cbn [bind]. rewrite ser_loop_acc.
      destruct (IH m st' (next_original orig m) HF Hs Hst') as [s [r [E2 [Hsep [Hcol [Hv Hgo]]]]]]. rewrite E2. cbn [bind].
      destruct (Z.to_nat (p_line (m_generated m) - p_line (m_generated p))) as [|n] eqn:En; [lia|].
      exists (([] ++ ([] ++ repeat semicolon (Datatypes.S n)) ++ seg) ++ s), (written m :: r).
      split; [reflexivity|]. split; [|split; [|split]].
      * right; right. cbn [repeat app]. eexists. reflexivity.
      * cbn [map]. apply collapsed_diff; [|exact Hcol].
        intros Hw. apply written_eq in Hw. destruct Hw as [Hw _]. rewrite Hw in E. lia.
      * cbn [app]. rewrite <- app_assoc. rewrite mid_semicolons.
        rewrite start_segment; [|exact (good_seg_text _ _ short_short Hg) | exact Hsep].
        replace (p_line (m_generated p) - 1 + Z.of_nat (Datatypes.S n)) with (p_line (m_generated m) - 1) by lia.
        change (regs_of st) with (regs_of st1). change (ss_generated_column st1) with 0 in Hd1, Hd2.
        exact (verdict_cons S N m st1 st' (m_generated p) orig seg (p_line (m_generated m) - 1) 0
                 (fun g' r' => mid_from (p_line (m_generated m) - 1) g' r' s) r Hd1 Hd2 Hv).
      * intros F. change (steps (m_generated p) orig (written m :: r)) with (steps (m_generated p) orig (m :: r)) in F.
        apply steps_near in F. destruct F as [F1 F2]. cbn [app last_line fold_left].
        fold (last_line ms (p_line (m_generated m))). rewrite <- app_assoc.
        replace (last_line ms (p_line (m_generated m)) - p_line (m_generated p) + 1) with
          (Z.of_nat (Datatypes.S n) + (last_line ms (p_line (m_generated m)) - p_line (m_generated m) + 1)) by lia.
        apply mid_good_semicolons.
        apply start_good_segment; [exact (good_seg_text _ _ short_short Hg) | exact (Hd3 F1) | exact (Hgo F2)].
    + assert (El : p_line (m_generated m) = p_line (m_generated p)) by lia.
      assert (Elast : last_line (m :: ms) (p_line (m_generated p)) - p_line (m_generated p) + 1
              = last_line ms (p_line (m_generated m)) - p_line (m_generated m) + 1).
      { cbn [last_line fold_left]. fold (last_line ms (p_line (m_generated m))). lia. }
      rewrite Elast. rewrite compare_ok by assumption. cbn [bind].
      destruct (cmpZ m p =? 0) eqn:Ec.
      * assert (Ew : written p = written m).
        { symmetry. apply written_eq. apply cmpZ_eq; try assumption. lia. }
        assert (Eg : m_generated p = m_generated m) by exact (f_equal m_generated Ew).
        destruct (IH m st orig HF Hs) as [s [r [E2 [Hsep [Hcol [Hv Hgo]]]]]]; [rewrite <- Eg; exact Hst|].
        exists s, r. split; [exact E2|]. split; [exact Hsep|]. split.
        { cbn [map]. rewrite Ew. apply collapsed_same. exact Hcol. }
        rewrite Eg. split; [exact Hv | exact Hgo].
      * assert (Eb : base (m_generated p) m = m_generated p).
        { unfold base. rewrite El, Z.eqb_refl. destruct (m_generated p); reflexivity. }
        destruct (ser_segment_any md S N m st (base (m_generated p) m) orig Hm) as [seg [st' [E1 [Hg [Hst' [Hd1 [Hd2 Hd3]]]]]]].
        { rewrite Eb. exact Hst. }
        { rewrite Eb. lia. }
        rewrite E1. cbn [bind]. rewrite ser_loop_acc.
        destruct (IH m st' (next_original orig m) HF Hs Hst') as [s [r [E2 [Hsep [Hcol [Hv Hgo]]]]]].
        rewrite E2. cbn [bind].
        exists (([] ++ lit "," ++ seg) ++ s), (written m :: r).
        split; [reflexivity|]. split; [|split; [|split]].
        { right; left. eexists. reflexivity. }
        { cbn [map]. apply collapsed_diff; [|exact Hcol].
          intros Hw. symmetry in Hw. apply written_eq in Hw. apply cmpZ_eq in Hw; try assumption. lia. }
        { change (([] ++ lit "," ++ seg) ++ s) with (comma :: seg ++ s).
          rewrite mid_segment; [|exact (good_seg_text _ _ short_short Hg) | exact Hsep]. rewrite <- El.
          exact (verdict_cons S N m st st' (m_generated p) orig seg (p_line (m_generated m) - 1) (ss_generated_column st)
                   (fun g' r' => mid_from (p_line (m_generated m) - 1) g' r' s) r Hd1 Hd2 Hv). }
        intros F. change (steps (m_generated p) orig (written m :: r)) with (steps (m_generated p) orig (m :: r)) in F.
        apply steps_near in F. destruct F as [F1 F2].
        change (([] ++ lit "," ++ seg) ++ s) with (comma :: seg ++ s).
        apply mid_good_segment; [exact (good_seg_text _ _ short_short Hg) | exact (Hd3 F1) | exact (Hgo F2)].
Qed.

Lemma far_loop_start : forall md S N ms, Forall (far_map S N) ms -> gen_sorted ms ->
  exists s r, ser_loop md S N None ms ser_init [] = Ok s /\ collapsed (map written ms) r
    /\ verdict S N (decode_mappings s) (steps (mkPos 1 0) (mkPos 1 0) r) r
    /\ (Forall near (steps (mkPos 1 0) (mkPos 1 0) r) -> start_good shortest_field s (last_line ms 1)).
Proof.
  intros md S N [|m ms] HF Hs.
  - exists [], []. split; [reflexivity|]. split; [constructor|].
    split; [|intros _; apply start_good_nil].
    split; [intros _; exists []; split; reflexivity|]. intros F. exfalso. apply F. constructor.
  - pose proof (Forall_inv HF) as Hm. pose proof Hm as [Hmv _].
    pose proof (valid_shaped _ Hmv) as [Hmw Hms].
    assert (Hlm : 1 <= p_line (m_generated m) <= 2147483647).
    { destruct Hmv as [_ [Hmv _]]. unfold line1 in Hmv. destruct Hmw as [[Hmw _] _].
      change i32_max with 2147483647 in Hmw. lia. }
    assert (Eb : base (mkPos 1 0) m = mkPos (p_line (m_generated m)) 0).
    { unfold base. cbn [p_line p_column]. destruct (p_line (m_generated m) =? 1); reflexivity. }
    assert (Elast : last_line (m :: ms) 1
              = Z.of_nat (Z.to_nat (p_line (m_generated m) - 1))
                + (last_line ms (p_line (m_generated m)) - p_line (m_generated m) + 1)).
    { cbn [last_line fold_left]. fold (last_line ms (p_line (m_generated m))). lia. }
    rewrite Elast. unfold decode_mappings.
    cbn [ser_loop ser_init ss_generated_line ss_generated_column ss_original_column ss_original_line ss_name ss_source].
    destruct (negb (p_line (m_generated m) =? 1)) eqn:E.
    + rewrite semicolon_fuel_up by lia. rewrite semicolon_loop_ok by lia. cbn [bind].
      match goal with |- context [ser_segment md S N m ?s] => set (st1 := s) end.
      destruct (ser_segment_any md S N m st1 (base (mkPos 1 0) m) (mkPos 1 0) Hm) as [seg [st' [E1 [Hg [Hst' [Hd1 [Hd2 Hd3]]]]]]].
      { rewrite Eb. unfold st_far. cbn. lia. }
      { rewrite Eb. reflexivity. }
      rewrite E1. cbn [bind]. rewrite ser_loop_acc.
      destruct (far_loop_mid md S N ms m st' _ HF Hs Hst') as [s [r [E2 [Hsep [Hcol [Hv Hgo]]]]]].
      rewrite E2. cbn [bind].
      eexists. exists (written m :: r). split; [reflexivity|]. split; [exact Hcol|].
      cbn [app]. rewrite <- app_assoc. split.
      2: { intros F. change (steps (mkPos 1 0) (mkPos 1 0) (written m :: r)) with (steps (mkPos 1 0) (mkPos 1 0) (m :: r)) in F.
           apply steps_near in F. destruct F as [F1 F2]. apply start_good_semicolons.
           apply start_good_segment; [exact (good_seg_text _ _ short_short Hg) | exact (Hd3 F1) | exact (Hgo F2)]. }
      fold (start_from 0 regs0 (repeat semicolon (Z.to_nat (p_line (m_generated m) - 1)) ++ seg ++ s)).
      rewrite start_semicolons. rewrite start_segment; [|exact (good_seg_text _ _ short_short Hg) | exact Hsep].
      replace (0 + Z.of_nat (Z.to_nat (p_line (m_generated m) - 1))) with (p_line (m_generated m) - 1) by lia.
      change regs0 with (regs_of st1). change (ss_generated_column st1) with 0 in Hd1, Hd2.
      exact (verdict_cons S N m st1 st' (mkPos 1 0) (mkPos 1 0) seg (p_line (m_generated m) - 1) 0
               (fun g' r' => mid_from (p_line (m_generated m) - 1) g' r' s) r Hd1 Hd2 Hv).
    + assert (El : p_line (m_generated m) = 1) by lia.
      destruct (ser_segment_any md S N m ser_init (base (mkPos 1 0) m) (mkPos 1 0) Hm) as [seg [st' [E1 [Hg [Hst' [Hd1 [Hd2 Hd3]]]]]]].
      { rewrite Eb, El. unfold st_far. cbn. lia. }
      { rewrite Eb. reflexivity. }
      rewrite E1. cbn [bind]. rewrite ser_loop_acc.
      destruct (far_loop_mid md S N ms m st' _ HF Hs Hst') as [s [r [E2 [Hsep [Hcol [Hv Hgo]]]]]].
      rewrite E2. cbn [bind].
      eexists. exists (written m :: r). split; [reflexivity|]. split; [exact Hcol|].
      cbn [app]. split.
      2: { intros F. change (steps (mkPos 1 0) (mkPos 1 0) (written m :: r)) with (steps (mkPos 1 0) (mkPos 1 0) (m :: r)) in F.
           apply steps_near in F. destruct F as [F1 F2].
           replace (Z.to_nat (p_line (m_generated m) - 1)) with 0%nat by lia. rewrite Z.add_0_l.
           apply start_good_segment; [exact (good_seg_text _ _ short_short Hg) | exact (Hd3 F1) | exact (Hgo F2)]. }
      fold (start_from 0 regs0 (seg ++ s)).
      rewrite start_segment; [|exact (good_seg_text _ _ short_short Hg) | exact Hsep].
      rewrite El in Hd1, Hd2, Hv. change (1 - 1) with 0 in Hd1, Hd2, Hv.
      change regs0 with (regs_of ser_init). change (ss_generated_column ser_init) with 0 in Hd1, Hd2.
      exact (verdict_cons S N m ser_init st' (mkPos 1 0) (mkPos 1 0) seg 0 0
               (fun g' r' => mid_from 0 g' r' s) r Hd1 Hd2 Hv).
Qed.

