(** * A map as the only section of an indexed map *)
From Verif Require Import F_Base M_ArraySet M_BinarySearch M_Mapping M_Util M_SourceMap M_Generator M_Json M_MapLib
  M_Consumer M_Indexed S_List S_Mapping S_MapLib S_Consumer S_Indexed S_Single F_Consumer F_Indexed.
From Coq Require Import Sorting.Permutation.

Section Single.
  Context (md : mode) (L : MapLib) (U : UrlLib) (o : SourceMapJson) (off : Position) (H0 : natural_pos off).

  Definition first_place : Position := mkPos (p_line off + 1) (p_column off + 1).
  Definition one (b : BasicConsumer L) : IndexedConsumer L := mkIC o (mkCell 0 [mkSection first_place b]).

  Lemma small_i32 : forall z, i32_min <= z <= i32_max -> checked_i32 md z = Ok z.
  Proof. intros z H. unfold checked_i32, in_i32. replace (_ && _) with true by lia. reflexivity. Qed.

  Lemma open_one : forall j url, wraps o off j ->
    ic_from_source_map_json md L U [0%nat] o url = let* b := bc_from_source_map_json md L U j url in Ok (one b).
  Proof.
    intros j url [Hv Hs]. destruct H0 as [H1 H2]. unfold ic_from_source_map_json. rewrite Hv, Hs.
    change (negb (3 =? SUPPORTED_SOURCE_MAP_VERSION)) with false.
    cbn [unwrap bind run_jobs]. change (vec_index [mkJSection off j None] (Z.of_nat 0)) with (Ok (mkJSection off j None)).
    cbn [bind]. unfold section_job. cbn [js_url is_some js_offset js_map p_line p_column].
    replace (p_line off <? -1) with false by lia. replace (p_line off =? -1) with false by lia. cbn [orb andb].
    unfold i32_add. rewrite !small_i32 by (unfold i32_min, i32_max in *; lia). cbn [bind].
    destruct (bc_from_source_map_json md L U j url) as [b|p]; reflexivity.
  Qed.

  Lemma inside_iff : forall g, is_inside off g = true <-> starts_before off g.
  Proof. intros g. unfold is_inside, starts_before. lia. Qed.

  Lemma rel_one : forall g, mkPos (p_line g - (p_line first_place - 1))
      (p_column g - (if p_line first_place =? p_line g then p_column first_place - 1 else 0)) = relative_position off g.
  Proof.
    intros g. unfold relative_position, first_place. cbn [p_line p_column]. destruct (p_line off + 1 =? p_line g); f_equal; lia.
  Qed.

  (** the search in one section *)
  Lemma search_one : forall g b, real_position g ->
    search md g [mkSection first_place b] (cmp_needle_section md L) (cmp_section_section md L) None
    = Ok (if is_inside off g then 0 else -1).
  Proof.
    intros g b [G1 G2]. destruct H0 as [H1 H2]. unfold search. cbn [List.length recursive_search].
    change (len [mkSection first_place b]) with 1. change (to_i32 1) with 1.
    unfold i32_sub at 1. rewrite small_i32 by (unfold i32_min, i32_max; lia). cbn [bind].
    change (Z.quot (1 - -1) 2) with 1. unfold i32_add at 1. rewrite small_i32 by (unfold i32_min, i32_max; lia). cbn [bind].
    change (1 + -1) with 0. change (vec_index [mkSection first_place b] (to_usize 0)) with (Ok (mkSection first_place b)). cbn [bind].
    unfold cmp_needle_section at 1. cbn [sec_generated_offset first_place p_line p_column]. unfold i32_sub at 1 2 3.
    rewrite small_i32 by (unfold i32_min, i32_max in *; lia). cbn [bind].
    assert (E : exists cmp, (if negb (p_line g - (p_line off + 1) =? 0) then Ok (p_line g - (p_line off + 1))
              else checked_i32 md (p_column g - (p_column off + 1))) = Ok cmp
            /\ (cmp <? 0) = negb (is_inside off g)).
    { unfold is_inside. destruct (negb (p_line g - (p_line off + 1) =? 0)) eqn:E; eexists; (split; [first [reflexivity | apply small_i32; unfold i32_min, i32_max in *; lia]|]); lia. }
    destruct E as [cmp [-> Hc]]. cbn [bind]. destruct (cmp =? 0) eqn:E0.
    - replace (is_inside off g) with true by (destruct (is_inside off g); [reflexivity | cbn in Hc; lia]). cbn [bind]. reflexivity.
    - destruct (0 <? cmp) eqn:E1.
      + replace (is_inside off g) with true by (destruct (is_inside off g); [reflexivity | cbn in Hc; lia]).
        unfold i32_sub. rewrite small_i32 by (unfold i32_min, i32_max; lia). cbn [bind]. reflexivity.
      + replace (is_inside off g) with false by (destruct (is_inside off g); [cbn in Hc; lia | reflexivity]).
        unfold i32_sub. rewrite small_i32 by (unfold i32_min, i32_max; lia). cbn [bind]. reflexivity.
  Qed.

  Lemma original_one : forall b g bias, real_position g ->
    ic_original_position_for md L (one b) g bias
    = if is_inside off g then let* r := bc_original_position_for md L b (relative_position off g) bias in Ok (fst r, one (snd r))
      else Ok (None, one b).
  Proof.
    intros b g bias Hg. unfold ic_original_position_for, rc_borrow, rc_borrow_mut, rc_release, rc_release_mut, one.
    cbn [ic_sections rc_flag rc_val bind Z.ltb Z.compare]. rewrite search_one by exact Hg. cbn [bind rc_flag Z.add Z.sub Z.opp Z.eqb Z.pos_sub rc_val].
    destruct (is_inside off g) eqn:E; [|reflexivity].
    change (vec_get [mkSection first_place b] (to_usize 0)) with (Some (mkSection first_place b)).
    cbn [sec_generated_offset sec_consumer]. destruct H0 as [H1 H2], Hg as [G1 G2].
    rewrite <- rel_one. unfold first_place. cbn [p_line p_column]. unfold i32_sub.
    rewrite (small_i32 (p_line off + 1 - 1)) by (unfold i32_min, i32_max in *; lia). cbn [bind].
    rewrite (small_i32 (p_line g - (p_line off + 1 - 1))) by (unfold i32_min, i32_max in *; lia). cbn [bind].
    assert (S1 : (if p_line off + 1 =? p_line g then checked_i32 md (p_column off + 1 - 1) else Ok 0)
                 = Ok (if p_line off + 1 =? p_line g then p_column off + 1 - 1 else 0)).
    { destruct (p_line off + 1 =? p_line g); [|reflexivity]. apply small_i32. unfold i32_min, i32_max in *; lia. }
    rewrite S1. cbn [bind]. rewrite small_i32 by (unfold i32_min, i32_max in *; destruct (p_line off + 1 =? p_line g); lia). cbn [bind].
    destruct (bc_original_position_for md L b _ bias) as [[a bc]|p]; reflexivity.
  Qed.

  Lemma content_one : forall b s p, ic_source_content_for md L U (one b) s p
    = let* r := bc_source_content_for md L U b s p in
      match fst r with
      | Some t => Ok (Some t, one (snd r))
      | None => if match p with Some false => false | _ => true end then Panic PMissing else Ok (None, one (snd r))
      end.
  Proof.
    intros b s p. unfold ic_source_content_for, rc_borrow_mut, one. cbn [ic_sections rc_flag rc_val Z.eqb bind source_content_loop sec_consumer sec_generated_offset].
    destruct (bc_source_content_for md L U b s p) as [[[t|] bc]|e]; [reflexivity| |reflexivity].
    destruct p as [[|]|]; reflexivity.
  Qed.

  Lemma inner_one : forall l n b, smj_sources (bc_source_map b) = Some l -> 0 <= n -> forall k acc, (k <= length l)%nat ->
    get_sources_inner L (mkCell n [mkSection first_place b]) 0 (seq (length l - k) k) acc
    = Ok (acc ++ skipn (length l - k) l, mkCell n [mkSection first_place b]).
  Proof.
    intros l n b Hl Hn. induction k as [|k IH]; intros acc Hk.
    - rewrite Nat.sub_0_r, skipn_all, app_nil_r. reflexivity.
    - cbn [seq get_sources_inner]. unfold rc_borrow. cbn [rc_flag rc_val]. replace (n <? 0) with false by lia. cbn [bind rc_val].
      change (sources_of_section L [mkSection first_place b] 0) with (unwrap (smj_sources (bc_source_map b))). rewrite Hl. cbn [unwrap bind].
      destruct (nth_error l (length l - S k)) as [x|] eqn:Ex; [|apply nth_error_None in Ex; lia].
      assert (Ev : vec_index l (Z.of_nat (length l - S k)) = Ok x).
      { unfold vec_index, vec_get, len. replace (_ && _) with true by lia. rewrite Nat2Z.id, Ex. reflexivity. }
      rewrite Ev. cbn [bind]. unfold rc_release. cbn [rc_flag rc_val]. replace (n + 1 - 1) with n by lia.
      replace (S (length l - S k)) with (length l - k)%nat by lia. rewrite IH by lia.
      replace (length l - k)%nat with (S (length l - S k)) by lia. f_equal. f_equal. rewrite <- app_assoc. f_equal. cbn [app].
      clear - Ex. revert Ex. generalize (length l - S k)%nat as i. induction l as [|y l IH]; intros [|i] E; cbn in *; try discriminate.
      + injection E as ->. reflexivity.
      + apply IH. exact E.
  Qed.

  Lemma sources_one : forall b l, smj_sources (bc_source_map b) = Some l -> ic_get_sources L (one b) = Ok (l, one b).
  Proof.
    intros b l Hl. unfold ic_get_sources, rc_borrow, one. cbn [ic_sections rc_flag rc_val Z.ltb Z.compare bind List.length seq get_sources_outer].
    unfold rc_borrow. cbn [rc_flag rc_val Z.add Z.ltb Z.compare bind].
    change (sources_of_section L [mkSection first_place b] 0) with (unwrap (smj_sources (bc_source_map b))). rewrite Hl. cbn [unwrap bind].
    replace (seq 0 (length l)) with (seq (length l - length l) (length l)) by (rewrite Nat.sub_diag; reflexivity).
    rewrite (inner_one l _ b Hl) by lia. rewrite Nat.sub_diag. reflexivity.
  Qed.

  Lemma has_one : forall b, ic_has_contents_of_all_sources L (one b)
    = let* x := bc_has_contents_of_all_sources L b in Ok (x, one b).
  Proof.
    intros b. unfold ic_has_contents_of_all_sources, rc_borrow, one. cbn [ic_sections rc_flag rc_val Z.ltb Z.compare bind allM sec_consumer].
    destruct (bc_has_contents_of_all_sources L b) as [[|]|p]; reflexivity.
  Qed.

  Lemma spans_one : forall b, ic_computed_column_spans L (one b) = let* b' := bc_compute_column_spans L b in Ok (one b').
  Proof.
    intros b. unfold ic_computed_column_spans, rc_borrow_mut, one. cbn [ic_sections rc_flag rc_val Z.eqb bind mapM sec_consumer sec_generated_offset].
    destruct (bc_compute_column_spans L b); reflexivity.
  Qed.

  Lemma find_one : forall b s, ic_find_source_index md L U (one b) s = Panic PBorrowMut.
  Proof. intros b s. apply find_panics; [reflexivity | discriminate]. Qed.
  Lemma each_one : forall b ord, ic_each_mapping md L (one b) ord = Panic PBorrow.
  Proof.
    intros b ord. destruct H0 as [H1 H2]. eapply each_panics; [reflexivity | reflexivity | |]; eexists; unfold i32_sub; apply small_i32; cbn;
      unfold i32_min, i32_max in *; lia.
  Qed.

  Lemma one_step : forall b q c l, smj_sources (bc_source_map b) = Some l -> real_call q -> iask md L U (one b) q = Ok c ->
    exists b', c = one b' /\ asked md L U b (asks_inside off q) = Ok b'.
  Proof.
    intros b q c l Hl Hq H. destruct q as [|g bias| |s p|s line col bias|s line col| |ord]; cbn [iask asks_inside real_call] in *.
    - rewrite (sources_one b l Hl) in H. cbn in H. inv H. exists b. split; reflexivity.
    - rewrite original_one in H by exact Hq. destruct (is_inside off g).
      + cbn [asked ask]. destruct (bc_original_position_for md L b (relative_position off g) bias) as [[a b']|e]; [|discriminate].
        cbn in H. inv H. exists b'. split; reflexivity.
      + cbn in H. inv H. exists b. split; reflexivity.
    - rewrite has_one in H. destruct (bc_has_contents_of_all_sources L b); [|discriminate]. cbn in H. inv H. exists b. split; reflexivity.
    - rewrite content_one in H. cbn [asked ask]. destruct (bc_source_content_for md L U b s p) as [[[t|] b']|e]; [| |discriminate]; cbn in H.
      + inv H. exists b'. split; reflexivity.
      + destruct p as [[|]|]; cbn in H; try discriminate. inv H. exists b'. split; reflexivity.
    - unfold ic_generated_position_for in H. rewrite (find_one b s) in H. discriminate.
    - unfold ic_all_generated_position_for in H. rewrite (find_one b s) in H. discriminate.
    - rewrite spans_one in H. cbn [asked ask]. destruct (bc_compute_column_spans L b) as [b'|e]; [|discriminate]. cbn in H. inv H.
      exists b'. split; reflexivity.
    - rewrite each_one in H. discriminate.
  Qed.

  Lemma asked_two : forall qs qs' b b1, asked md L U b qs = Ok b1 -> asked md L U b (qs ++ qs') = asked md L U b1 qs'.
  Proof.
    induction qs as [|q qs IH]; intros qs' b b1 H; cbn in *; [inv H; reflexivity|].
    destruct (ask md L U b q); [|discriminate]. cbn in *. apply IH. exact H.
  Qed.

  Lemma one_history : forall b0 l, opened md L U b0 -> smj_sources (bc_source_map b0) = Some l ->
    forall qs b c, follows md L U b0 b -> Forall real_call qs -> iasked md L U (one b) qs = Ok c ->
    exists b', c = one b' /\ asked md L U b (flat_map (asks_inside off) qs) = Ok b' /\ follows md L U b0 b'.
  Proof.
    intros b0 l Ho Hl. induction qs as [|q qs IH]; intros b c Hf Hq H.
    - cbn in H. inv H. exists b. auto.
    - inv Hq. cbn [iasked] in H. destruct (iask md L U (one b) q) as [c1|e] eqn:E; [|discriminate]. cbn [bind] in H.
      assert (Hb : smj_sources (bc_source_map b) = Some l) by (rewrite (fo_map _ _ _ _ _ Hf); exact Hl).
      destruct (one_step b q c1 l Hb ltac:(assumption) E) as [b1 [-> E1]].
      assert (Hf1 : follows md L U b0 b1) by (exact (asked_follows md L U b0 _ b b1 (opened_fresh md L U b0 Ho) Hf E1)).
      destruct (IH b1 c Hf1 ltac:(assumption) H) as [b' [-> [E2 Hf2]]]. exists b'. split; [reflexivity|]. split; [|exact Hf2].
      cbn [flat_map]. rewrite (asked_two _ _ _ _ E1). exact E2.
  Qed.

  Lemma through_one : forall j b l, smj_sources j = Some l -> bc_source_map b = j -> answers_through md L U off j b (one b).
  Proof.
    intros j b l Hl Hj. constructor.
    - intros g bias Hg Hi. rewrite original_one by exact Hg. apply inside_iff in Hi. rewrite Hi.
      destruct (bc_original_position_for md L b (relative_position off g) bias) as [[a b']|e]; reflexivity.
    - intros g bias Hg Hi. rewrite original_one by exact Hg. destruct (is_inside off g) eqn:E; [|reflexivity].
      apply inside_iff in E. contradiction.
    - exists l. split; [exact Hl|]. rewrite (sources_one b l) by (rewrite Hj; exact Hl). reflexivity.
    - rewrite has_one. destruct (bc_has_contents_of_all_sources L b); reflexivity.
    - intros s p. rewrite content_one. destruct (bc_source_content_for md L U b s p) as [[[t|] b']|e]; [reflexivity| |reflexivity].
      cbn. destruct p as [[|]|]; reflexivity.
    - intros. unfold ic_generated_position_for. rewrite find_one. reflexivity.
    - intros. unfold ic_all_generated_position_for. rewrite find_one. reflexivity.
    - intros. rewrite each_one. reflexivity.
  Qed.
End Single.

Lemma opened_alike : forall md L U o off j url, natural_pos off -> wraps o off j ->
  match bc_from_source_map_json md L U j url with
  | Ok _ => exists c, ic_from_source_map_json md L U [0%nat] o url = Ok c
  | Panic p => ic_from_source_map_json md L U [0%nat] o url = Panic p
  end.
Proof.
  intros md L U o off j url H0 Hw. rewrite (open_one md L U o off H0 j url Hw).
  destruct (bc_from_source_map_json md L U j url) as [b|p]; [eexists|]; reflexivity.
Qed.

Lemma single_history : forall md L U o off j url b0 c0 qs c, natural_pos off -> wraps o off j ->
  bc_from_source_map_json md L U j url = Ok b0 -> ic_from_source_map_json md L U [0%nat] o url = Ok c0 ->
  Forall real_call qs -> iasked md L U c0 qs = Ok c ->
  exists b, asked md L U b0 (flat_map (asks_inside off) qs) = Ok b /\ answers_through md L U off j b c.
Proof.
  intros md L U o off j url b0 c0 qs c H0 Hw Eb Ec Hq H.
  rewrite (open_one md L U o off H0 j url Hw), Eb in Ec. cbn [bind] in Ec. inv Ec.
  assert (Ho : opened md L U b0) by (right; exists j, url; exact Eb).
  assert (Hm : bc_source_map b0 = j /\ exists l, smj_sources j = Some l).
  { unfold bc_from_source_map_json, compute_absolute_sources in Eb. destruct (smj_sources j) as [l|]; [|discriminate]. cbn [unwrap bind] in Eb.
    destruct (mapM _ l); [|discriminate]. cbn in Eb. inv Eb. split; [reflexivity | eauto]. }
  destruct Hm as [Hm [l Hl]].
  assert (Hl' : smj_sources (bc_source_map b0) = Some l) by (rewrite Hm; exact Hl).
  destruct (one_history md L U o off H0 b0 l Ho Hl' qs b0 c (follows_refl md L U b0 (opened_fresh md L U b0 Ho)) Hq H) as [b [-> [Eb' Hf]]].
  exists b. split; [exact Eb'|]. apply (through_one md L U o off H0 j b l Hl). rewrite (fo_map _ _ _ _ _ Hf). exact Hm.
Qed.

(** at the very start *)
Lemma at_start : forall g, real_position g -> g <> mkPos 1 0 ->
  starts_before (mkPos 0 0) g /\ relative_position (mkPos 0 0) g = g.
Proof.
  intros [l c] [H1 H2] Hn. cbn [p_line p_column] in *. unfold starts_before, relative_position. cbn [p_line p_column]. split.
  - destruct (Z.eq_dec l 1) as [->|]; [|lia]. right. split; [lia|]. destruct (Z.eq_dec c 0) as [->|]; [contradiction | lia].
  - f_equal; [lia|]. destruct (0 + 1 =? l); lia.
Qed.
Lemma single_at_start : forall md L U o j url b0 c0 qs c g bias, wraps o (mkPos 0 0) j ->
  bc_from_source_map_json md L U j url = Ok b0 -> ic_from_source_map_json md L U [0%nat] o url = Ok c0 ->
  Forall real_call qs -> iasked md L U c0 qs = Ok c -> real_position g ->
  exists b, asked md L U b0 (flat_map (asks_inside (mkPos 0 0)) qs) = Ok b
  /\ (g <> mkPos 1 0 -> answer (ic_original_position_for md L c g bias) = answer (bc_original_position_for md L b g bias))
  /\ (g = mkPos 1 0 -> answer (ic_original_position_for md L c g bias) = Ok None).
Proof.
  intros md L U o j url b0 c0 qs c g bias Hw Eb Ec Hq H Hg.
  assert (H0 : natural_pos (mkPos 0 0)) by (unfold natural_pos, i32_max; cbn; lia).
  destruct (single_history md L U o _ j url b0 c0 qs c H0 Hw Eb Ec Hq H) as [b [Eb' A]]. exists b. split; [exact Eb'|]. split.
  - intros Hn. destruct (at_start g Hg Hn) as [X Y].
    rewrite (at_inside _ _ _ _ _ _ _ A g bias Hg X), Y. reflexivity.
  - intros ->. apply (at_outside _ _ _ _ _ _ _ A); [exact Hg|]. unfold starts_before. cbn. lia.
Qed.
