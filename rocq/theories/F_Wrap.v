(** * Lemmas for C88 *)
From Verif Require Import Base M_BinarySearch M_Mapping M_SourceMap M_Util M_Json M_MapLib M_Consumer M_Indexed S_Consumer S_Indexed S_Wrap F_Base.

Section Wrap.
  Context (md : mode) (L : MapLib) (U : UrlLib).

  Definition holds (c : IndexedConsumer L) (b : BasicConsumer L) : Prop :=
    ic_sections c = mkCell 0 [mkSection (mkPos 1 1) b].

  Lemma wrap_opens : forall j m url, wraps j m ->
    match bc_from_source_map_json md L U m url with
    | Ok b => exists c, ic_from_source_map_json md L U [0%nat] j url = Ok c /\ holds c b
    | Panic p => ic_from_source_map_json md L U [0%nat] j url = Panic p
    end.
  Proof.
    intros j m url [V S]. unfold ic_from_source_map_json. rewrite V, S. cbn.
    destruct (bc_from_source_map_json md L U m url) as [b|p]; cbn; [|destruct md; reflexivity].
    exists (mkIC j (mkCell 0 [mkSection (mkPos 1 1) b])). split; [destruct md; reflexivity|reflexivity].
  Qed.

  Lemma search_one : forall (needle : Position) (x : Section L) c1 c2,
    search md needle [x] c1 c2 None = let* cmp := c1 needle x in Ok (if cmp <? 0 then -1 else 0).
  Proof.
    intros needle x c1 c2. destruct md; cbn; destruct (c1 needle x) as [cmp|p]; cbn; try reflexivity;
      destruct cmp; reflexivity.
  Qed.

  Lemma wrap_original : forall c b g bias, holds c b -> in_range g ->
    ic_original_position_for md L c g bias
    = if past_start g then
        match bc_original_position_for md L b g bias with
        | Ok (a, b') => Ok (a, ic_set_sections L c (mkCell 0 [mkSection (mkPos 1 1) b']))
        | Panic p => Panic p
        end
      else Ok (None, c).
  Proof.
    intros c b g bias H [Hl Hc]. unfold ic_original_position_for. rewrite H. unfold rc_borrow. cbn [rc_flag rc_val].
    change (0 <? 0) with false. cbv iota. cbn [bind]. cbn [rc_flag rc_val]. rewrite search_one.
    assert (Ec : cmp_needle_section md L g (mkSection (mkPos 1 1) b)
      = Ok (if p_line g - 1 =? 0 then p_column g - 1 else p_line g - 1)).
    { unfold cmp_needle_section. cbn [sec_generated_offset p_line p_column]. unfold i32_min, i32_max in *.
      rewrite !i32_sub_ok by lia. cbn [bind]. destruct (p_line g - 1 =? 0); reflexivity. }
    rewrite Ec. cbn [bind].
    assert (Ei : (if (if p_line g - 1 =? 0 then p_column g - 1 else p_line g - 1) <? 0 then -1 else 0)
      = if past_start g then 0 else -1).
    { unfold past_start. destruct (Z.eqb_spec (p_line g - 1) 0) as [E|E].
      - replace (p_line g) with 1 by lia. cbn. destruct (Z.ltb_spec (p_column g - 1) 0), (Z.leb_spec 1 (p_column g)); lia || reflexivity.
      - destruct (Z.ltb_spec (p_line g - 1) 0), (Z.ltb_spec 1 (p_line g)), (Z.eqb_spec (p_line g) 1); cbn; lia || reflexivity. }
    rewrite Ei. destruct (past_start g) eqn:Es.
    - cbn [rc_release rc_borrow_mut rc_flag rc_val bind]. cbn -[i32_sub bc_original_position_for].
      replace (i32_sub md 1 1) with (Ok (A:=Z) 0) by (destruct md; reflexivity).
      assert (Sh : forall x : bool, (if x then Ok (A:=Z) 0 else Ok 0) = Ok 0) by (intros []; reflexivity).
      rewrite Sh. unfold bind at 1. unfold i32_min, i32_max in *.
      rewrite (i32_sub_ok md (p_line g) 0) by lia. unfold bind at 1 2. rewrite (i32_sub_ok md (p_column g) 0) by lia.
      unfold bind at 1. rewrite !Z.sub_0_r. destruct g as [gl gc]. cbn [p_line p_column].
      destruct (bc_original_position_for md L b _ bias) as [[a b']|p]; reflexivity.
    - cbn. destruct c as [j cell]. cbn in H. rewrite H. reflexivity.
  Qed.

  Lemma wrap_content : forall c b s p, holds c b ->
    ic_source_content_for md L U c s p
    = match bc_source_content_for md L U b s p with
      | Ok (Some a, b') => Ok (Some a, ic_set_sections L c (mkCell 0 [mkSection (mkPos 1 1) b']))
      | Ok (None, b') => if match p with Some x => x | None => true end then Panic PMissing
                         else Ok (None, ic_set_sections L c (mkCell 0 [mkSection (mkPos 1 1) b']))
      | Panic k => Panic k
      end.
  Proof.
    intros c b s p H. unfold ic_source_content_for. rewrite H. cbn.
    destruct (bc_source_content_for md L U b s p) as [[[a|] b']|k]; reflexivity.
  Qed.

  Lemma wrap_contents : forall c b, holds c b ->
    ic_has_contents_of_all_sources L c = let* x := bc_has_contents_of_all_sources L b in Ok (x, c).
  Proof.
    intros c b H. unfold ic_has_contents_of_all_sources. rewrite H. cbn.
    destruct (bc_has_contents_of_all_sources L b) as [[|]|k]; cbn; try reflexivity;
      destruct c as [j cell]; cbn in H; rewrite H; reflexivity.
  Qed.

  Lemma wrap_spans : forall c b, holds c b ->
    ic_computed_column_spans L c = let* b' := bc_compute_column_spans L b in Ok (ic_set_sections L c (mkCell 0 [mkSection (mkPos 1 1) b'])).
  Proof.
    intros c b H. unfold ic_computed_column_spans. rewrite H. cbn.
    destruct (bc_compute_column_spans L b) as [b'|k]; reflexivity.
  Qed.

  Lemma cell_back : forall (cell : RefCell (list (Section L))), mkCell (rc_flag cell + 1 - 1) (rc_val cell) = cell.
  Proof. intros [f v]. cbn. f_equal. lia. Qed.

  Lemma inner_cell : forall js cell i acc r cell', get_sources_inner L cell i js acc = Ok (r, cell') -> cell' = cell.
  Proof.
    induction js as [|k js IH]; intros cell i acc r cell' H; cbn in H; [congruence|].
    unfold rc_borrow in H. destruct (rc_flag cell <? 0); [discriminate|]. cbn in H.
    destruct (sources_of_section L (rc_val cell) i) as [l|]; [|discriminate]. cbn in H.
    destruct (vec_index l (Z.of_nat k)) as [x|]; [|discriminate]. cbn in H.
    unfold rc_release in H. cbn in H. rewrite cell_back in H. eapply IH; exact H.
  Qed.

  Lemma outer_cell : forall is cell acc r cell', get_sources_outer L cell is acc = Ok (r, cell') -> cell' = cell.
  Proof.
    induction is as [|i is IH]; intros cell acc r cell' H; cbn in H; [congruence|].
    unfold rc_borrow in H. destruct (rc_flag cell <? 0); [discriminate|]. cbn in H.
    destruct (sources_of_section L (rc_val cell) i) as [l|]; [|discriminate]. cbn in H.
    destruct (get_sources_inner L (mkCell (rc_flag cell + 1) (rc_val cell)) i (seq 0 (List.length l)) acc) as [[r1 c1]|] eqn:E; [|discriminate].
    apply inner_cell in E. subst c1. cbn in H. unfold rc_release in H. cbn in H. rewrite cell_back in H. eapply IH; exact H.
  Qed.

  Lemma sources_state : forall c r c', ic_get_sources L c = Ok (r, c') -> c' = c.
  Proof.
    intros [j cell] r c' H. unfold ic_get_sources in H. cbn in H. unfold rc_borrow in H.
    destruct (rc_flag cell <? 0); [discriminate|]. cbn in H.
    destruct (get_sources_outer L (mkCell (rc_flag cell + 1) (rc_val cell)) (seq 0 (List.length (rc_val cell))) []) as [[r1 c1]|] eqn:E; [|discriminate].
    apply outer_cell in E. subst c1. cbn in H. unfold rc_release, ic_set_sections in H. cbn in H. rewrite cell_back in H. congruence.
  Qed.

  Lemma wrap_asked : forall qs c b c', holds c b -> Forall call_in_range qs -> iasked md L U c qs = Ok c' ->
    exists b', asked md L U b (flat_map passed_on qs) = Ok b' /\ holds c' b'.
  Proof.
    induction qs as [|q qs IH]; intros c b c' H HF HA.
    { cbn in HA. injection HA as <-. exists b. split; [reflexivity|exact H]. }
    cbn [iasked] in HA. destruct (iask md L U c q) as [c1|] eqn:E; [|discriminate]. cbn [bind] in HA.
    inversion HF as [|q' qs' Hq HF']; subst q' qs'. cbn [flat_map].
    assert (St : exists b1, asked md L U b (passed_on q) = Ok b1 /\ holds c1 b1).
    { destruct q as [|g bias| |s p|s l co bias|s l co| |o]; cbn [iask passed_on] in *.
      - destruct (ic_get_sources L c) as [[r c2]|] eqn:E2; [|discriminate]. apply sources_state in E2. cbn in E.
        exists b. split; [reflexivity|]. congruence.
      - rewrite (wrap_original c b g bias H Hq) in E. destruct (past_start g).
        + cbn [asked ask]. destruct (bc_original_position_for md L b g bias) as [[a b1]|]; [|discriminate]. cbn in E.
          exists b1. split; [reflexivity|]. injection E as <-. reflexivity.
        + cbn in E. exists b. split; [reflexivity|congruence].
      - rewrite (wrap_contents c b H) in E. destruct (bc_has_contents_of_all_sources L b); [|discriminate]. cbn in E.
        exists b. split; [reflexivity|congruence].
      - rewrite (wrap_content c b s p H) in E. cbn [asked ask].
        destruct (bc_source_content_for md L U b s p) as [[[a|] b1]|]; [| |discriminate].
        + exists b1. split; [reflexivity|]. cbn in E. injection E as <-. reflexivity.
        + exists b1. split; [reflexivity|]. destruct (match p with Some x => x | None => true end); [discriminate|].
          cbn in E. injection E as <-. reflexivity.
      - exfalso. revert E. unfold ic_generated_position_for, ic_find_source_index. rewrite H. cbn. discriminate.
      - exfalso. revert E. unfold ic_all_generated_position_for, ic_find_source_index. rewrite H. cbn. discriminate.
      - rewrite (wrap_spans c b H) in E. cbn [asked ask].
        destruct (bc_compute_column_spans L b) as [b1|]; [|discriminate]. cbn in E. exists b1. split; [reflexivity|].
        injection E as <-. reflexivity.
      - exfalso. revert E. unfold ic_each_mapping. rewrite H. cbn. destruct md; cbn; discriminate. }
    destruct St as [b1 [E1 H1]]. destruct (IH c1 b1 c' H1 HF' HA) as [b' [E' H']].
    exists b'. split; [|exact H'].
    assert (App : forall x y b, asked md L U b (x ++ y) = let* b := asked md L U b x in asked md L U b y).
    { clear. induction x as [|q x IHx]; intros y b; [reflexivity|]. cbn. destruct (ask md L U b q); cbn; [apply IHx|reflexivity]. }
    rewrite App, E1. exact E'.
  Qed.

  (** C88 *)
  Lemma wrap_same : forall j m url qs c0 c, wraps j m -> Forall call_in_range qs ->
    ic_from_source_map_json md L U [0%nat] j url = Ok c0 -> iasked md L U c0 qs = Ok c ->
    exists b0 b, bc_from_source_map_json md L U m url = Ok b0
      /\ asked md L U b0 (flat_map passed_on qs) = Ok b
      /\ (forall g bias, in_range g ->
            answer (ic_original_position_for md L c g bias)
            = if past_start g then answer (bc_original_position_for md L b g bias) else Ok None)
      /\ answer (ic_has_contents_of_all_sources L c) = bc_has_contents_of_all_sources L b
      /\ (forall s p, answer (ic_source_content_for md L U c s p)
            = match answer (bc_source_content_for md L U b s p), p with
              | Ok None, Some false => Ok None
              | Ok None, _ => Panic PMissing
              | a, _ => a
              end).
  Proof.
    intros j m url qs c0 c Hw HF Ho Ha. pose proof (wrap_opens j m url Hw) as O.
    destruct (bc_from_source_map_json md L U m url) as [b0|]; [|congruence]. destruct O as [c1 [E H]].
    assert (c1 = c0) by congruence. subst c1. destruct (wrap_asked qs c0 b0 c H HF Ha) as [b [E' H']].
    exists b0, b. split; [reflexivity|]. split; [exact E'|]. split; [|split].
    - intros g bias Hg. rewrite (wrap_original c b g bias H' Hg). destruct (past_start g); [|reflexivity].
      destruct (bc_original_position_for md L b g bias) as [[a b']|]; reflexivity.
    - rewrite (wrap_contents c b H'). destruct (bc_has_contents_of_all_sources L b); reflexivity.
    - intros s p. rewrite (wrap_content c b s p H').
      destruct (bc_source_content_for md L U b s p) as [[[a|] b']|]; [reflexivity| |reflexivity].
      destruct p as [[|]|]; reflexivity.
  Qed.
End Wrap.

Section Texts.
  Context (md : mode) (L : MapLib) (U : UrlLib).

  Lemma one_job : forall order, schedule order 1 -> order = [0%nat].
  Proof. intros order H. apply Permutation.Permutation_sym, Permutation.Permutation_length_1_inv in H. exact H. Qed.

  Lemma created_wrapped : forall order s j m url, wraps j m -> schedule order 1 -> smj_from_str s = Some j ->
    create_consumer md L U order s url
    = let* c := ic_from_source_map_json md L U [0%nat] j url in Ok (Some (CIndexed c)).
  Proof.
    intros order s j m url [V S] Ho Hs. apply one_job in Ho. subst order. unfold create_consumer. rewrite Hs, S. reflexivity.
  Qed.

  Lemma created_plain : forall order t m url, smj_sections m = None -> smj_from_str t = Some m ->
    create_consumer md L U order t url
    = let* c := bc_from_source_map_json md L U m url in Ok (Some (CBasic c)).
  Proof. intros order t m url S Ht. unfold create_consumer. rewrite Ht, S. reflexivity. Qed.

  Lemma wrap_created : forall order order' s t j m url, smj_from_str s = Some j -> smj_from_str t = Some m ->
    smj_sections m = None -> wraps j m -> schedule order 1 ->
    (exists c b, create_consumer md L U order s url = Ok (Some (CIndexed c))
                 /\ create_consumer md L U order' t url = Ok (Some (CBasic b)))
    \/ (exists p, create_consumer md L U order s url = Panic p /\ create_consumer md L U order' t url = Panic p).
  Proof.
    intros order order' s t j m url Hs Ht Hm Hw Ho.
    rewrite (created_wrapped order s j m url Hw Ho Hs), (created_plain order' t m url Hm Ht).
    pose proof (wrap_opens md L U j m url Hw) as O.
    destruct (bc_from_source_map_json md L U m url) as [b|p].
    - destruct O as [c [-> _]]. left. exists c, b. split; reflexivity.
    - rewrite O. right. exists p. split; reflexivity.
  Qed.

  Lemma wrap_answers : forall order order' s t j m url qs c0 c, smj_from_str s = Some j -> smj_from_str t = Some m ->
    smj_sections m = None -> wraps j m -> schedule order 1 -> Forall call_in_range qs ->
    create_consumer md L U order s url = Ok (Some (CIndexed c0)) -> iasked md L U c0 qs = Ok c ->
    exists b0 b, create_consumer md L U order' t url = Ok (Some (CBasic b0))
      /\ asked md L U b0 (flat_map passed_on qs) = Ok b
      /\ (forall g bias, in_range g ->
            answer (ic_original_position_for md L c g bias)
            = if past_start g then answer (bc_original_position_for md L b g bias) else Ok None)
      /\ answer (ic_has_contents_of_all_sources L c) = bc_has_contents_of_all_sources L b
      /\ (forall src p, answer (ic_source_content_for md L U c src p)
            = match answer (bc_source_content_for md L U b src p), p with
              | Ok None, Some false => Ok None
              | Ok None, _ => Panic PMissing
              | a, _ => a
              end).
  Proof.
    intros order order' s t j m url qs c0 c Hs Ht Hm Hw Ho HF Hc Ha.
    rewrite (created_wrapped order s j m url Hw Ho Hs) in Hc.
    destruct (ic_from_source_map_json md L U [0%nat] j url) as [c1|] eqn:E; [|discriminate]. cbn in Hc.
    assert (c1 = c0) by congruence. subst c1.
    destruct (wrap_same md L U j m url qs c0 c Hw HF E Ha) as [b0 [b [E0 R]]].
    exists b0, b. split; [|exact R]. rewrite (created_plain order' t m url Hm Ht), E0. reflexivity.
  Qed.
End Texts.
