(** * From generated to original positions and back *)
From Verif Require Import F_Base M_ArraySet M_Mapping M_Util M_SourceMap M_Json M_MapLib M_Consumer
  S_List S_MapLib S_Consumer S_Back F_Consumer F_ConsumerProps.
From Coq Require Import Sorting.Sorted Sorting.Permutation.

Section Back.
  Context (md : mode) (L : MapLib) (U : UrlLib) (HL : MapLibOk L).

  Lemma reports_some : forall c0 qs c, opened md L U c0 -> asked md L U c0 qs = Ok c ->
    readable L (bc_source_map c0) -> exists l, reports L c l.
  Proof.
    intros c0 qs c Ho Ha Hr. destruct (history md L U _ _ _ Ho Ha) as [Hf Hc].
    destruct (ensure_cases md L U _ _ Hc) as [[s1 [t [E [Es1 Hs]]]]|[E [Hn Em]]]; [|contradiction].
    eexists. apply (proj2 (reports_iff md L U _ _ _ _ _ Hc E)). reflexivity.
  Qed.

  Lemma small_stripped : forall l l', map strip l = map strip l' -> Forall raw_i31 l' -> Forall raw_i31 l.
  Proof.
    induction l as [|m l IH]; intros [|m' l'] E H; try discriminate; [constructor|].
    cbn [map] in E. injection E as E1 E2 E3 E4. inv H. constructor; [|eapply IH; eassumption].
    unfold raw_i31 in *. rewrite E1, E2, E3. exact H2.
  Qed.

  (** a consumer later on reports the same, up to last columns *)
  Lemma reports_later : forall c0 qs c l0, opened md L U c0 -> asked md L U c0 qs = Ok c ->
    readable L (bc_source_map c0) -> reports L c0 l0 -> Forall raw_i31 l0 ->
    exists l, reports L c l /\ map strip l = map strip l0 /\ Forall raw_i31 l /\ Forall raw_u32 l.
  Proof.
    intros c0 qs c l0 Ho Ha Hr R0 Hi.
    destruct (reports_some _ _ _ Ho Ha Hr) as [l R].
    destruct (each_mapping_generated md L U HL _ _ _ _ _ Ho Ha R0 R) as [_ [Hu E]].
    exists l. split; [exact R|]. split; [exact E|]. split; [exact (small_stripped _ _ E Hi) | exact Hu].
  Qed.

  Lemma in_stripped : forall l l' m, map strip l = map strip l' -> In m l' -> exists m', In m' l /\ strip m' = strip m.
  Proof.
    intros l l' m E Hm. apply (in_map strip) in Hm. rewrite <- E in Hm. apply in_map_iff in Hm. destruct Hm as [m' [X Y]]. eauto.
  Qed.

  Lemma at_mappings : forall c0 qs c l0 m b, opened md L U c0 -> asked md L U c0 qs = Ok c ->
    len (bc_get_sources L c0) < 2^31 -> readable L (bc_source_map c0) -> reports L c0 l0 -> Forall raw_i31 l0 -> In m l0 ->
    answer (bc_original_position_for md L c (start_of m) b) = Ok None.
  Proof.
    intros c0 qs c l0 m b Ho Ha Hlen Hr R0 Hi0 Hm. unfold start_of.
    destruct (reports_later _ _ _ _ Ho Ha Hr R0 Hi0) as [l [R [E [Hi Hu]]]].
    destruct (in_stripped _ _ _ E Hm) as [m' [Hm' Em]]. injection Em as E1 E2 E3.
    rewrite Forall_forall in Hi0. specialize (Hi0 _ Hm). destruct Hi0 as [I1 [I2 _]].
    pose proof Hu as Hu'. rewrite Forall_forall in Hu'. specialize (Hu' _ Hm'). destruct Hu' as [U1 [U2 _]]. rewrite E1 in U1. rewrite E2 in U2.
    unfold i31, u32 in *. change (2^31) with 2147483648 in *. change (2^32) with 4294967296 in *.
    assert (Hp : position_ok (rm_line m + 1) (rm_column m)).
    { unfold position_ok, i32_max. change (2^31 - 1) with 2147483647. lia. }
    destruct (original_spec md L U HL c0 qs c (mkPos (rm_line m + 1) (rm_column m)) b l Ho Ha Hlen Hr R Hi Hp) as [f [Hf EA]].
    rewrite EA. cbn [p_line p_column] in *. destruct f as [a|]; [|reflexivity]. cbn [original_outcome].
    assert (Hq : In (m', (rm_line m + 1 - 1, rm_column m)) (by_place l)).
    { apply in_map_iff. exists m'. split; [|exact Hm']. f_equal. unfold gen_loc. rewrite E1, E2. f_equal. lia. }
    assert (Hl : rm_line a = rm_line m).
    { destruct Hf as [p [Hin Hc]]. apply in_by_place in Hin. destruct Hin as [_ ->].
      destruct Hc as [Hc|[Hc _]]; [|exfalso; exact (Hc _ _ Hq eq_refl)]. unfold gen_loc in Hc. injection Hc as Hc _. lia. }
    replace (rm_line a =? rm_line m + 1) with false by lia. reflexivity.
  Qed.

  Lemma generated_answer : forall c0 qs c l0 src line column b a, opened md L U c0 -> asked md L U c0 qs = Ok c ->
    len (bc_get_sources L c0) < 2^31 -> readable L (bc_source_map c0) -> reports L c0 l0 -> Forall raw_i31 l0 ->
    line <= i32_max -> column <= i32_max ->
    answer (bc_generated_position_for md L U c src line column b) = Ok (Some a) ->
    exists m, In m l0 /\ m_generated a = start_of m.
  Proof.
    intros c0 qs c l0 src line column b a Ho Ha Hlen Hr R0 Hi0 Hl Hc EA.
    destruct (reports_later _ _ _ _ Ho Ha Hr R0 Hi0) as [l [R [E [Hi Hu]]]].
    destruct (source_query_guards md L U c0 qs c src Ho Ha Hlen) as [G1 [G2 G3]].
    destruct (source_lookup md L U c0 src) as [[i|]|p] eqn:Hlk.
    - destruct (G3 _ eq_refl) as [G4 [G5 _]].
      destruct (Z_lt_dec line 1) as [X|X]; [rewrite (G4 _ _ _ X) in EA; discriminate|].
      destruct (Z_lt_dec column 0) as [Y|Y]; [rewrite (G5 line column b) in EA; [discriminate | lia | lia]|].
      destruct (generated_spec md L U HL c0 qs c src i line column b l Ho Ha Hlen Hr R Hi Hlk) as [f [last [Hf [E2 _]]]].
      { unfold position_ok. lia. }
      rewrite E2 in EA. destruct f as [m|]; [|discriminate]. cbn [generated_outcome] in EA.
      destruct Hf as [p [Hin _]]. destruct (in_of_source _ _ _ _ Hin) as [o [Eo [_ [_ [m' [Hm' ->]]]]]].
      rewrite Eo in EA. destruct (find_name _ _) as [name|]; [|discriminate]. injection EA as <-.
      symmetry in E. destruct (in_stripped _ _ _ E Hm') as [m2 [H2 E3]]. exists m2. split; [exact H2|].
      unfold start_of. injection E3 as -> -> _. reflexivity.
    - destruct (G2 eq_refl) as [G _]. rewrite G in EA. discriminate.
    - destruct (G1 _ eq_refl) as [G _]. rewrite G in EA. discriminate.
  Qed.

  Lemma no_way_back : forall c0 qs c qs' c' l0 src line column b b' a,
    opened md L U c0 -> asked md L U c0 qs = Ok c -> asked md L U c0 qs' = Ok c' ->
    len (bc_get_sources L c0) < 2^31 -> readable L (bc_source_map c0) -> reports L c0 l0 -> Forall raw_i31 l0 ->
    line <= i32_max -> column <= i32_max ->
    answer (bc_generated_position_for md L U c src line column b) = Ok (Some a) ->
    answer (bc_original_position_for md L c' (m_generated a) b') = Ok None.
  Proof.
    intros c0 qs c qs' c' l0 src line column b b' a Ho Ha Ha' Hlen Hr R0 Hi Hl Hc EA.
    destruct (generated_answer _ _ _ _ _ _ _ _ _ Ho Ha Hlen Hr R0 Hi Hl Hc EA) as [m [Hm ->]].
    exact (at_mappings _ _ _ _ _ _ Ho Ha' Hlen Hr R0 Hi Hm).
  Qed.

  Lemma there_and_back : forall c0 qs c qs' c' l0 g b b' a u o i,
    opened md L U c0 -> asked md L U c0 qs = Ok c -> asked md L U c0 qs' = Ok c' ->
    len (bc_get_sources L c0) < 2^31 -> readable L (bc_source_map c0) -> reports L c0 l0 -> Forall raw_i31 l0 ->
    position_ok (p_line g) (p_column g) -> NoDup (bc_get_sources L c0) ->
    answer (bc_original_position_for md L c g b) = Ok (Some a) ->
    m_source a = Some u -> m_original a = Some o ->
    answer (bc_find_source_index md L U c' u) = Ok (Some (Z.of_nat i)) -> nth_error (bc_get_sources L c0) i = Some u ->
    p_line (m_generated a) = p_line g + 1
    /\ match find_name (smj_names (bc_source_map c0)) (Some (Z.of_nat i)) with
       | Panic p => answer (bc_generated_position_for md L U c' u (p_line o) (p_column o) b') = Panic p
       | Ok name => exists a', answer (bc_generated_position_for md L U c' u (p_line o) (p_column o) b') = Ok (Some a')
           /\ m_source a' = Some u /\ m_name a' = name
           /\ m_original a' = Some (mkPos (p_line o - 1) (p_column o))
           /\ (exists m, In m l0 /\ same_original (bc_get_sources L c0) a m
                 /\ m_generated a' = start_of m)
           /\ ((forall m m', In m l0 -> In m' l0 -> same_original (bc_get_sources L c0) a m ->
                  same_original (bc_get_sources L c0) a m' -> start_of m = start_of m') -> m_generated a' = m_generated a)
       end.
  Proof.
    intros c0 qs c qs' c' l0 g b b' a u o i Ho Ha Ha' Hlen Hr R0 Hi0 Hp Hnd EA Es Eo Hfind Hu.
    destruct (source_lookup_stable md L U c0 qs' c' u Ho Ha' Hlen) as [_ [Hlk _]]. rewrite Hfind in Hlk.
    destruct (source_lookup md L U c0 u) as [[k|]|] eqn:Elk; try discriminate Hlk. cbn [option_map] in Hlk.
    assert (k = i) by (injection Hlk; lia). subst k. clear Hlk. rename Elk into Hlk.
    destruct (reports_later _ _ _ _ Ho Ha Hr R0 Hi0) as [l [R [E [Hi Hu32]]]].
    destruct (reports_later _ _ _ _ Ho Ha' Hr R0 Hi0) as [l' [R' [E' [Hi' Hu32']]]].
    destruct (original_spec md L U HL c0 qs c g b l Ho Ha Hlen Hr R Hi Hp) as [f [Hf E2]].
    rewrite E2 in EA. destruct f as [m|]; [|discriminate]. cbn [original_outcome] in EA.
    destruct (Z.eqb_spec (rm_line m) (p_line g)) as [El|]; [|discriminate].
    destruct (rm_original m) as [om|] eqn:Eom; [|discriminate].
    destruct (find_name (smj_names (bc_source_map c0)) (ol_name om)) as [nm|]; [|discriminate].
    injection EA as <-. unfold original_answer in *. cbn [m_generated m_original m_source m_name p_line] in *.
    split; [lia|]. injection Eo as <-. cbn [p_line p_column] in *.
    assert (Hml : In m l). { destruct Hf as [p [Hf _]]. apply in_by_place in Hf. apply Hf. }
    assert (Hom : ol_source om = Z.of_nat i).
    { rewrite Forall_forall in Hu32. destruct (Hu32 _ Hml) as [_ [_ [_ X]]]. rewrite Eom in X. destruct X as [X _]. unfold u32 in X.
      rewrite NoDup_nth_error in Hnd. assert (Z.to_nat (ol_source om) = i); [|lia].
      apply Hnd; [apply nth_error_Some; congruence | congruence]. }
    assert (Hpos : position_ok (ol_line om + 1) (ol_column om)).
    { rewrite Forall_forall in Hu32, Hi. specialize (Hi _ Hml). destruct Hi as [_ [_ I1]].
      destruct (Hu32 _ Hml) as [_ [_ [_ X]]]. rewrite Eom in X, I1. destruct X as [_ [X1 [X2 _]]].
      unfold position_ok, i32_max, i31, u32 in *. change (2^31 - 1) with 2147483647. change (2^31) with 2147483648 in *.
      change (2^32) with 4294967296 in *. lia. }
    destruct (generated_spec md L U HL c0 qs' c' u i (ol_line om + 1) (ol_column om) b' l' Ho Ha' Hlen Hr R' Hi' Hlk Hpos)
      as [f [last [Hf' [E3 _]]]].
    replace (ol_line om + 1 - 1) with (ol_line om) in * by lia.
    assert (Hm0 : exists m0, In m0 l0 /\ strip m0 = strip m) by (symmetry in E; exact (in_stripped _ _ _ E Hml)).
    assert (Hm' : exists x, In (strip m, (ol_line om, ol_column om)) (of_source (Z.of_nat i) l') /\ x = tt).
    { exists tt. split; [|reflexivity]. destruct Hm0 as [m0 [Hm0 X0]].
      destruct (in_stripped _ _ _ E' Hm0) as [m1 [H1 X1]]. rewrite X0 in X1. rewrite <- X1.
      assert (Eo1 : rm_original m1 = Some om) by (injection X1 as _ _ ->; exact Eom).
      clear - H1 Eo1 Hom. induction l' as [|x xs IH]; [destruct H1|]. cbn [of_source]. destruct H1 as [->|H1].
      - rewrite Eo1. replace (ol_source om =? Z.of_nat i) with true by lia. left. reflexivity.
      - destruct (rm_original x); [destruct (_ =? _); [right|]|]; auto. }
    destruct Hm' as [_ [Hm' _]].
    assert (Hex : exists m2, f = Some (strip m2) /\ In m2 l0
              /\ exists o2, rm_original m2 = Some o2 /\ ol_source o2 = Z.of_nat i /\ ol_line o2 = ol_line om /\ ol_column o2 = ol_column om).
    { destruct f as [m2|].
      2: { exfalso. specialize (Hf' _ _ Hm'). destruct (default_bias b'); unfold loc_lt in Hf'; lia. }
      destruct Hf' as [p [Hin Hc]]. destruct Hc as [->|[Hc _]]; [|exfalso; exact (Hc _ _ Hm' eq_refl)].
      destruct (in_of_source _ _ _ _ Hin) as [o2 [Eo2 [Es2 [Ep2 [m3 [Hm3 ->]]]]]]. injection Ep2 as P1 P2.
      symmetry in E'. destruct (in_stripped _ _ _ E' Hm3) as [m4 [Hm4 X4]]. exists m4. rewrite X4. split; [reflexivity|].
      split; [exact Hm4|]. exists o2. split; [injection X4 as _ _ ->; exact Eo2|]. split; [exact Es2|]. split; congruence. }
    destruct Hex as [m2 [-> [Hm2 [o2 [Eo2 [S1 [S2 S3]]]]]]]. cbn [generated_outcome strip rm_original rm_line rm_column] in E3.
    rewrite Eo2 in E3. destruct (find_name _ (Some (Z.of_nat i))) as [name|p]; [|exact E3].
    eexists. split; [exact E3|]. cbn [m_source m_name m_original m_generated].
    split; [exact Hu|]. split; [reflexivity|]. split; [rewrite S2, S3; do 2 f_equal; lia|].
    assert (Hsame2 : same_original (bc_get_sources L c0)
              (mkMapping (mkPos (rm_line m + 1) (rm_column m)) (Some (mkPos (ol_line om + 1) (ol_column om)))
                 (nth_error (bc_get_sources L c0) (Z.to_nat (ol_source om))) nm (option_map as_signed (rm_last_column m))) m2).
    { exists o2. split; [exact Eo2|]. cbn [m_source m_original]. rewrite S1, S2, S3, Hom. split; reflexivity. }
    split; [exists m2; split; [exact Hm2|]; split; [exact Hsame2 | reflexivity]|].
    intros Hone. destruct Hm0 as [m0 [Hm0 X0]]. injection X0 as Y1 Y2 Y3.
    assert (Hs0 : same_original (bc_get_sources L c0)
              (mkMapping (mkPos (rm_line m + 1) (rm_column m)) (Some (mkPos (ol_line om + 1) (ol_column om)))
                 (nth_error (bc_get_sources L c0) (Z.to_nat (ol_source om))) nm (option_map as_signed (rm_last_column m))) m0).
    { exists om. rewrite Y3. split; [exact Eom|]. split; reflexivity. }
    specialize (Hone _ _ Hm0 Hm2 Hs0 Hsame2). unfold start_of in Hone. injection Hone as Z1 Z2. f_equal; lia.
  Qed.
End Back.
