(** * Answers of indexed consumers *)
From Verif Require Import F_Base M_ArraySet M_BinarySearch M_Mapping M_Util M_SourceMap M_Generator M_Json M_MapLib
  M_Consumer M_Indexed S_List S_Search S_Mapping S_MapLib S_Consumer S_Indexed F_Search F_Consumer F_ConsumerProps F_Indexed.
From Coq Require Import Sorting.Sorted Sorting.Permutation.

(** ** Searching depends only on the comparisons made within the haystack *)
Section Ext.
  Context {T1 T2 : Type} (md : mode) (needle : T1) (hay : list T2).
  Context (f1 g1 : T1 -> T2 -> res Z) (f2 g2 : T2 -> T2 -> res Z).
  Context (e1 : forall x, In x hay -> f1 needle x = g1 needle x)
          (e2 : forall x y, In x hay -> In y hay -> f2 x y = g2 x y).

  Lemma index_In : forall i (x : T2), vec_index hay i = Ok x -> In x hay.
  Proof.
    intros i x H. apply vec_index_ok in H. apply vec_get_some_nth in H. destruct H as [_ H].
    eapply nth_error_In; exact H.
  Qed.

  Lemma rs_ext : forall fuel low high bias,
    recursive_search md fuel low high needle hay f1 bias = recursive_search md fuel low high needle hay g1 bias.
  Proof.
    induction fuel as [|fuel IH]; intros low high bias; [reflexivity|]. cbn [recursive_search].
    destruct (i32_sub md high low) as [d|p]; [|reflexivity]. cbn [bind].
    destruct (i32_add md (Z.quot d 2) low) as [mid|p]; [|reflexivity]. cbn [bind].
    destruct (vec_index hay (to_usize mid)) as [h|p] eqn:Eh; [|reflexivity]. cbn [bind].
    rewrite (e1 h (index_In _ _ Eh)). destruct (g1 needle h) as [cmp|p]; [|reflexivity]. cbn [bind].
    destruct (cmp =? 0); [reflexivity|]. destruct (0 <? cmp).
    - destruct (i32_sub md high mid) as [hm|p]; [|reflexivity]. cbn [bind]. rewrite IH. reflexivity.
    - destruct (i32_sub md mid low) as [hm|p]; [|reflexivity]. cbn [bind]. rewrite IH. reflexivity.
  Qed.

  Lemma fe_ext : forall fuel index, first_equal md fuel index hay f2 = first_equal md fuel index hay g2.
  Proof.
    induction fuel as [|fuel IH]; intros index; cbn [first_equal]; [reflexivity|].
    destruct (0 <? index); [|reflexivity].
    destruct (vec_index hay (to_usize index)) as [a|p] eqn:Ea; [|reflexivity]. cbn [bind].
    destruct (i32_sub md index 1) as [i1|p]; [|reflexivity]. cbn [bind].
    destruct (vec_index hay (to_usize i1)) as [b|p] eqn:Eb; [|reflexivity]. cbn [bind].
    rewrite (e2 a b (index_In _ _ Ea) (index_In _ _ Eb)). destruct (g2 a b); [|reflexivity]. cbn [bind].
    rewrite IH. reflexivity.
  Qed.

  Lemma search_ext : forall bias, search md needle hay f1 f2 bias = search md needle hay g1 g2 bias.
  Proof.
    intros bias.
    set (b := match bias with Some b => b | None => GREATEST_LOWER_BOUND end).
    assert (X : (let* index := recursive_search md (S (S (List.length hay))) (-1) (to_i32 (len hay)) needle hay f1 b in
                 if index <? 0 then Ok (-1) else first_equal md (Z.to_nat index) index hay f2)
              = (let* index := recursive_search md (S (S (List.length hay))) (-1) (to_i32 (len hay)) needle hay g1 b in
                 if index <? 0 then Ok (-1) else first_equal md (Z.to_nat index) index hay g2)).
    { rewrite rs_ext. destruct (recursive_search _ _ _ _ _ _ _ _) as [i|p]; [|reflexivity]. cbn [bind].
      rewrite fe_ext. reflexivity. }
    unfold search. subst b. destruct hay; [reflexivity | exact X].
  Qed.
End Ext.

(** lexicographic difference of positions *)
Definition pos_diff (a b : Position) : Z :=
  if p_line a =? p_line b then p_column a - p_column b else p_line a - p_line b.

Lemma pos_diff_le : forall a b, pos_diff a b <= 0 <-> pos_le a b.
Proof. intros a b. unfold pos_diff, pos_le. destruct (p_line a =? p_line b) eqn:E; lia. Qed.
Lemma pos_diff_ge : forall a b, 0 <= pos_diff a b <-> pos_le b a.
Proof. intros a b. unfold pos_diff, pos_le. destruct (p_line a =? p_line b) eqn:E; lia. Qed.
Lemma pos_diff_0 : forall a b, pos_diff a b = 0 <-> a = b.
Proof.
  intros [a a'] [b b']. unfold pos_diff. cbn. destruct (a =? b) eqn:E.
  - split; intros H; [f_equal; lia | inv H; lia].
  - split; intros H; [lia | inv H; lia].
Qed.

Section Props.
  Context (md : mode) (L : MapLib) (U : UrlLib).
  Notation Sec := (Section L).

  Definition d1 (a : Position) (b : Sec) : Z := pos_diff a (sec_generated_offset b).
  Definition d2 (a b : Sec) : Z := pos_diff (sec_generated_offset a) (sec_generated_offset b).

  Lemma d_consistent : consistent d1 d2.
  Proof.
    split; unfold d1, d2, pos_diff; intros.
    - rewrite Z.eqb_refl. lia.
    - repeat match goal with |- context [?a =? ?b] => destruct (Z.eqb_spec a b) end; lia.
    - repeat match goal with H : context [?a =? ?b] |- _ => destruct (Z.eqb_spec a b) | |- context [?a =? ?b] => destruct (Z.eqb_spec a b) end; lia.
    - repeat match goal with H : context [?a =? ?b] |- _ => destruct (Z.eqb_spec a b) | |- context [?a =? ?b] => destruct (Z.eqb_spec a b) end; lia.
    - repeat match goal with H : context [?a =? ?b] |- _ => destruct (Z.eqb_spec a b) | |- context [?a =? ?b] => destruct (Z.eqb_spec a b) end; lia.
  Qed.

  Lemma sorted_d2 : forall l : list Sec, StronglySorted pos_le (map sec_generated_offset l) -> sorted d2 l.
  Proof.
    intros l H. intros i j x y Hij Hi Hj. apply pos_diff_le.
    assert (Hx : nth_error (map sec_generated_offset l) i = Some (sec_generated_offset x)) by (rewrite nth_error_map, Hi; reflexivity).
    assert (Hy : nth_error (map sec_generated_offset l) j = Some (sec_generated_offset y)) by (rewrite nth_error_map, Hj; reflexivity).
    clear Hi Hj. revert i j Hij Hx Hy. induction H as [|p m Hm IH Hf]; intros [|i] [|j] Hij Hx Hy; cbn in Hx, Hy; try discriminate; try lia.
    - injection Hx as Hx. injection Hy as Hy. rewrite <- Hx, <- Hy. unfold pos_le. lia.
    - inv Hx. rewrite Forall_forall in Hf. apply Hf. eapply nth_error_In; eassumption.
    - eapply IH; [|eassumption|eassumption]. lia.
  Qed.

  Lemma cmp1_ok : forall a s, fits (p_line a - p_line (sec_generated_offset s)) ->
    (p_line a = p_line (sec_generated_offset s) -> fits (p_column a - p_column (sec_generated_offset s))) ->
    cmp_needle_section md L a s = Ok (d1 a s).
  Proof.
    intros a s H1 H2. unfold fits, i32_min, i32_max in *. change (2 ^ 31) with 2147483648 in *.
    unfold cmp_needle_section, d1, pos_diff. rewrite i32_sub_ok by lia. cbn [bind].
    destruct (Z.eqb_spec (p_line a) (p_line (sec_generated_offset s))) as [E|E].
    - specialize (H2 E). replace (negb _) with false by lia. rewrite i32_sub_ok by lia. reflexivity.
    - replace (negb _) with true by lia. reflexivity.
  Qed.
  Lemma cmp2_ok : forall a s, fits (p_line (sec_generated_offset a) - p_line (sec_generated_offset s)) ->
    (p_line (sec_generated_offset a) = p_line (sec_generated_offset s) ->
     fits (p_column (sec_generated_offset a) - p_column (sec_generated_offset s))) ->
    cmp_section_section md L a s = Ok (d2 a s).
  Proof.
    intros a s H1 H2. unfold fits, i32_min, i32_max in *. change (2 ^ 31) with 2147483648 in *.
    unfold cmp_section_section, d2, pos_diff. rewrite i32_sub_ok by lia. cbn [bind].
    destruct (Z.eqb_spec (p_line (sec_generated_offset a)) (p_line (sec_generated_offset s))) as [E|E].
    - specialize (H2 E). replace (negb _) with false by lia. rewrite i32_sub_ok by lia. reflexivity.
    - replace (negb _) with true by lia. reflexivity.
  Qed.

  (** the section search *)
  Lemma search_selects : forall secs g, in_reach (map sec_generated_offset secs) g -> StronglySorted pos_le (map sec_generated_offset secs) ->
    len secs < 2147483647 ->
    exists r, search md g secs (cmp_needle_section md L) (cmp_section_section md L) None = Ok r
      /\ ((r = -1 /\ forall s, In s secs -> ~ before L g s)
          \/ (0 <= r /\ exists s, selected L secs g (Z.to_nat r) s)).
  Proof.
    intros secs g [_ [_ [R1 R2]]] Hs Hl.
    rewrite (search_ext md g secs _ (fun a b => Ok (d1 a b)) _ (fun a b => Ok (d2 a b))).
    2: { intros x Hx. destruct (R1 _ (in_map sec_generated_offset _ _ Hx)) as [_ [A [_ B]]].
         apply cmp1_ok; [exact A|]. intros E. exact (proj1 (proj2 (B E))). }
    2: { intros x y Hx Hy. destruct (R2 _ _ (in_map sec_generated_offset _ _ Hx) (in_map sec_generated_offset _ _ Hy)) as [A B].
         apply cmp2_ok; [exact A | exact B]. }
    pose proof (sorted_d2 _ Hs) as Hsd.
    destruct (search_glb md g secs d1 d2 Hl d_consistent Hsd None ltac:(discriminate)) as [r [E H]].
    exists r. split; [exact E|]. destruct H as [[Hr H]|[Hr [s [Hnth [[_ [G2 G3]] _]]]]].
    - left. split; [exact Hr|]. intros s Hin Hb. specialize (H s Hin). unfold d1 in H.
      apply (proj2 (pos_diff_ge g (sec_generated_offset s))) in Hb. lia.
    - right. split; [exact Hr|]. exists s.
      destruct (search_first md g secs d1 d2 Hl d_consistent Hsd None r E ltac:(lia)) as [s' [Hn' Hfirst]].
      rewrite Hnth in Hn'. inv Hn'. split; [exact Hnth|]. split; [apply pos_diff_ge; exact G2|]. split.
      + intros s0 Hin Hb. apply pos_diff_le. apply G3; [exact Hin|]. apply pos_diff_ge. exact Hb.
      + intros k' s0 Hk Heq. destruct (Nat.le_gt_cases (Z.to_nat r) k') as [Hle|Hlt]; [exact Hle|]. exfalso.
        apply (Hfirst k' s0 Hlt Hk). unfold d2. rewrite Heq. apply pos_diff_0. reflexivity.
  Qed.

  Lemma offsets_follow : forall P l0 l, Forall2 (sec_follows md L U P) l0 l ->
    map sec_generated_offset l = map sec_generated_offset l0.
  Proof.
    intros P l0 l H. induction H as [|a b l0 l [H1 _] H IH]; [reflexivity|]. cbn. rewrite H1, IH. reflexivity.
  Qed.

  (** the selected section is the same for both states *)
  Lemma selected_follow : forall P l0 l g k s0, Forall2 (sec_follows md L U P) l0 l -> selected L l g k s0 ->
    exists s, selected L l0 g k s /\ sec_follows md L U P s s0.
  Proof.
    intros P l0 l g k s0 H [H1 [H2 [H3 H4]]]. destruct (Forall2_nth_r _ _ _ _ _ _ _ H H1) as [s [Hs Hf]].
    exists s. split; [|exact Hf]. pose proof (proj1 Hf) as Ho. split; [exact Hs|].
    unfold before in *. rewrite Ho in *. split; [exact H2|]. split.
    - intros s' Hin Hb. apply In_nth_error in Hin. destruct Hin as [n Hn].
      destruct (Forall2_nth_l _ _ _ _ _ _ _ H Hn) as [t [Ht [Hto _]]]. rewrite <- Hto in *.
      apply H3; [eapply nth_error_In; exact Ht | exact Hb].
    - intros k' s' Hk Hb. destruct (Forall2_nth_l _ _ _ _ _ _ _ H Hk) as [t [Ht [Hto _]]].
      apply (H4 k' t Ht). rewrite Hto. exact Hb.
  Qed.

  Lemma not_before_follow : forall P l0 l g, Forall2 (sec_follows md L U P) l0 l ->
    (forall s, In s l -> ~ before L g s) <-> (forall s, In s l0 -> ~ before L g s).
  Proof.
    intros P l0 l g H. split; intros X s Hin; apply In_nth_error in Hin; destruct Hin as [n Hn].
    - destruct (Forall2_nth_l _ _ _ _ _ _ _ H Hn) as [t [Ht [Hto _]]]. unfold before. rewrite <- Hto.
      apply (X t). eapply nth_error_In; exact Ht.
    - destruct (Forall2_nth_r _ _ _ _ _ _ _ H Hn) as [t [Ht [Hto _]]]. unfold before. rewrite Hto.
      apply (X t). eapply nth_error_In; exact Ht.
  Qed.

  Lemma to_usize_small : forall r, 0 <= r < 2147483647 -> to_usize r = r.
  Proof. intros r H. unfold to_usize. apply Z.mod_small. lia. Qed.

  (** C51 *)
  Lemma original_selects : forall c0 qs c g b, iopened md L U c0 -> iasked md L U c0 qs = Ok c ->
    in_reach (map sec_generated_offset (sections_of L c0)) g -> StronglySorted pos_le (map sec_generated_offset (sections_of L c0)) ->
    len (sections_of L c0) < 2147483647 ->
    ((forall s, In s (sections_of L c0) -> ~ before L g s)
       /\ answer (ic_original_position_for md L c g b) = Ok None)
    \/ (exists k s c', selected L (sections_of L c0) g k s /\ later md L U (In ISpans qs) s c'
          /\ answer (ic_original_position_for md L c g b)
             = answer (bc_original_position_for md L c' (relative_to L s g) b)).
  Proof.
    intros c0 qs c g b Ho H Hn Hs Hl. destruct (ihistory md L U _ _ _ Ho H) as [_ Hf Hsec].
    pose proof (offsets_follow _ _ _ Hsec) as Hof. pose proof (Forall2_len _ _ _ _ _ Hsec) as Hle.
    assert (Hl2 : len (sections_of L c) < 2147483647) by (unfold len in *; rewrite <- Hle; exact Hl).
    assert (Hn2 : in_reach (map sec_generated_offset (sections_of L c)) g) by (rewrite Hof; exact Hn).
    assert (Hs2 : StronglySorted pos_le (map sec_generated_offset (sections_of L c))) by (rewrite Hof; exact Hs).
    destruct (search_selects _ _ Hn2 Hs2 Hl2) as [r [Er Hr]].
    destruct c as [j [n v]]. cbn in Hf. subst n. unfold sections_of in *. cbn [ic_sections rc_val] in *.
    unfold ic_original_position_for, rc_borrow. cbn [ic_sections rc_flag rc_val].
    change (0 <? 0) with false. cbn [bind rc_val]. rewrite Er. cbn [bind].
    unfold rc_release, rc_borrow_mut. cbn [rc_flag rc_val]. change (0 + 1 - 1 =? 0) with true. cbn [bind rc_val].
    destruct Hr as [[Hr Hnone]|[Hr [s0 Hsel]]].
    - left. split; [apply (not_before_follow _ _ _ g Hsec); exact Hnone|]. subst r.
      replace (vec_get v (to_usize (-1))) with (@None (Section L)); [reflexivity|].
      symmetry. destruct (vec_get v (to_usize (-1))) eqn:E; [|reflexivity].
      apply vec_get_range in E. change (to_usize (-1)) with 18446744073709551615 in E. lia.
    - right. pose proof Hsel as [Hnth [Hb _]].
      assert (Hrl : r < len v).
      { unfold len. assert (Z.to_nat r < length v)%nat by (apply nth_error_Some; congruence). lia. }
      destruct (selected_follow _ _ _ _ _ _ Hsec Hsel) as [s [Hsel' [Hso [Hop Hlat]]]].
      exists (Z.to_nat r), s, (sec_consumer s0). split; [exact Hsel'|]. split; [exact Hlat|].
      rewrite to_usize_small by lia. rewrite <- (Z2Nat.id r) at 1 by exact Hr. rewrite vec_get_nth, Hnth.
      destruct Hn2 as [G1 [G2 [R1 _]]].
      destruct (R1 _ (in_map sec_generated_offset _ _ (nth_error_In _ _ Hnth))) as [N1 [_ [N2 N3]]]. clear R1 Hn.
      unfold fits, i32_min, i32_max in *. change (2 ^ 31) with 2147483648 in *.
      rewrite (i32_sub_ok md (p_line (sec_generated_offset s0)) 1) by lia. cbn [bind].
      rewrite i32_sub_ok by lia. cbn [bind]. unfold relative_to. rewrite <- Hso.
      destruct (p_line (sec_generated_offset s0) =? p_line g) eqn:El.
      + destruct (N3 ltac:(lia)) as [M1 [_ M2]]. rewrite i32_sub_ok by lia. cbn [bind]. rewrite i32_sub_ok by lia. cbn [bind].
        destruct (bc_original_position_for _ _ _ _ _) as [[a bc]|p]; reflexivity.
      + cbn [bind]. rewrite i32_sub_ok by lia. cbn [bind]. rewrite Z.sub_0_r.
        destruct (bc_original_position_for _ _ _ _ _) as [[a bc]|p]; reflexivity.
  Qed.

  (** C55 *)
  Lemma bc_original_state : forall c g b a c', bc_original_position_for md L c g b = Ok (a, c') ->
    answer (bc_original_position_for md L c g b) = Ok a.
  Proof. intros c g b a c' H. rewrite H. reflexivity. Qed.

  Lemma indexed_original_never : forall (ok : MapLibOk L) c0 qs c g b m, iopened md L U c0 -> iasked md L U c0 qs = Ok c ->
    default_bias b = GreatestLowerBound ->
    answer (ic_original_position_for md L c g b) <> Ok (Some m).
  Proof.
    intros ok c0 qs c g b m Ho H Hb E. destruct (ihistory md L U _ _ _ Ho H) as [_ Hf Hsec].
    destruct c as [j [n v]]. cbn in Hf. subst n. unfold sections_of in *. cbn [ic_sections rc_val] in *.
    unfold ic_original_position_for, rc_borrow in E. cbn [ic_sections rc_flag rc_val] in E.
    change (0 <? 0) with false in E. cbn [bind rc_val] in E.
    destruct (search _ _ _ _ _ _) as [k|p]; [|discriminate]. cbn [bind] in E.
    unfold rc_release, rc_borrow_mut in E. cbn [rc_flag rc_val] in E. change (0 + 1 - 1 =? 0) with true in E. cbn [bind rc_val] in E.
    destruct (vec_get v (to_usize k)) as [it|] eqn:Ek; [|discriminate].
    destruct (i32_sub md (p_line (sec_generated_offset it)) 1) as [ol|p]; [|discriminate]. cbn [bind] in E.
    destruct (i32_sub md (p_line g) ol) as [line|p] eqn:Eline; [|discriminate]. cbn [bind] in E.
    match type of E with answer (bind ?x _) = _ => destruct x as [shift|p]; [|discriminate] end. cbn [bind] in E.
    destruct (i32_sub md (p_column g) shift) as [column|p] eqn:Ecol; [|discriminate]. cbn [bind] in E.
    destruct (bc_original_position_for md L (sec_consumer it) (mkPos line column) b) as [[a bc]|p] eqn:Eb; [|discriminate].
    cbn in E. injection E as ->.
    apply vec_get_some_nth in Ek. destruct Ek as [_ Ek].
    destruct (Forall2_nth_r _ _ _ _ _ _ _ Hsec Ek) as [s [_ [_ [Hop [qs' [Hlat _]]]]]].
    apply checked_i32_range in Eline. apply checked_i32_range in Ecol.
    pose proof (original_never md L U ok _ _ _ (mkPos line column) b Hop Hlat) as N. cbn [p_line p_column] in N.
    unfold i32_max in N. change (2 ^ 31) with 2147483648 in N.
    specialize (N ltac:(lia) ltac:(lia) Hb). cbn zeta in N. rewrite Eb in N. cbn [answer] in N.
    destruct N as [N1 [N2 [N3 N4]]].
    destruct (Z_lt_dec line 1) as [A|A]; [specialize (N1 A); discriminate|].
    destruct (Z_lt_dec column 0) as [B|B]; [specialize (N2 ltac:(lia) B); discriminate|].
    assert (X : ~ readable L (bc_source_map (sec_consumer s))).
    { intros R. specialize (N4 ltac:(lia) ltac:(lia) R). discriminate. }
    specialize (N3 ltac:(lia) ltac:(lia) X). discriminate.
  Qed.

  (** C52 *)
  Lemma content_loop_spec : forall P src p l0 l, Forall2 (sec_follows md L U P) l0 l ->
    Forall (fun s => len (bc_get_sources L (sec_consumer s)) < 2 ^ 31) l0 ->
    answer (source_content_loop md L U l src p)
    = first_answer (map (fun s => answer (bc_source_content_for md L U (sec_consumer s) src p)) l0).
  Proof.
    intros P src p l0 l H. induction H as [|s0 s l0 l [H1 [H2 [qs [H3 _]]]] H IH]; intros Hl; [reflexivity|].
    inversion Hl as [|? ? Hl1 Hl2]; subst. specialize (IH Hl2). cbn [source_content_loop map].
    assert (X : answer (bc_source_content_for md L U (sec_consumer s0) src p)
                = answer (bc_source_content_for md L U (sec_consumer s) src p)).
    { rewrite (content_spec md L U _ _ _ src p H2 H3 Hl1).
      apply (content_spec md L U _ [] _ src p H2 eq_refl Hl1). }
    rewrite X. destruct (bc_source_content_for md L U (sec_consumer s) src p) as [[[it|] bc]|e]; cbn [bind answer first_answer].
    - reflexivity.
    - rewrite <- IH. destruct (source_content_loop md L U l src p) as [[a rest]|e]; reflexivity.
    - reflexivity.
  Qed.

  Lemma indexed_content : forall c0 qs c src p, iopened md L U c0 -> iasked md L U c0 qs = Ok c ->
    Forall (fun s => len (bc_get_sources L (sec_consumer s)) < 2 ^ 31) (sections_of L c0) ->
    answer (ic_source_content_for md L U c src p)
    = match first_answer (map (fun s => answer (bc_source_content_for md L U (sec_consumer s) src p)) (sections_of L c0)) with
      | Ok None => if match p with Some b => b | None => true end then Panic PMissing else Ok None
      | r => r
      end.
  Proof.
    intros c0 qs c src p Ho H Hl. destruct (ihistory md L U _ _ _ Ho H) as [_ Hf Hsec].
    unfold ic_source_content_for, rc_borrow_mut. rewrite Hf. change (0 =? 0) with true. cbn [bind rc_val].
    rewrite <- (content_loop_spec _ src p _ _ Hsec Hl). unfold sections_of.
    destruct (source_content_loop md L U (rc_val (ic_sections c)) src p) as [[[it|] secs]|e]; cbn [bind answer]; try reflexivity.
    destruct (match p with Some b => b | None => true end); reflexivity.
  Qed.

  Lemma first_answer_skip : forall l r l', Forall (fun x => x = Ok None) l ->
    first_answer (l ++ r :: l') = match r with Ok None => first_answer l' | _ => r end.
  Proof.
    intros l r l' H. induction H as [|x l Hx H IH]; [destruct r as [[t|]|p]; reflexivity|].
    subst x. exact IH.
  Qed.

  Definition section_contents (s : Section L) : option (list str) := smj_sources_content (bc_source_map (sec_consumer s)).

  Lemma section_content : forall c0 s src p, iopened md L U c0 -> In s (sections_of L c0) ->
    Forall (fun s => len (bc_get_sources L (sec_consumer s)) < 2 ^ 31) (sections_of L c0) ->
    answer (bc_source_content_for md L U (sec_consumer s) src p)
    = match section_contents s with
      | None => Ok None
      | Some contents =>
          match source_lookup md L U (sec_consumer s) src with
          | Panic p => Panic p
          | Ok None => match p with Some false => Ok None | _ => Panic PMissing end
          | Ok (Some i) =>
              match nth_error contents i with Some text => Ok (Some text) | None => Panic PIndex end
          end
      end.
  Proof.
    intros c0 s src p Ho Hs Hl. destruct (iopened_start md L U _ Ho) as [_ Hg]. rewrite Forall_forall in Hg, Hl.
    apply (content_spec md L U _ [] _ src p (proj1 (Hg _ Hs)) eq_refl (Hl _ Hs)).
  Qed.

  Lemma indexed_content_unknown : forall c0 qs c src p pre s post,
    iopened md L U c0 -> iasked md L U c0 qs = Ok c ->
    Forall (fun s => len (bc_get_sources L (sec_consumer s)) < 2 ^ 31) (sections_of L c0) ->
    sections_of L c0 = pre ++ s :: post -> Forall (fun x => section_contents x = None) pre ->
    section_contents s <> None -> source_lookup md L U (sec_consumer s) src = Ok None -> p <> Some false ->
    answer (ic_source_content_for md L U c src p) = Panic PMissing.
  Proof.
    intros c0 qs c src p pre s post Ho H Hl Es Hpre Hs Hu Hp. rewrite (indexed_content _ _ _ src p Ho H Hl).
    assert (Hin : In s (sections_of L c0)) by (rewrite Es; apply in_elt).
    rewrite Es, map_app. cbn [map]. rewrite first_answer_skip.
    - rewrite (section_content _ _ src p Ho Hin Hl), Hu. destruct (section_contents s); [|congruence].
      destruct p as [[|]|]; congruence.
    - apply Forall_map, Forall_forall. intros x Hx. rewrite (section_content c0 x src p Ho); [|rewrite Es; apply in_or_app; auto | exact Hl].
      rewrite Forall_forall in Hpre. rewrite (Hpre _ Hx). reflexivity.
  Qed.

  Lemma indexed_content_first : forall c0 qs c src pre s post texts i,
    iopened md L U c0 -> iasked md L U c0 qs = Ok c ->
    Forall (fun s => len (bc_get_sources L (sec_consumer s)) < 2 ^ 31) (sections_of L c0) ->
    sections_of L c0 = pre ++ s :: post ->
    Forall (fun x => section_contents x = None \/ source_lookup md L U (sec_consumer x) src = Ok None) pre ->
    section_contents s = Some texts -> source_lookup md L U (sec_consumer s) src = Ok (Some i) ->
    answer (ic_source_content_for md L U c src (Some false))
    = match nth_error texts i with Some text => Ok (Some text) | None => Panic PIndex end.
  Proof.
    intros c0 qs c src pre s post texts i Ho H Hl Es Hpre Hs Hu. rewrite (indexed_content _ _ _ src _ Ho H Hl).
    assert (Hin : In s (sections_of L c0)) by (rewrite Es; apply in_elt).
    rewrite Es, map_app. cbn [map]. rewrite first_answer_skip.
    - rewrite (section_content _ _ src _ Ho Hin Hl), Hu, Hs. destruct (nth_error texts i); reflexivity.
    - apply Forall_map, Forall_forall. intros x Hx. rewrite (section_content c0 x src _ Ho); [|rewrite Es; apply in_or_app; auto | exact Hl].
      rewrite Forall_forall in Hpre. destruct (Hpre _ Hx) as [E|E]; rewrite E; [reflexivity|]. destruct (section_contents x); reflexivity.
  Qed.

  (** C53 *)
  Lemma indexed_sources : forall c0 qs c, iopened md L U c0 -> iasked md L U c0 qs = Ok c ->
    answer (ic_get_sources L c) = Ok (concat (map (raw_sources L) (sections_of L c0))).
  Proof.
    intros c0 qs c Ho H. rewrite (get_sources_spec md L U _ c0 c (ihistory md L U _ _ _ Ho H)). reflexivity.
  Qed.

  (** C54 *)
  Lemma indexed_reverse : forall c0 qs c src line col ocol b ord, iopened md L U c0 -> iasked md L U c0 qs = Ok c ->
    (sections_of L c0 = [] ->
       answer (ic_generated_position_for md L U c src line col b) = Ok None
       /\ answer (ic_all_generated_position_for md L U c src line ocol) = Ok []
       /\ answer (ic_each_mapping md L c ord) = Ok [])
    /\ (sections_of L c0 <> [] ->
       ic_generated_position_for md L U c src line col b = Panic PBorrowMut
       /\ ic_all_generated_position_for md L U c src line ocol = Panic PBorrowMut
       /\ ic_each_mapping md L c ord = Panic PBorrow).
  Proof.
    intros c0 qs c src line col ocol b ord Ho H. destruct (ihistory md L U _ _ _ Ho H) as [_ Hf Hsec].
    destruct (iopened_start md L U _ Ho) as [_ Hg].
    unfold ic_generated_position_for, ic_all_generated_position_for. split; intros E.
    - rewrite E in Hsec. inversion Hsec as [X Hn|]. symmetry in Hn.
      rewrite (find_empty md L U c src Hf Hn), (each_empty md L c ord Hf Hn). cbn. auto.
    - destruct (sections_of L c) as [|s v] eqn:Es.
      { inversion Hsec. congruence. }
      rewrite (find_panics md L U c src Hf) by congruence. split; [reflexivity|]. split; [reflexivity|].
      inversion Hsec as [|s0 x l0 y [Hso _] Hr E0 E1]. symmetry in E0. rewrite E0 in Hg.
      inversion Hg as [|? ? [_ [G1 G2]] _]; subst.
      eapply each_panics; [exact Hf | exact Es | rewrite Hso; exact G1 | rewrite Hso; exact G2].
  Qed.

  (** C59 *)
  Lemma allM_true : forall (f : Sec -> res bool) l, allM f l = Ok true <-> Forall (fun s => f s = Ok true) l.
  Proof.
    intros f l. induction l as [|x l IH]; cbn; [split; [constructor | reflexivity]|].
    destruct (f x) as [[|]|p] eqn:E; cbn [bind].
    - rewrite IH. split; intros H; [constructor; assumption | inversion H; assumption].
    - split; [discriminate | intros H; inversion H; congruence].
    - split; [discriminate | intros H; inversion H; congruence].
  Qed.

  Lemma indexed_has_contents : forall c0 qs c, iopened md L U c0 -> iasked md L U c0 qs = Ok c ->
    Forall (fun s => len (bc_get_sources L (sec_consumer s)) < 2 ^ 31) (sections_of L c0) ->
    exists b, answer (ic_has_contents_of_all_sources L c) = Ok b
      /\ (b = true <-> forall s, In s (sections_of L c0) -> bc_has_contents_of_all_sources L (sec_consumer s) = Ok true).
  Proof.
    intros c0 qs c Ho H Hl. destruct (ihistory md L U _ _ _ Ho H) as [_ Hf Hsec].
    unfold ic_has_contents_of_all_sources, rc_borrow. rewrite Hf. change (0 <? 0) with false. cbn [bind rc_val].
    fold (sections_of L c).
    enough (X : exists b, allM (fun it => bc_has_contents_of_all_sources L (sec_consumer it)) (sections_of L c) = Ok b
       /\ (b = true <-> forall s, In s (sections_of L c0) -> bc_has_contents_of_all_sources L (sec_consumer s) = Ok true)).
    { destruct X as [b [E1 E2]]. exists b. rewrite E1. split; [reflexivity | exact E2]. }
    clear Hf H Ho. induction Hsec as [|s0 s l0 l [_ [H2 [qs' [H3 _]]]] Hsec IH].
    - exists true. split; [reflexivity|]. split; [intros _ s [] | reflexivity].
    - inversion Hl as [|? ? Hl1 Hl2]; subst. destruct (IH Hl2) as [b [E1 E2]].
      destruct (has_contents_spec md L U _ _ _ H2 H3 Hl1) as [b1 [B1 [B2 _]]].
      destruct (has_contents_spec md L U _ [] _ H2 eq_refl Hl1) as [b0 [C1 [C2 _]]].
      destruct (source_lookup_stable md L U _ _ _ [] H2 H3 Hl1) as [Hsrc _].
      assert (b1 = b0).
      { rewrite Hsrc in B2. destruct b0, b1; try reflexivity; [apply B2, C2 | symmetry; apply C2, B2]; reflexivity. }
      subst b1. cbn [allM]. rewrite B1. cbn [bind]. destruct b0.
      + exists b. split; [exact E1|]. rewrite E2. split; intros X s1; [intros [<-|Hin]; [exact C1 | apply X; exact Hin] | intros Hin; apply X; right; exact Hin].
      + exists false. split; [reflexivity|]. split; [discriminate|]. intros X. rewrite (X s0 (or_introl eq_refl)) in C1. inv C1.
  Qed.

  Lemma indexed_spans : forall c0 qs c, iopened md L U c0 -> iasked md L U c0 qs = Ok c ->
    (forall c', ic_computed_column_spans L c = Ok c' <->
       ic_source_map c' = ic_source_map c /\ rc_flag (ic_sections c') = 0
       /\ Forall2 (fun s s' => sec_generated_offset s' = sec_generated_offset s
             /\ bc_compute_column_spans L (sec_consumer s) = Ok (sec_consumer s')) (sections_of L c) (sections_of L c')).
  Proof.
    intros c0 qs c Ho H c'. destruct (ihistory md L U _ _ _ Ho H) as [_ Hf Hsec].
    unfold ic_computed_column_spans, rc_borrow_mut. rewrite Hf. change (0 =? 0) with true. cbn [bind rc_val].
    fold (sections_of L c). clear.
    assert (X : forall l secs, mapM (fun ele : Sec => let* bc := bc_compute_column_spans L (sec_consumer ele) in
                   Ok (mkSection (sec_generated_offset ele) bc)) l = Ok secs
              <-> Forall2 (fun s s' : Sec => sec_generated_offset s' = sec_generated_offset s
             /\ bc_compute_column_spans L (sec_consumer s) = Ok (sec_consumer s')) l secs).
    { induction l as [|x l IH]; intros secs; cbn.
      - split; intros E; inv E; constructor.
      - destruct (bc_compute_column_spans L (sec_consumer x)) as [bc|p] eqn:Eb; cbn [bind].
        + destruct (mapM _ l) as [rest|p] eqn:Em; cbn [bind].
          * split; intros E.
            -- inv E. constructor; [cbn; auto|]. apply IH. reflexivity.
            -- inversion E as [|? y ? rest' [E1 E2] E3]; subst. apply IH in E3. injection E3 as ->.
               destruct y as [yo yc]. cbn in *. congruence.
          * split; intros E; [discriminate|]. inversion E as [|? y ? rest' [E1 E2] E3]; subst. apply IH in E3. discriminate.
        + split; intros E; [discriminate|]. inversion E as [|? y ? rest' [E1 E2] E3]; subst. congruence. }
    destruct (mapM _ (sections_of L c)) as [secs|p] eqn:Em; cbn [bind].
    - split; intros E.
      + inv E. split; [reflexivity|]. split; [reflexivity|]. apply X. exact Em.
      + destruct E as [E1 [E2 E3]]. apply X in E3. rewrite Em in E3. injection E3 as ->.
        destruct c' as [j [n v]]. cbn in *. subst. reflexivity.
    - split; [discriminate|]. intros [_ [_ E3]]. apply X in E3. congruence.
  Qed.

  (** C51 in terms of the map *)
  Lemma natural_small : forall s, natural_offset s -> small_offset s.
  Proof.
    intros s [A B]. unfold small_offset, i32_min, i32_max in *. change (2 ^ 31) with 2147483648 in *. lia.
  Qed.

  Lemma sections_start : forall url l secs, Forall2 (section_opens md L U url) l secs -> Forall small_offset l ->
    map sec_generated_offset secs = map start_of (map js_offset l).
  Proof.
    intros url l secs H. induction H as [|s sec l secs [_ [Ho _]] H IH]; intros Hn; [reflexivity|].
    inversion Hn as [|? ? N N3]; subst. cbn [map]. f_equal; [|apply IH; exact N3].
    exact (proj1 (plus_one_small md s _ N) Ho).
  Qed.
  Lemma sections_sorted : forall url l secs, Forall2 (section_opens md L U url) l secs -> Forall small_offset l ->
    StronglySorted pos_le (map js_offset l) -> StronglySorted pos_le (map sec_generated_offset secs).
  Proof.
    intros url l secs H. induction H as [|s sec l secs [_ [Ho _]] H IH]; intros Hm Hs; cbn; [constructor|].
    cbn in Hs. inversion Hs as [|? ? S1 S2]; subst. inversion Hm as [|? ? M1 M2]; subst.
    constructor; [apply IH; assumption|]. apply (proj1 (plus_one_small md s _ M1)) in Ho.
    rewrite Forall_forall in *. intros p Hp. apply in_map_iff in Hp. destruct Hp as [t [<- Ht]].
    destruct (Forall2_In_r _ _ _ _ _ _ H Ht) as [x [Hx [_ [Hxo _]]]].
    specialize (S2 (js_offset x) (in_map js_offset _ _ Hx)).
    apply (proj1 (plus_one_small md x _ (M2 x Hx))) in Hxo. rewrite Ho, Hxo. unfold pos_le in *. cbn. lia.
  Qed.

  Lemma before_starts : forall url s sec g, section_opens md L U url s sec -> small_offset s ->
    (before L g sec <-> starts_before (js_offset s) g).
  Proof. intros url s sec g [_ [Ho _]] Hm. apply (proj1 (plus_one_small md s _ Hm)) in Ho. unfold before, starts_before, pos_le. rewrite Ho. cbn. lia. Qed.

  Lemma original_by_map : forall j url l c0 qs c g b,
    smj_sections j = Some l -> Forall small_offset l -> len l < 2147483647 ->
    ic_from_source_map_json md L U (seq 0 (length l)) j url = Ok c0 -> iasked md L U c0 qs = Ok c ->
    in_reach (map start_of (map js_offset l)) g ->
    ((forall s, In s l -> ~ starts_before (js_offset s) g)
       /\ answer (ic_original_position_for md L c g b) = Ok None)
    \/ (exists k s c1 asks c2, nth_error l k = Some s /\ starts_before (js_offset s) g
          /\ (forall s', In s' l -> starts_before (js_offset s') g -> pos_le (js_offset s') (js_offset s))
          /\ (forall k' s', nth_error l k' = Some s' -> js_offset s' = js_offset s -> (k <= k')%nat)
          /\ bc_from_source_map_json md L U (js_map s) url = Ok c1 /\ asked md L U c1 asks = Ok c2
          /\ ((In ISpans qs <-> In QSpans asks) /\ Forall passed_on asks)
          /\ answer (ic_original_position_for md L c g b)
             = answer (bc_original_position_for md L c2 (relative_position (js_offset s) g) b)).
  Proof.
    intros j url l c0 qs c g b El Hsm Hlen H0 H Hg.
    assert (H32 : Forall i32_offset l) by (eapply Forall_impl; [|exact Hsm]; intros s [A B]; unfold i32_offset; lia).
    assert (Hsmall : forall n s, nth_error l n = Some s -> small_offset s).
    { intros n s Hs. rewrite Forall_forall in Hsm. apply Hsm. eapply nth_error_In. exact Hs. }
    assert (Ho : iopened md L U c0).
    { exists (seq 0 (length l)), j, url, l. split; [exact El|]. split; [unfold schedule; reflexivity|]. split; [exact H32|exact H0]. }
    assert (Hop := H0). apply opening_in_order in Hop.
    2: { intros l0 E0. rewrite El in E0. inv E0. exact H32. }
    2: { intros l0 E0. rewrite El in E0. inv E0. reflexivity. }
    destruct Hop as [_ [l0 [secs [E0 [Hord [Hf Ec]]]]]]. rewrite El in E0. injection E0 as <-.
    assert (Hsecs : sections_of L c0 = secs) by (rewrite Ec; reflexivity).
    pose proof (Forall2_len _ _ _ _ _ Hf) as Hle.
    destruct (original_selects c0 qs c g b Ho H) as [[Hno Ha]|[k [sec [c' [[S1 [S2 [S3 S4]]] [[asks [Hlat Hspans]] Ha]]]]]].
    - rewrite Hsecs, (sections_start _ _ _ Hf Hsm). exact Hg.
    - rewrite Hsecs. eapply sections_sorted; [exact Hf|exact Hsm|]. unfold in_order in Hord. inversion Hord; assumption.
    - rewrite Hsecs. unfold len in *. rewrite <- Hle. exact Hlen.
    - left. split; [|exact Ha]. intros s Hin Hb. apply In_nth_error in Hin. destruct Hin as [n Hs].
      destruct (Forall2_nth_l _ _ _ _ _ _ _ Hf Hs) as [sec [Hsec Hso]].
      apply (Hno sec); [rewrite Hsecs; eapply nth_error_In; exact Hsec|]. apply (before_starts _ _ _ g Hso (Hsmall _ _ Hs)). exact Hb.
    - right. rewrite Hsecs in S1, S3, S4. destruct (Forall2_nth_r _ _ _ _ _ _ _ Hf S1) as [s [Hs Hso]].
      exists k, s, (sec_consumer sec), asks, c'. split; [exact Hs|]. split; [apply (before_starts _ _ _ g Hso (Hsmall _ _ Hs)); exact S2|].
      pose proof Hso as [_ [Hoff Hcon]]. apply (proj1 (plus_one_small md s _ (Hsmall _ _ Hs))) in Hoff.
      split; [|split].
      + intros s' Hin Hb. apply In_nth_error in Hin. destruct Hin as [n Hs'].
        destruct (Forall2_nth_l _ _ _ _ _ _ _ Hf Hs') as [sec' [Hsec' Hso']].
        specialize (S3 sec' (nth_error_In _ _ Hsec') (proj2 (before_starts _ _ _ g Hso' (Hsmall _ _ Hs')) Hb)).
        destruct Hso' as [_ [Hoff' _]]. apply (proj1 (plus_one_small md s' _ (Hsmall _ _ Hs'))) in Hoff'. rewrite Hoff, Hoff' in S3. unfold pos_le in *. cbn in S3. lia.
      + intros k' s' Hk Heq. destruct (Forall2_nth_l _ _ _ _ _ _ _ Hf Hk) as [sec' [Hsec' [_ [Hoff' _]]]].
        apply (proj1 (plus_one_small md s' _ (Hsmall _ _ Hk))) in Hoff'. apply (S4 k' sec' Hsec'). rewrite Hoff, Hoff', Heq. reflexivity.
      + split; [exact Hcon|]. split; [exact Hlat|]. split; [exact Hspans|]. rewrite Ha. f_equal. f_equal.
        unfold relative_to, relative_position. rewrite Hoff. cbn [p_line p_column]. f_equal.
        * lia.
        * destruct (p_line (js_offset s) + 1 =? p_line g); lia.
  Qed.

  Lemma natural_all_small : forall l, Forall natural_offset l -> Forall small_offset l.
  Proof. intros l H. eapply Forall_impl; [|exact H]. apply natural_small. Qed.

  (** offsets that are not negative reach every position from (-1,-1) on *)
  Lemma natural_reach : forall l g, Forall natural_offset l -> -1 <= p_line g <= i32_max -> -1 <= p_column g <= i32_max ->
    in_reach (map start_of (map js_offset l)) g.
  Proof.
    intros l g H Hl Hc. rewrite Forall_forall in H.
    assert (X : forall o, In o (map start_of (map js_offset l)) -> 1 <= p_line o <= i32_max /\ 1 <= p_column o <= i32_max).
    { intros o Ho. apply in_map_iff in Ho. destruct Ho as [x [<- Hx]]. apply in_map_iff in Hx. destruct Hx as [t [<- Ht]].
      destruct (H t Ht) as [A B]. cbn [start_of p_line p_column]. lia. }
    unfold in_reach, fits, i32_min. unfold i32_max in *. change (2 ^ 31) with 2147483648 in *.
    split; [lia|]. split; [lia|]. split.
    - intros o Ho. destruct (X o Ho). lia.
    - intros o o' Ho Ho'. destruct (X o Ho). destruct (X o' Ho'). lia.
  Qed.

  (** positions that are not positions *)
  Lemma odd_position : forall j url l c0 qs c g b,
    smj_sections j = Some l -> Forall natural_offset l -> len l < 2147483647 ->
    ic_from_source_map_json md L U (seq 0 (length l)) j url = Ok c0 -> iasked md L U c0 qs = Ok c ->
    in_reach (map start_of (map js_offset l)) g ->
    (p_line g < 1 -> answer (ic_original_position_for md L c g b) = Ok None)
    /\ (1 <= p_line g -> p_column g < 0 ->
        answer (ic_original_position_for md L c g b)
        = if existsb (fun s => p_line (js_offset s) + 1 <? p_line g) l then Panic PColumn else Ok None).
  Proof.
    intros j url l c0 qs c g b El Hn Hlen H0 H Hg.
    destruct (original_by_map j url l c0 qs c g b El (natural_all_small _ Hn) Hlen H0 H Hg)
      as [[Hno Ha]|[k [s [c1 [asks [c2 [Hk [Hb [_ [_ [_ [_ [_ Ha]]]]]]]]]]]]]; rewrite Ha; rewrite Forall_forall in Hn; split.
    - reflexivity.
    - intros G1 G2. destruct (existsb _ l) eqn:E; [|reflexivity]. apply existsb_exists in E. destruct E as [s [Hs E]].
      exfalso. apply (Hno s Hs). left. lia.
    - intros G. exfalso. destruct (Hn s (nth_error_In _ _ Hk)) as [N1 N2]. unfold starts_before in Hb. lia.
    - intros G1 G2. destruct (Hn s (nth_error_In _ _ Hk)) as [N1 N2]. unfold starts_before in Hb.
      replace (existsb _ l) with true.
      2: { symmetry. apply existsb_exists. exists s. split; [exact (nth_error_In _ _ Hk)|]. lia. }
      rewrite original_guard2; [reflexivity| |]; unfold relative_position; cbn [p_line p_column].
      + lia.
      + replace (p_line (js_offset s) + 1 =? p_line g) with false by lia. exact G2.
  Qed.
End Props.
