(** * Lemmas for C104: consumers of maps with lines in front *)
From Verif Require Import F_Base M_ArraySet M_Mapping M_Util M_SourceMap M_Json M_MapLib M_Consumer M_Indexed
  S_List S_Vlq S_Decode S_MapLib S_Mapping S_Generator S_Consumer S_EndToEnd S_Redo
  F_ArraySet F_Decode F_Consumer F_ConsumerProps F_Listed.
From Coq Require Import Sorting.Sorted Sorting.Permutation.

(** ** the text *)
Lemma segment_lower : forall k line g r seg,
  decode_segment (line + k) g r seg
  = option_map (fun x => (lower k (fst (fst x)), snd (fst x), snd x)) (decode_segment line g r seg).
Proof.
  intros. unfold decode_segment. destruct (vlq_decode_all seg) as [[|a [|b [|c [|d [|e [|f l]]]]]]|]; try reflexivity.
  - destruct (in_u32 (g + a)); reflexivity.
  - destruct (_ && _); reflexivity.
  - destruct (_ && _); reflexivity.
Qed.

Lemma segments_lower : forall k segs line g r,
  decode_segments (line + k) g r segs
  = option_map (fun x => (map (lower k) (fst x), snd x)) (decode_segments line g r segs).
Proof.
  intros k. induction segs as [|seg segs IH]; intros; [reflexivity|]. cbn [decode_segments]. rewrite segment_lower.
  destruct (decode_segment line g r seg) as [[[m g'] r']|]; cbn [option_map fst snd]; [|reflexivity]. rewrite IH.
  destruct (decode_segments line g' r' segs) as [[ms r2]|]; reflexivity.
Qed.

Lemma lines_lower : forall k lines line r,
  decode_lines (line + k) r lines = option_map (map (lower k)) (decode_lines line r lines).
Proof.
  intros k. induction lines as [|s lines IH]; intros; [reflexivity|]. cbn [decode_lines].
  assert (E : decode_line (line + k) r s = option_map (fun x => (map (lower k) (fst x), snd x)) (decode_line line r s)).
  { unfold decode_line. destruct s; [reflexivity | apply segments_lower]. }
  rewrite E. destruct (decode_line line r s) as [[ms r']|]; cbn [option_map fst snd]; [|reflexivity].
  replace (line + k + 1) with (line + 1 + k) by lia. rewrite IH.
  destruct (decode_lines (line + 1) r' lines) as [rest|]; cbn [option_map]; [|reflexivity]. rewrite map_app. reflexivity.
Qed.

Lemma decode_banner : forall k s, 0 <= k ->
  decode_mappings (banner k ++ s) = option_map (map (lower k)) (decode_mappings s).
Proof.
  intros k s Hk. unfold decode_mappings. change (decode_lines 0 regs0 (split_on (ch ";") (banner k ++ s)))
    with (start_from 0 regs0 (banner k ++ s)). unfold banner. rewrite start_semicolons. unfold start_from.
  rewrite Z2Nat.id by exact Hk. apply lines_lower.
Qed.

Lemma split_banner : forall n s, split_on (ch ";") (repeat (ch ";") n ++ s) = repeat [] n ++ split_on (ch ";") s.
Proof. induction n as [|n IH]; intros s; [reflexivity|]. cbn [repeat app split_on]. rewrite N.eqb_refl, IH. reflexivity. Qed.

Lemma good_banner : forall F k s, good_text F s -> good_text F (banner k ++ s).
Proof.
  intros F k s H. unfold good_text, banner. rewrite split_banner. apply Forall_app. split; [|exact H].
  apply Forall_forall. intros x Hx. apply repeat_spec in Hx. left. exact Hx.
Qed.

Lemma count_banner : forall k s, 0 <= k ->
  Z.of_nat (count_occ N.eq_dec (banner k ++ s) (ch ";")) = k + Z.of_nat (count_occ N.eq_dec s (ch ";")).
Proof.
  intros k s Hk. unfold banner. rewrite count_occ_app. rewrite count_occ_repeat_eq by reflexivity. rewrite Nat2Z.inj_add, Z2Nat.id by exact Hk. reflexivity.
Qed.

(** ** nearest *)
Lemma nearest_one : forall A (l : list (A * loc)) q b r r',
  (forall a a' p, In (a, p) l -> In (a', p) l -> a = a') -> nearest l q b r -> nearest l q b r' -> r = r'.
Proof.
  intros A l q b r r' Huniq H H'.
  assert (Hle : forall p p', loc_le p p' -> loc_le p' p -> p = p').
  { intros [x y] [x' y']. unfold loc_le, loc_lt. cbn [fst snd]. intros [?|?] [?|?]; try congruence. exfalso. lia. }
  assert (Hn : forall p, ~ loc_lt p p) by (intros [x y]; unfold loc_lt; cbn [fst snd]; lia).
  assert (Ha : forall p q, loc_lt p q -> loc_lt q p -> False) by (intros [x y] [x' y']; unfold loc_lt; cbn [fst snd]; lia).
  destruct r as [a|], r' as [a'|].
  - f_equal. destruct H as [p [Hi Hp]], H' as [p' [Hi' Hp']].
    assert (p = p'); [|subst p'; exact (Huniq _ _ _ Hi Hi')].
    destruct Hp as [Hp|[Hno Hp]], Hp' as [Hp'|[Hno' Hp']].
    + congruence.
    + exfalso. exact (Hno' _ _ Hi Hp).
    + exfalso. exact (Hno _ _ Hi' Hp').
    + destruct b; destruct Hp as [P1 P2], Hp' as [P1' P2']; apply Hle;
        solve [exact (P2 _ _ Hi' P1') | exact (P2' _ _ Hi P1)].
  - exfalso. destruct H as [p [Hi Hp]]. specialize (H' _ _ Hi). destruct Hp as [->|[_ Hp]].
    + destruct b; exact (Hn _ H').
    + destruct b; destruct Hp as [P _]; exact (Ha _ _ P H').
  - exfalso. destruct H' as [p [Hi Hp]]. specialize (H _ _ Hi). destruct Hp as [->|[_ Hp]].
    + destruct b; exact (Hn _ H).
    + destruct b; destruct Hp as [P _]; exact (Ha _ _ P H).
  - reflexivity.
Qed.

Lemma nearest_moved : forall A B (F : A -> B) (G : loc -> loc) (l : list (A * loc)) (l' : list (B * loc)) q b r,
  (forall p p', loc_lt (G p) (G p') <-> loc_lt p p') -> (forall p p', G p = G p' -> p = p') ->
  (forall x p, In (x, p) l' <-> exists a p0, In (a, p0) l /\ x = F a /\ p = G p0) ->
  nearest l q b r -> nearest l' (G q) b (option_map F r).
Proof.
  intros A B F G l l' q b r Glt Ginj HI H.
  assert (Gle : forall p p', loc_le p p' -> loc_le (G p) (G p')).
  { intros p p' [X|X]; [left; apply Glt; exact X | right; congruence]. }
  destruct r as [a|]; cbn [option_map nearest] in *.
  - destruct H as [p [Hi Hp]]. exists (G p). split; [apply HI; eauto|].
    destruct Hp as [->|[Hno Hp]]; [left; reflexivity | right]. split.
    + intros x p' Hx E. apply HI in Hx. destruct Hx as [a0 [p0 [H0 [-> ->]]]]. apply Ginj in E. subst p0. exact (Hno _ _ H0 eq_refl).
    + destruct b; destruct Hp as [P1 P2]; (split; [apply Glt; exact P1|]); intros x p' Hx Hlt; apply HI in Hx;
        destruct Hx as [a0 [p0 [H0 [-> ->]]]]; apply Gle; apply (P2 _ _ H0); apply Glt; exact Hlt.
  - intros x p' Hx. apply HI in Hx. destruct Hx as [a0 [p0 [H0 [-> ->]]]]. specialize (H _ _ H0). destruct b; apply Glt; exact H.
Qed.

Section Banner.
  Context (md : mode) (L : MapLib) (U : UrlLib) (HL : MapLibOk L).

  Lemma reads : forall c0 qs c s ms, opened md L U c0 -> asked md L U c0 qs = Ok c ->
    smj_mappings (bc_source_map c0) = Some s -> good_text canonical_field s ->
    Z.of_nat (count_occ N.eq_dec s (ch ";")) < 2^32 -> decode_mappings s = Some ms ->
    readable L (bc_source_map c0) /\ exists l, reports L c l /\ Permutation (map strip ms) (map strip l).
  Proof.
    intros c0 qs c s ms Ho Ha Es Hg Hc Ed.
    destruct (mo_parse L HL s ms Hg Hc Ed) as [t0 [Et0 Hp]].
    assert (Hr : readable L (bc_source_map c0)) by (exists s, t0; auto). split; [exact Hr|].
    destruct (history md L U _ _ _ Ho Ha) as [Hf Hfc].
    destruct (ensure_cases md L U _ _ Hfc) as [[s1 [t [E [Es1 Hs]]]]|[E [Hn Em]]]; [|contradiction].
    exists (lm_by_generated L t). split; [apply (proj2 (reports_iff md L U _ _ _ _ _ Hfc E)); reflexivity|].
    assert (s1 = s) by congruence. subst s1. rewrite (mo_same L HL _ _ _ _ Hs Et0). apply Permutation_map. exact Hp.
  Qed.

  Lemma in_perm : forall ms l m, Permutation (map strip ms) (map strip l) -> In m l -> exists m', In m' ms /\ strip m' = strip m.
  Proof.
    intros ms l m P H. apply (in_map strip) in H. apply (Permutation_in _ (Permutation_sym P)) in H.
    apply in_map_iff in H. destruct H as [x [E Hx]]. eauto.
  Qed.

  Lemma perm_i31 : forall ms l, Permutation (map strip ms) (map strip l) -> Forall raw_i31 ms -> Forall raw_i31 l.
  Proof.
    intros ms l P H. rewrite Forall_forall in *. intros m Hm. destruct (in_perm _ _ _ P Hm) as [m' [H1 E]].
    specialize (H _ H1). injection E as E1 E2 E3. unfold raw_i31 in *. rewrite E1, E2, E3 in H. exact H.
  Qed.

  Lemma by_place_strip : forall l x p, In (x, p) (by_place (map strip l)) <-> exists m, In m l /\ x = strip m /\ p = gen_loc m.
  Proof.
    intros l x p. unfold by_place. rewrite map_map. rewrite in_map_iff. split.
    - intros [m [E H]]. injection E as <- <-. exists m. auto.
    - intros [m [H [-> ->]]]. exists m. auto.
  Qed.

  Lemma strip_lower : forall k m, strip (lower k m) = lower k (strip m).
  Proof. reflexivity. Qed.

  Definition loc_down (k : Z) (p : loc) : loc := (fst p + k, snd p).

  Lemma loc_down_lt : forall k p p', loc_lt (loc_down k p) (loc_down k p') <-> loc_lt p p'.
  Proof. intros k [a b] [a' b']. unfold loc_lt, loc_down. cbn [fst snd]. lia. Qed.
  Lemma loc_down_inj : forall k p p', loc_down k p = loc_down k p' -> p = p'.
  Proof. intros k [a b] [a' b'] H. unfold loc_down in H. cbn [fst snd] in H. injection H as H1 H2. f_equal; lia. Qed.

  Lemma strip_place : forall ms, one_per_place ms -> forall x x' p,
    In (x, p) (by_place (map strip ms)) -> In (x', p) (by_place (map strip ms)) -> x = x'.
  Proof.
    intros ms H1 x x' p H H'. apply by_place_strip in H, H'. destruct H as [m [Hm [-> ->]]]. destruct H' as [m' [Hm' [-> E]]].
    f_equal. apply H1; auto.
  Qed.

  (** the same places, stripped *)
  Lemma nearest_strip : forall ms l q b r, Permutation (map strip ms) (map strip l) -> nearest (by_place l) q b r ->
    nearest (by_place (map strip ms)) q b (option_map strip r).
  Proof.
    intros ms l q b r P H. apply (nearest_moved _ _ strip (fun p => p) (by_place l)); auto; [tauto|].
    intros x p. rewrite by_place_strip. split.
    - intros [m [Hm [-> ->]]]. apply (in_map strip) in Hm. apply (Permutation_in _ P) in Hm. apply in_map_iff in Hm.
      destruct Hm as [y [E Hy]]. exists y, (gen_loc m). split; [|split; [congruence | reflexivity]].
      apply in_map_iff. exists y. split; [|exact Hy]. f_equal. injection E as E1 E2 _. unfold gen_loc. congruence.
    - intros [y [p0 [Hy [-> ->]]]]. apply in_by_place in Hy. destruct Hy as [Hy ->].
      destruct (in_perm _ _ _ P Hy) as [m [Hm E]]. exists m. split; [exact Hm|]. split; [congruence|].
      injection E as E1 E2 _. unfold gen_loc. congruence.
  Qed.

  Lemma nearest_lower : forall k ms q b r, nearest (by_place (map strip ms)) q b r ->
    nearest (by_place (map strip (map (lower k) ms))) (loc_down k q) b (option_map (lower k) r).
  Proof.
    intros k ms q b r H. apply (nearest_moved _ _ (lower k) (loc_down k) (by_place (map strip ms)));
      [apply loc_down_lt | apply loc_down_inj | | exact H].
    intros x p. rewrite by_place_strip. split.
    - intros [m [Hm [-> ->]]]. apply in_map_iff in Hm. destruct Hm as [y [<- Hy]].
      exists (strip y), (gen_loc y). split; [apply by_place_strip; exists y; auto|]. split; reflexivity.
    - intros [a [p0 [Ha [-> ->]]]]. apply by_place_strip in Ha. destruct Ha as [m [Hm [-> ->]]].
      exists (lower k m). split; [apply in_map; exact Hm|]. split; reflexivity.
  Qed.

  Lemma lower_place : forall k ms, one_per_place ms -> one_per_place (map (lower k) ms).
  Proof.
    intros k ms H a b Ha Hb E. apply in_map_iff in Ha, Hb. destruct Ha as [x [<- Hx]], Hb as [y [<- Hy]].
    f_equal. apply H; auto. unfold gen_loc in *. cbn [lower rm_line rm_column] in E. injection E as E1 E2. f_equal; lia.
  Qed.

  (** the answer does not depend on last columns *)
  Lemma outcome_lower : forall k j sources line f f',
    option_map strip f' = option_map (lower k) (option_map strip f) ->
    answered_lower 0 (original_outcome (with_banner k j) sources (line + k) f')
    = answered_lower k (original_outcome j sources line f).
  Proof.
    intros k j sources line [m|] [m'|] E; cbn [option_map] in E; try discriminate; [|reflexivity].
    injection E as E1 E2 E3. unfold original_outcome. rewrite E1, E3. cbn [with_banner smj_names].
    replace (rm_line m + k =? line + k) with (rm_line m =? line) by lia. destruct (rm_line m =? line); [|reflexivity].
    destruct (rm_original m) as [o|]; [|reflexivity]. destruct (find_name (smj_names j) (ol_name o)) as [name|p]; [|reflexivity].
    cbn [answered_lower option_map]. do 2 f_equal. unfold original_answer, written, moved. cbn.
    rewrite E1, E2. f_equal. f_equal. lia.
  Qed.

  (** ** original places *)
  Lemma of_source_iff : forall i l x p, In (x, p) (of_source i l)
    <-> exists m o, In m l /\ rm_original m = Some o /\ ol_source o = i /\ x = strip m /\ p = (ol_line o, ol_column o).
  Proof.
    intros i l x p. induction l as [|m l IH]; cbn [of_source].
    - split; [intros [] | intros [m [o [[] _]]]].
    - split.
      + intros H. destruct (rm_original m) as [o|] eqn:Eo.
        * destruct (ol_source o =? i) eqn:Ei.
          -- destruct H as [H|H].
             ++ injection H as <- <-. exists m, o. split; [left; reflexivity|]. split; [exact Eo|]. split; [lia | split; reflexivity].
             ++ apply IH in H. destruct H as [m' [o' [H1 H2]]]. exists m', o'. split; [right; exact H1 | exact H2].
          -- apply IH in H. destruct H as [m' [o' [H1 H2]]]. exists m', o'. split; [right; exact H1 | exact H2].
        * apply IH in H. destruct H as [m' [o' [H1 H2]]]. exists m', o'. split; [right; exact H1 | exact H2].
      + intros [m' [o [[->|H] [Eo [Ei [-> ->]]]]]].
        * rewrite Eo. replace (ol_source o =? i) with true by lia. left. reflexivity.
        * assert (In (strip m', (ol_line o, ol_column o)) (of_source i l)).
          { apply IH. exists m', o. split; [exact H|]. split; [exact Eo|]. split; [exact Ei | split; reflexivity]. }
          destruct (rm_original m) as [o1|]; [destruct (ol_source o1 =? i)|]; [right|..]; assumption.
  Qed.

  Lemma source_perm : forall ms l i x p, Permutation (map strip ms) (map strip l) ->
    In (x, p) (of_source i l) <-> In (x, p) (of_source i ms).
  Proof.
    assert (X : forall ms l i x p, Permutation (map strip ms) (map strip l) -> In (x, p) (of_source i l) -> In (x, p) (of_source i ms)).
    { intros ms l i x p P H. apply of_source_iff in H. destruct H as [m [o [Hm [Eo [Ei [-> ->]]]]]].
      destruct (in_perm _ _ _ P Hm) as [m' [Hm' E]]. apply of_source_iff. exists m', o. split; [exact Hm'|].
      split; [injection E as _ _ E3; congruence|]. split; [exact Ei|]. split; [congruence | reflexivity]. }
    intros ms l i x p P. split; apply X; [exact P | apply Permutation_sym; exact P].
  Qed.

  Lemma source_lower : forall k ms i x p, In (x, p) (of_source i (map (lower k) ms))
    <-> exists a p0, In (a, p0) (of_source i ms) /\ x = lower k a /\ p = p0.
  Proof.
    intros k ms i x p. rewrite of_source_iff. split.
    - intros [m [o [Hm [Eo [Ei [-> ->]]]]]]. apply in_map_iff in Hm. destruct Hm as [y [<- Hy]].
      exists (strip y), (ol_line o, ol_column o). split; [|split; reflexivity]. apply of_source_iff. exists y, o. auto.
    - intros [a [p0 [Ha [-> ->]]]]. apply of_source_iff in Ha. destruct Ha as [m [o [Hm [Eo [Ei [-> ->]]]]]].
      exists (lower k m), o. split; [apply in_map; exact Hm|]. auto.
  Qed.

  Lemma one_source_place : forall ms i, one_per_original ms -> forall x x' p,
    In (x, p) (of_source i ms) -> In (x', p) (of_source i ms) -> x = x'.
  Proof.
    intros ms i H1 x x' p H H'. apply of_source_iff in H, H'. destruct H as [m [o [Hm [Eo [Ei [-> ->]]]]]].
    destruct H' as [m' [o' [Hm' [Eo' [Ei' [-> E]]]]]]. injection E as E1 E2. f_equal. apply (H1 m m' o o'); congruence.
  Qed.

  Lemma generated_lower : forall k j sources i f f' last last',
    f' = option_map (lower k) f ->
    answered_lower 0 (generated_outcome (with_banner k j) sources i f' last')
    = answered_lower k (generated_outcome j sources i f last).
  Proof.
    intros k j sources i [m|] f' last last' ->; cbn [option_map]; [|reflexivity]. unfold generated_outcome. cbn [lower rm_original with_banner smj_names].
    destruct (rm_original m) as [o|]; [|reflexivity]. destruct (find_name (smj_names j) (Some (Z.of_nat i))) as [name|p]; [|reflexivity].
    cbn [answered_lower option_map]. do 2 f_equal. unfold written, moved. cbn. f_equal. f_equal. lia.
  Qed.

  (** ** two maps, one with lines in front *)
  Section Two.
    Context (j : SourceMapJson) (k : Z) (s : str) (ms : list RawMapping) (url lk : option str)
            (b0 b c0 c : BasicConsumer L) (qs qs' : list query)
            (Hk : 0 <= k) (Es : smj_mappings j = Some s) (Hg : good_text canonical_field s) (Ed : decode_mappings s = Some ms)
            (Hc : k + Z.of_nat (count_occ N.eq_dec s (ch ";")) < 2^32)
            (Hi : Forall raw_i31 (map (lower k) ms))
            (Ob : opened_map md L U j url b0 lk) (Oc : opened_map md L U (with_banner k j) url c0 lk)
            (Ab : asked md L U b0 qs = Ok b) (Ac : asked md L U c0 qs' = Ok c)
            (few : len (bc_get_sources L b0) < 2^31).

    Lemma same_lists : bc_get_sources L c0 = bc_get_sources L b0.
    Proof.
      destruct (opened_map_urls md L U _ _ _ _ Ob) as [_ [_ [_ [s1 [E1 F1]]]]].
      destruct (opened_map_urls md L U _ _ _ _ Oc) as [_ [_ [_ [s2 [E2 F2]]]]].
      cbn [with_banner smj_sources smj_source_root] in *. congruence.
    Qed.

    Lemma read_plain : readable L (bc_source_map b0) /\ exists l, reports L b l /\ Permutation (map strip ms) (map strip l).
    Proof.
      destruct (opened_map_urls md L U _ _ _ _ Ob) as [Ho [_ [Ej _]]].
      apply (reads b0 qs b s ms Ho Ab); [rewrite Ej; exact Es | exact Hg | lia | exact Ed].
    Qed.

    Lemma read_lower : readable L (bc_source_map c0)
      /\ exists l, reports L c l /\ Permutation (map strip (map (lower k) ms)) (map strip l).
    Proof.
      destruct (opened_map_urls md L U _ _ _ _ Oc) as [Ho [_ [Ej _]]].
      apply (reads c0 qs' c (banner k ++ s) (map (lower k) ms) Ho Ac).
      - rewrite Ej. cbn [with_banner smj_mappings]. rewrite Es. reflexivity.
      - apply good_banner. exact Hg.
      - rewrite count_banner by exact Hk. exact Hc.
      - rewrite decode_banner by exact Hk. rewrite Ed. reflexivity.
    Qed.

    Lemma plain_i31 : Forall raw_i31 ms.
    Proof.
      rewrite Forall_forall in *. intros m Hm. specialize (Hi (lower k m) (in_map _ _ _ Hm)).
      unfold raw_i31, i31 in *. cbn [lower rm_line rm_column rm_original] in Hi. destruct Hi as [H1 [H2 H3]].
      split; [lia|]. split; [exact H2 | exact H3].
    Qed.

    Lemma each_lower : forall l l', reports L b l -> reports L c l' ->
      Permutation (map strip (map (lower k) l)) (map strip l').
    Proof.
      intros l l' R R'. destruct read_plain as [_ [l1 [R1 P1]]]. destruct read_lower as [_ [l2 [R2 P2]]].
      unfold reports in *. assert (l1 = l) by congruence. assert (l2 = l') by congruence. subst l1 l2.
      eapply perm_trans; [|exact P2]. rewrite !map_map.
      change (fun x => strip (lower k x)) with (fun x => lower k (strip x)). rewrite <- !(map_map strip (lower k)).
      apply Permutation_map. apply Permutation_sym. exact P1.
    Qed.

    Lemma original_lower : forall line column bias, one_per_place ms ->
      position_ok line column -> line + k <= i32_max ->
      answered_lower 0 (answer (bc_original_position_for md L c (mkPos (line + k) column) bias))
      = answered_lower k (answer (bc_original_position_for md L b (mkPos line column) bias)).
    Proof.
      intros line column bias H1 [[P1 P2] P3] Hl.
      destruct (opened_map_urls md L U _ _ _ _ Ob) as [Hob [_ [Ejb _]]].
      destruct (opened_map_urls md L U _ _ _ _ Oc) as [Hoc [_ [Ejc _]]].
      destruct read_plain as [Rb [l [R P]]]. destruct read_lower as [Rc [l' [R' P']]].
      destruct (original_spec md L U HL b0 qs b (mkPos line column) bias l Hob Ab few Rb R
        (perm_i31 _ _ P plain_i31) (conj (conj P1 P2) P3)) as [f [Nf ->]].
      assert (Hp' : position_ok (line + k) column) by (split; [split; [lia | exact Hl] | exact P3]).
      assert (few' : len (bc_get_sources L c0) < 2^31) by (rewrite same_lists; exact few).
      destruct (original_spec md L U HL c0 qs' c (mkPos (line + k) column) bias l' Hoc Ac few' Rc R'
        (perm_i31 _ _ P' Hi) Hp') as [f' [Nf' ->]].
      cbn [p_line p_column] in *. rewrite Ejb, Ejc, same_lists. apply outcome_lower.
      apply (nearest_strip _ _ _ _ _ P) in Nf. apply (nearest_strip _ _ _ _ _ P') in Nf'.
      apply (nearest_lower k) in Nf. unfold loc_down in Nf. cbn [fst snd] in Nf. replace (line - 1 + k) with (line + k - 1) in Nf by lia.
      apply (nearest_one _ _ _ _ _ _ (strip_place _ (lower_place k ms H1)) Nf' Nf).
    Qed.

    Lemma generated_lower_for : forall src line column bias, one_per_original ms -> position_ok line column ->
      answered_lower 0 (answer (bc_generated_position_for md L U c src line column bias))
      = answered_lower k (answer (bc_generated_position_for md L U b src line column bias)).
    Proof.
      intros src line column bias H1 Hp.
      destruct (opened_map_urls md L U _ _ _ _ Ob) as [Hob [Eub [Ejb _]]].
      destruct (opened_map_urls md L U _ _ _ _ Oc) as [Hoc [Euc [Ejc _]]].
      assert (few' : len (bc_get_sources L c0) < 2^31) by (rewrite same_lists; exact few).
      assert (El : source_lookup md L U c0 src = source_lookup md L U b0 src).
      { unfold source_lookup. rewrite Eub, Euc, Ejb, Ejc, same_lists. reflexivity. }
      destruct (source_query_guards md L U b0 qs b src Hob Ab few) as [G1 [G2 _]].
      destruct (source_query_guards md L U c0 qs' c src Hoc Ac few') as [G1' [G2' _]].
      destruct (source_lookup md L U b0 src) as [[i|]|p] eqn:Elb.
      - destruct read_plain as [Rb [l [R P]]]. destruct read_lower as [Rc [l' [R' P']]].
        destruct (generated_spec md L U HL b0 qs b src i line column bias l Hob Ab few Rb R
          (perm_i31 _ _ P plain_i31) Elb Hp) as [f [last [Nf [-> _]]]].
        destruct (generated_spec md L U HL c0 qs' c src i line column bias l' Hoc Ac few' Rc R'
          (perm_i31 _ _ P' Hi) El Hp) as [f' [last' [Nf' [-> _]]]].
        rewrite Ejb, Ejc, same_lists. apply generated_lower.
        apply (nearest_moved _ _ (lower k) (fun p => p) _ (of_source (Z.of_nat i) l')) in Nf; [|tauto|auto|].
        + refine (nearest_one _ _ _ _ _ _ _ Nf' Nf). intros x x' p H H'. apply (source_perm _ _ _ _ _ P') in H. apply (source_perm _ _ _ _ _ P') in H'.
          apply source_lower in H, H'. destruct H as [a [p0 [Ha [-> ->]]]]. destruct H' as [a' [p1 [Ha' [-> <-]]]].
          f_equal. exact (one_source_place _ _ H1 _ _ _ Ha Ha').
        + intros x p. rewrite (source_perm _ _ _ _ _ P'). rewrite source_lower. split; intros [a [p0 [Ha X]]]; exists a, p0;
            (split; [|exact X]); apply (source_perm _ _ _ _ _ P); exact Ha.
      - rewrite (proj1 (G2 eq_refl)), (proj1 (G2' El)). reflexivity.
      - rewrite (proj1 (G1 p eq_refl)), (proj1 (G1' p El)). reflexivity.
    Qed.
  End Two.
End Banner.
