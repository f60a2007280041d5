(** * Lemmas about the order of answers (C117) *)
From Verif Require Import F_Base M_ArraySet M_Mapping M_Util M_SourceMap M_Json M_MapLib M_Consumer
  S_List S_Mapping S_MapLib S_Consumer S_Back F_Consumer F_ConsumerProps F_Back.
From Coq Require Import Sorting.Sorted Sorting.Permutation.

Definition places_in {A B} (l : list (A * loc)) (l' : list (B * loc)) : Prop := forall x p, In (x, p) l -> exists y, In (y, p) l'.

Lemma loc_trich : forall p q : loc, loc_lt p q \/ p = q \/ loc_lt q p.
Proof.
  intros [a b] [c d]. unfold loc_lt. cbn. destruct (Z.lt_trichotomy a c) as [?|[?|?]]; [lia| |lia].
  destruct (Z.lt_trichotomy b d) as [?|[?|?]]; [lia| |lia]. right; left. congruence.
Qed.
Lemma loc_le_lt_trans : forall p q r, loc_le p q -> loc_lt q r -> loc_lt p r.
Proof. intros p q r [H| ->] K; [|exact K]. unfold loc_lt in *. lia. Qed.
Lemma loc_le_trans' : forall p q r, loc_le p q -> loc_le q r -> loc_le p r.
Proof. intros p q r H [K| <-]; [left; eapply loc_le_lt_trans; eassumption|exact H]. Qed.
Lemma loc_lt_irr : forall p, ~ loc_lt p p.
Proof. intros p. unfold loc_lt. lia. Qed.

Lemma nearest_mono : forall A B (l : list (A * loc)) (l' : list (B * loc)) q q' b a a', places_in l l' -> places_in l' l ->
  nearest l q b (Some a) -> nearest l' q' b (Some a') -> loc_le q q' ->
  exists p p', In (a, p) l /\ In (a', p') l' /\ loc_le p p'.
Proof.
  intros A B l l' q q' b a a' S S' [p [I H]] [p' [I' H']] Q. exists p, p'. split; [exact I|]. split; [exact I'|].
  destruct (S _ _ I) as [y Iy]. destruct (S' _ _ I') as [x Ix]. destruct b.
  - assert (P : loc_le p q) by (destruct H as [->|[_ [H _]]]; [right; reflexivity|left; exact H]).
    pose proof (loc_le_trans' _ _ _ P Q) as P'. destruct H' as [->|[N [_ M]]]; [exact P'|].
    destruct P' as [P'|P']; [exact (M _ _ Iy P')|]. exfalso. exact (N _ _ Iy P').
  - assert (P : loc_le q' p') by (destruct H' as [->|[_ [H' _]]]; [right; reflexivity|left; exact H']).
    pose proof (loc_le_trans' _ _ _ Q P) as P'. destruct H as [->|[N [_ M]]]; [exact P'|].
    destruct P' as [P'|P']; [exact (M _ _ Ix P')|]. exfalso. exact (N _ _ Ix (eq_sym P')).
Qed.

Lemma nearest_none : forall A B (l : list (A * loc)) (l' : list (B * loc)) q q' b r, places_in l' l ->
  nearest l q b None -> nearest l' q' b r -> match b with GreatestLowerBound => loc_le q' q | LeastUpperBound => loc_le q q' end -> r = None.
Proof.
  intros A B l l' q q' b [r|] S N H Q; [|reflexivity]. exfalso. destruct H as [p [I H]]. destruct (S _ _ I) as [x Ix]. specialize (N _ _ Ix).
  apply (loc_lt_irr q). destruct b.
  - assert (P : loc_le p q') by (destruct H as [->|[_ [H _]]]; [right; reflexivity|left; exact H]).
    pose proof (loc_le_trans' _ _ _ P Q) as P'. destruct P' as [P'| ->]; [|exact N]. unfold loc_lt in *. lia.
  - assert (P : loc_le q' p) by (destruct H as [->|[_ [H _]]]; [right; reflexivity|left; exact H]).
    pose proof (loc_le_trans' _ _ _ Q P) as P'. eapply loc_le_lt_trans; eassumption.
Qed.

Lemma of_source_strip : forall i l l', map strip l = map strip l' -> of_source i l = of_source i l'.
Proof.
  intros i. induction l as [|m l IH]; intros [|m' l'] E; try discriminate; [reflexivity|]. cbn [map] in E.
  assert (E1 : strip m = strip m') by congruence. assert (E2 : map strip l = map strip l') by congruence. cbn [of_source].
  assert (Eo : rm_original m = rm_original m') by (change (rm_original (strip m) = rm_original (strip m')); congruence).
  rewrite Eo, E1, (IH _ E2). reflexivity.
Qed.
Lemma by_place_places : forall l l', map strip l = map strip l' -> places_in (by_place l) (by_place l').
Proof.
  intros l l' E x p H. apply in_map_iff in H. destruct H as [m [X I]]. injection X as <- <-.
  destruct (in_stripped _ _ _ (eq_sym E) I) as [m' [I' S]]. exists m'. apply in_map_iff. exists m'. split; [|exact I'].
  unfold gen_loc. change (rm_line m) with (rm_line (strip m)). change (rm_column m) with (rm_column (strip m)). rewrite <- S. reflexivity.
Qed.

Lemma loc_of_pos : forall g g' : Position, pos_le g g' -> loc_le (p_line g - 1, p_column g) (p_line g' - 1, p_column g').
Proof.
  intros g g' H. unfold pos_le, loc_le, loc_lt in *. cbn.
  destruct H as [H|[E H]]; [left; lia|]. apply Z.lt_eq_cases in H. destruct H as [H|H]; [left; lia|]. right. f_equal; lia.
Qed.

Section Cross.
  Context (md : mode) (L : MapLib) (U : UrlLib) (HL : MapLibOk L).

  Lemma original_cross : forall c0 qs qs' c c' l0 g g' b a a', opened md L U c0 -> asked md L U c0 qs = Ok c -> asked md L U c0 qs' = Ok c' ->
    len (bc_get_sources L c0) < 2^31 -> readable L (bc_source_map c0) -> reports L c0 l0 -> Forall raw_i31 l0 ->
    position_ok (p_line g) (p_column g) -> position_ok (p_line g') (p_column g') -> pos_le g g' ->
    answer (bc_original_position_for md L c g b) = Ok (Some a) -> answer (bc_original_position_for md L c' g' b) = Ok (Some a') ->
    pos_le (m_generated a) (m_generated a').
  Proof.
    intros c0 qs qs' c c' l0 g g' b a a' Ho H H' Hlen Hr R0 Hi0 Hp Hp' Hg A A'.
    destruct (reports_later md L U HL _ _ _ _ Ho H Hr R0 Hi0) as [l [R [E [Hi _]]]].
    destruct (reports_later md L U HL _ _ _ _ Ho H' Hr R0 Hi0) as [l' [R' [E' [Hi' _]]]].
    destruct (original_spec md L U HL _ _ _ g b _ Ho H Hlen Hr R Hi Hp) as [f [N O]].
    destruct (original_spec md L U HL _ _ _ g' b _ Ho H' Hlen Hr R' Hi' Hp') as [f' [N' O']].
    rewrite A in O. rewrite A' in O'.
    assert (X : forall line f a, Ok (Some a) = original_outcome (bc_source_map c0) (bc_get_sources L c0) line f ->
      exists m, f = Some m /\ m_generated a = mkPos (rm_line m + 1) (rm_column m)).
    { clear. intros line [m|] a H; [|discriminate]. cbn in H. destruct (rm_line m =? line); [|discriminate].
      destruct (rm_original m) as [o|]; [|discriminate]. destruct (find_name _ _); [|discriminate]. injection H as ->. exists m. auto. }
    destruct (X _ _ _ O) as [m [-> G]]. destruct (X _ _ _ O') as [m' [-> G']].
    destruct (nearest_mono _ _ _ _ _ _ _ _ _ (by_place_places l l' (eq_trans E (eq_sym E'))) (by_place_places l' l (eq_trans E' (eq_sym E))) N N' (loc_of_pos _ _ Hg))
      as [p [p' [I [I' P]]]].
    apply in_map_iff in I. destruct I as [x [X1 _]]. injection X1 as -> <-. apply in_map_iff in I'. destruct I' as [x' [X1 _]]. injection X1 as -> <-.
    rewrite G, G'. unfold loc_le, loc_lt, gen_loc, pos_le in *. cbn in *. destruct P as [P|P]; [lia|]. injection P as P1 P2. lia.
  Qed.

  Lemma generated_cross : forall c0 qs qs' c c' l0 src line column line' column' b a a', opened md L U c0 ->
    asked md L U c0 qs = Ok c -> asked md L U c0 qs' = Ok c' ->
    len (bc_get_sources L c0) < 2^31 -> readable L (bc_source_map c0) -> reports L c0 l0 -> Forall raw_i31 l0 ->
    position_ok line column -> position_ok line' column' -> pos_le (mkPos line column) (mkPos line' column') ->
    answer (bc_generated_position_for md L U c src line column b) = Ok (Some a) ->
    answer (bc_generated_position_for md L U c' src line' column' b) = Ok (Some a') ->
    exists o o', m_original a = Some o /\ m_original a' = Some o' /\ pos_le o o'.
  Proof.
    intros c0 qs qs' c c' l0 src line column line' column' b a a' Ho H H' Hlen Hr R0 Hi0 Hp Hp' Hg A A'.
    destruct (source_query_guards md L U _ _ _ src Ho H Hlen) as [G1 [G2 _]].
    destruct (source_lookup md L U c0 src) as [[i|]|p] eqn:El.
    2: { rewrite (proj1 (G2 eq_refl)) in A. discriminate. }
    2: { rewrite (proj1 (G1 _ eq_refl)) in A. discriminate. }
    destruct (reports_later md L U HL _ _ _ _ Ho H Hr R0 Hi0) as [l [R [E [Hi _]]]].
    destruct (reports_later md L U HL _ _ _ _ Ho H' Hr R0 Hi0) as [l' [R' [E' [Hi' _]]]].
    destruct (generated_spec md L U HL _ _ _ src i line column b _ Ho H Hlen Hr R Hi El Hp) as [f [la [N [O _]]]].
    destruct (generated_spec md L U HL _ _ _ src i line' column' b _ Ho H' Hlen Hr R' Hi' El Hp') as [f' [la' [N' [O' _]]]].
    rewrite A in O. rewrite A' in O'. rewrite <- (of_source_strip _ _ _ (eq_trans E (eq_sym E'))) in N'.
    assert (X : forall f la a, Ok (Some a) = generated_outcome (bc_source_map c0) (bc_get_sources L c0) i f la ->
      exists m o, f = Some m /\ rm_original m = Some o /\ m_original a = Some (mkPos (ol_line o) (ol_column o))).
    { clear. intros [m|] la a H; [|discriminate]. cbn in H. destruct (rm_original m) as [o|] eqn:Eo; [|discriminate].
      destruct (match smj_names _ with Some _ => _ | None => _ end); [|discriminate]. injection H as ->. exists m, o. auto. }
    destruct (X _ _ _ O) as [m [o [-> [Eo G]]]]. destruct (X _ _ _ O') as [m' [o' [-> [Eo' G']]]].
    assert (S : places_in (of_source (Z.of_nat i) l) (of_source (Z.of_nat i) l)) by (intros x p I; eauto).
    destruct (nearest_mono _ _ _ _ _ _ _ _ _ S S N N' (loc_of_pos _ _ Hg)) as [p [p' [I [I' P]]]].
    destruct (in_of_source _ _ _ _ I) as [u [Eu [_ [-> _]]]]. destruct (in_of_source _ _ _ _ I') as [u' [Eu' [_ [-> _]]]].
    assert (u = o) by congruence. assert (u' = o') by congruence. subst u u'.
    do 2 eexists. split; [exact G|]. split; [exact G'|].
    unfold loc_le, loc_lt, pos_le in *. cbn in *. destruct P as [P|P]; [lia|]. injection P as P1 P2. lia.
  Qed.

  Lemma generated_none : forall c0 qs qs' c c' l0 src line column line' column' b, opened md L U c0 ->
    asked md L U c0 qs = Ok c -> asked md L U c0 qs' = Ok c' ->
    len (bc_get_sources L c0) < 2^31 -> readable L (bc_source_map c0) -> reports L c0 l0 -> Forall raw_i31 l0 ->
    position_ok line column -> position_ok line' column' ->
    match default_bias b with
    | GreatestLowerBound => pos_le (mkPos line' column') (mkPos line column)
    | LeastUpperBound => pos_le (mkPos line column) (mkPos line' column')
    end ->
    answer (bc_generated_position_for md L U c src line column b) = Ok None ->
    answer (bc_generated_position_for md L U c' src line' column' b) = Ok None.
  Proof.
    intros c0 qs qs' c c' l0 src line column line' column' b Ho H H' Hlen Hr R0 Hi0 Hp Hp' Hg A.
    destruct (source_query_guards md L U _ _ _ src Ho H Hlen) as [G1 [G2 _]].
    destruct (source_query_guards md L U _ _ _ src Ho H' Hlen) as [G1' [G2' _]].
    destruct (source_lookup md L U c0 src) as [[i|]|p] eqn:El.
    2: { apply (proj1 (G2' eq_refl)). }
    2: { rewrite (proj1 (G1 _ eq_refl)) in A. discriminate. }
    destruct (reports_later md L U HL _ _ _ _ Ho H Hr R0 Hi0) as [l [R [E [Hi _]]]].
    destruct (reports_later md L U HL _ _ _ _ Ho H' Hr R0 Hi0) as [l' [R' [E' [Hi' _]]]].
    destruct (generated_spec md L U HL _ _ _ src i line column b _ Ho H Hlen Hr R Hi El Hp) as [f [la [N [O _]]]].
    destruct (generated_spec md L U HL _ _ _ src i line' column' b _ Ho H' Hlen Hr R' Hi' El Hp') as [f' [la' [N' [O' _]]]].
    rewrite A in O. rewrite <- (of_source_strip _ _ _ (eq_trans E (eq_sym E'))) in N'.
    assert (f = None).
    { destruct f as [m|]; [|reflexivity]. destruct N as [p [I _]]. destruct (in_of_source _ _ _ _ I) as [u [Eu _]]. cbn in O. rewrite Eu in O.
      destruct (match smj_names _ with Some _ => _ | None => _ end); discriminate. }
    subst f. assert (S : places_in (of_source (Z.of_nat i) l) (of_source (Z.of_nat i) l)) by (intros x p I; eauto).
    assert (f' = None).
    { eapply nearest_none; [exact S|exact N|exact N'|]. destruct (default_bias b).
      - exact (loc_of_pos (mkPos line' column') (mkPos line column) Hg).
      - exact (loc_of_pos (mkPos line column) (mkPos line' column') Hg). }
    subst f'. exact O'.
  Qed.
End Cross.
