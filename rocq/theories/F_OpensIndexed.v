(** * Which indexed maps open: lemmas *)
From Verif Require Import Base F_Base M_Mapping M_ArraySet F_ArraySet M_Util M_SourceMap M_Json M_MapLib M_Consumer M_Indexed
  S_Url S_Refs S_Opens S_OpensAt S_Mapping S_Json S_Consumer S_Indexed S_OpensIndexed F_UrlRef F_Json F_Opens F_OpensAt F_Indexed.

(** Offsets are read as i32. *)
Lemma section_list_offsets : forall d vs l, section_list d vs l -> Forall i32_offset l.
Proof.
  intros d vs l. revert vs. induction l as [|s l IH]; intros vs H; [constructor|].
  inversion H as [|? v vs' ? ? H1 H2]; subst. constructor; [|eapply IH; exact H2].
  inversion H1 as [? ? ? ? ? offset ? ? _ P]; subst. inversion P as [? ? ? ? ? ? _ [_ P1] [_ P2]]; subst.
  unfold i32_offset, i32_min, i32_max. cbn [js_offset p_line p_column]. change (2 ^ 31) with 2147483648. lia.
Qed.

Lemma parsed_offsets : forall t j l, smj_from_str t = Some j -> smj_sections j = Some l -> Forall i32_offset l.
Proof.
  intros t j l H E. apply smj_from_str_iff in H. destruct H as [v [_ H]].
  remember 127%nat as n eqn:En. clear En. destruct H. cbn [smj_sections] in E. subst sections.
  match goal with X : optional (sections_value _) _ (Some l) |- _ => inversion X as [| |? ? _ Y]; subst end.
  inversion Y as [? ? ? Z]; subst. eapply section_list_offsets. exact Z.
Qed.

Section OpensIndexed.
  Context (md : mode) (U : UrlLib) (C : UrlContract U) (L : MapLib) (url : option str) (w : option ref) (MA : leads md U url w).

  Lemma piece_opens : forall s d, section_of s d -> written_piece w d ->
    (usable md w d -> exists sec, section_opens md L U url s sec
       /\ bc_get_sources L (sec_consumer sec) = map (fun r => ref_text (location_at w (pc_root d) r)) (piece_sources d)
       /\ raw_sources L sec = map ref_text (piece_sources d))
    /\ (forall sec, section_opens md L U url s sec -> usable md w d).
  Proof.
    intros s d [E1 [E2 [E3 E4]]] [W1 [W2 W3]].
    destruct (all_sources_at md U C url w (pc_root d) (piece_sources d) MA W1 W2 W3) as [A1 A2].
    unfold usable, section_opens, bc_from_source_map_json, compute_absolute_sources, raw_sources.
    rewrite E2, E3, E4. unfold piece_sources in *. destruct (pc_sources d) as [ss|]; cbn [option_map unwrap bind] in *.
    - split.
      + intros [Q [N [_ A]]]. rewrite A1 by exact A. cbn [bind].
        eexists (mkSection (mkPos (next_i32 (p_line (js_offset s))) (next_i32 (p_column (js_offset s)))) _).
        cbn [sec_generated_offset sec_consumer].
        split; [split; [exact N|split; [split; [reflexivity|rewrite E1; exact Q]|reflexivity]]|].
        unfold bc_get_sources. cbn [bc_absolute_sources bc_source_map]. rewrite E3. split; [apply as_from_array_vec|reflexivity].
      + intros sec [N [[_ Q] H]]. rewrite E1 in Q. split; [exact Q|]. split; [exact N|]. split; [discriminate|].
        destruct (Forall_dec (acceptable_at w (pc_root d)) (acceptable_at_dec w (pc_root d)) ss) as [Y|F]; [exact Y|].
        rewrite A2 in H by exact F. discriminate.
    - split; [intros [_ [_ [N _]]]; contradiction|]. intros sec [_ [_ H]]. discriminate.
  Qed.

  Lemma arranged_map : forall A B (R : A -> B -> Prop) l l2 order l', Forall2 R l l2 -> arranged l order l' ->
    exists l2', arranged l2 order l2' /\ Forall2 R l' l2'.
  Proof.
    intros A B R l l2 order l' H. induction 1 as [|i x order l' Hi _ [v [I1 I2]]].
    - exists []. split; constructor.
    - destruct (Forall2_nth_l _ _ _ _ _ _ _ H Hi) as [y [Y1 Y2]]. exists (y :: v). split; constructor; assumption.
  Qed.

  Lemma same_offsets : forall l ds, Forall2 section_of l ds -> map js_offset l = map pc_offset ds.
  Proof. induction 1 as [|s d l ds [E _] _ IH]; cbn; congruence. Qed.

  Lemma Forall2_swap : forall A B (R : A -> B -> Prop) l m, Forall2 R l m -> Forall2 (fun b a => R a b) m l.
  Proof. induction 1; constructor; assumption. Qed.

  Lemma timed : forall l ds order, Forall2 section_of l ds ->
    (well_timed ds order <-> exists l', arranged l order l' /\ S_Indexed.in_order (map js_offset l')).
  Proof.
    intros l ds order H. split.
    - intros [ds' [A O]]. destruct (arranged_map _ _ _ _ _ _ _ (Forall2_swap _ _ _ _ _ H) A) as [l' [A' H']].
      exists l'. split; [exact A'|]. rewrite (same_offsets l' ds'); [exact O|]. apply Forall2_swap in H'. exact H'.
    - intros [l' [A O]]. destruct (arranged_map _ _ _ _ _ _ _ H A) as [ds' [A' H']].
      exists ds'. split; [exact A'|]. rewrite <- (same_offsets l' ds' H'). exact O.
  Qed.

  Lemma all_pieces : forall l ds, Forall2 section_of l ds -> Forall (written_piece w) ds ->
    (Forall (usable md w) ds -> exists secs, Forall2 (section_opens md L U url) l secs
       /\ map (fun s => bc_get_sources L (sec_consumer s)) secs
          = map (fun d => map (fun r => ref_text (location_at w (pc_root d) r)) (piece_sources d)) ds
       /\ map (raw_sources L) secs = map (fun d => map ref_text (piece_sources d)) ds)
    /\ (forall secs, Forall2 (section_opens md L U url) l secs -> Forall (usable md w) ds).
  Proof.
    induction 1 as [|s d l ds H1 _ IH]; intros W.
    - split; [intros _; exists []; repeat split; constructor|constructor].
    - inversion W as [|a b W1 W2 Ea]. subst. destruct (IH W2) as [I1 I2]. destruct (piece_opens s d H1 W1) as [P1 P2]. split.
      + intros F. inversion F as [|a b F1 F2 Ea]. subst. destruct (P1 F1) as [sec [S1 [S2 S3]]].
        destruct (I1 F2) as [secs [T1 [T2 T3]]]. exists (sec :: secs). cbn [map]. rewrite S2, S3, T2, T3.
        split; [constructor; assumption|]. split; reflexivity.
      + intros secs F. inversion F as [|a b c e F1 F2 Ea Eb]. subst. constructor; [eapply P2|eapply I2]; eassumption.
  Qed.

  Context (order : list nat) (t : str) (j : SourceMapJson) (l : list JSection) (ds : list piece).
  Context (R : smj_from_str t = Some j) (ES : smj_sections j = Some l) (D : Forall2 section_of l ds)
    (W : Forall (written_piece w) ds) (S : schedule order (length ds)).

  Lemma opens_indexed_in :
    (smj_version j = 3 /\ Forall (usable md w) ds /\ well_timed ds order ->
     exists c, create_consumer md L U order t url = Ok (Some (CIndexed c)) /\ ic_new md L U order t url = Ok c
       /\ map sec_generated_offset (sections_of L c)
          = map (fun d => mkPos (next_i32 (p_line (pc_offset d))) (next_i32 (p_column (pc_offset d)))) ds
       /\ map (fun s => bc_get_sources L (sec_consumer s)) (sections_of L c)
          = map (fun d => map (fun r => ref_text (location_at w (pc_root d) r)) (piece_sources d)) ds
       /\ answer (ic_get_sources L c) = Ok (concat (map (fun d => map ref_text (piece_sources d)) ds)))
    /\ (~ (smj_version j = 3 /\ Forall (usable md w) ds /\ well_timed ds order) ->
        exists p, create_consumer md L U order t url = Panic p /\ ic_new md L U order t url = Panic p).
  Proof.
    pose proof (Forall2_len _ _ _ _ _ D) as LE.
    assert (Hh : forall l0, smj_sections j = Some l0 -> schedule order (length l0) /\ Forall i32_offset l0).
    { intros l0 E. rewrite ES in E. inversion E. subst l0. split; [rewrite LE; exact S|exact (parsed_offsets t j l R ES)]. }
    pose proof (fun c => opening md L U order j url c Hh) as O.
    destruct (all_pieces l ds D W) as [A1 A2]. destruct (timed l ds order D) as [T1 T2].
    unfold create_consumer, ic_new. rewrite R. cbn [unwrap_ok bind]. rewrite ES. cbn [is_some]. split.
    - intros [V [F T]]. destruct (A1 F) as [secs [S1 [S2 S3]]]. destruct (T1 T) as [l' [B1 B2]].
      exists (mkIC j (mkCell 0 secs)).
      assert (E : ic_from_source_map_json md L U order j url = Ok (mkIC j (mkCell 0 secs))).
      { apply (proj2 (O _)). split; [exact V|]. exists l, l', secs.
        split; [exact ES|]. split; [exact B1|]. split; [exact B2|]. split; [exact S1|reflexivity]. }
      rewrite E. split; [reflexivity|]. split; [reflexivity|]. split; [|split; [exact S2|]].
      + unfold sections_of. cbn [ic_sections rc_val]. clear - S1 D. revert ds D.
        induction S1 as [|s sec l secs [_ [[H _] _]] _ IH]; intros ds D; inversion D as [|a b c e [D1 _] D2 Ea Eb]; subst; [reflexivity|].
        cbn [map]. rewrite H, D1. f_equal. apply IH. exact D2.
      + assert (IO : iopened md L U (mkIC j (mkCell 0 secs))).
        { exists order, j, url, l. split; [exact ES|]. destruct (Hh l ES) as [H1 H2]. split; [exact H1|]. split; [exact H2|exact E]. }
        rewrite (get_sources_spec md L U _ _ _ (iopened_follows md L U _ IO)).
        unfold sections_of. cbn [ic_sections rc_val answer]. rewrite S3. reflexivity.
    - intros N. destruct (ic_from_source_map_json md L U order j url) as [c|p] eqn:E.
      + exfalso. apply N. destruct (proj1 (O c) eq_refl) as [V [l0 [l' [secs [E0 [B1 [B2 [B3 _]]]]]]]].
        rewrite ES in E0. inversion E0. subst l0. split; [exact V|]. split; [exact (A2 _ B3)|]. apply T2. exists l'. split; assumption.
      + exists p. split; reflexivity.
  Qed.
End OpensIndexed.

Lemma opens_indexed : forall (md : mode) (U : UrlLib) (C : UrlContract U) (L : MapLib) (m w : option ref), map_at m w ->
  forall (order : list nat) (t : str) (j : SourceMapJson) (l : list JSection) (ds : list piece),
  smj_from_str t = Some j -> smj_sections j = Some l -> Forall2 section_of l ds -> Forall (written_piece w) ds ->
  schedule order (length ds) ->
  let url := option_map ref_text m in
  (smj_version j = 3 /\ Forall (usable md w) ds /\ well_timed ds order ->
   exists c, create_consumer md L U order t url = Ok (Some (CIndexed c)) /\ ic_new md L U order t url = Ok c
     /\ map sec_generated_offset (sections_of L c)
        = map (fun d => mkPos (next_i32 (p_line (pc_offset d))) (next_i32 (p_column (pc_offset d)))) ds
     /\ map (fun s => bc_get_sources L (sec_consumer s)) (sections_of L c)
        = map (fun d => map (fun r => ref_text (location_at w (pc_root d) r)) (piece_sources d)) ds
     /\ answer (ic_get_sources L c) = Ok (concat (map (fun d => map ref_text (piece_sources d)) ds)))
  /\ (~ (smj_version j = 3 /\ Forall (usable md w) ds /\ well_timed ds order) ->
      exists p, create_consumer md L U order t url = Panic p /\ ic_new md L U order t url = Panic p).
Proof. intros. eapply opens_indexed_in; try eassumption. apply map_leads; assumption. Qed.
