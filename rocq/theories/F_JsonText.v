(** * The parser accepts exactly the grammar of S_Json *)
From Verif Require Import Base F_Base M_Util M_SourceMap M_Json S_Json F_Dec.

(** ** white space *)
Lemma is_ws_iff : forall c, is_ws c = true <-> In c [32; 9; 10; 13]%N.
Proof.
  intros c. unfold is_ws. cbn [In]. rewrite !orb_true_iff, !N.eqb_eq. intuition congruence.
Qed.

Definition no_ws (s : str) : Prop := match s with c :: _ => is_ws c = false | [] => True end.

Lemma skip_ws_white : forall w s, white w -> skip_ws (w ++ s) = skip_ws s.
Proof.
  intros w s H. induction H as [|c w Hc Hw IH]; cbn; [reflexivity|].
  apply is_ws_iff in Hc. rewrite Hc. exact IH.
Qed.

Lemma skip_ws_no : forall s, no_ws s -> skip_ws s = s.
Proof. intros [|c s] H; cbn in *; [reflexivity|]. rewrite H. reflexivity. Qed.

Lemma skip_ws_stop : forall w s, white w -> no_ws s -> skip_ws (w ++ s) = s.
Proof. intros. rewrite skip_ws_white by assumption. apply skip_ws_no. assumption. Qed.

Lemma skip_ws_split : forall s, exists w, white w /\ s = w ++ skip_ws s /\ no_ws (skip_ws s).
Proof.
  induction s as [|c s [w [Hw [E N]]]]; cbn.
  - exists []. repeat split. constructor.
  - destruct (is_ws c) eqn:Ec.
    + exists (c :: w). cbn. rewrite <- E. repeat split; try assumption.
      constructor; [apply is_ws_iff; exact Ec|exact Hw].
    + exists []. cbn. repeat split; [constructor|exact Ec].
Qed.

(** ** digits *)
Lemma is_digit_iff : forall c, is_digit c = true <-> exists d, digit c d.
Proof.
  intros c. unfold is_digit, digit. split.
  - intros H. exists (Z.of_N c - 48). unfold char in *. split; lia.
  - intros [d [H ->]]. unfold char in *. lia.
Qed.

Lemma digit_val : forall c d, digit c d -> Z.of_N c - 48 = d.
Proof. intros c d [H ->]. unfold char in *. lia. Qed.

Lemma digits_val_snoc : forall t c, digits_val (t ++ [c]) = digits_val t * 10 + (Z.of_N c - 48).
Proof. intros. unfold digits_val. rewrite fold_left_app. reflexivity. Qed.

Lemma digits_iff : forall t z, digits t z <-> forallb is_digit t = true /\ digits_val t = z.
Proof.
  intros t z. split.
  - intros H. induction H as [|t z c d H [IH1 IH2] Hd]; [split; reflexivity|].
    rewrite forallb_app, digits_val_snoc, IH1, IH2. cbn [forallb].
    rewrite (proj2 (is_digit_iff c) (ex_intro _ d Hd)), (digit_val _ _ Hd). split; [reflexivity|lia].
  - revert z. induction t as [|c t IH] using rev_ind; intros z [H1 H2].
    + cbn in H2. subst. constructor.
    + rewrite forallb_app in H1. cbn [forallb] in H1. rewrite !andb_true_iff in H1.
      destruct H1 as [H1 [Hc _]]. rewrite digits_val_snoc in H2.
      apply is_digit_iff in Hc. destruct Hc as [d Hd]. rewrite (digit_val _ _ Hd) in H2.
      replace z with (10 * digits_val t + d) by lia.
      apply digits_snoc; [|exact Hd]. apply IH. split; [exact H1|reflexivity].
Qed.

Definition not_digit (s : str) : Prop := match s with c :: _ => is_digit c = false | [] => True end.

Lemma take_digits_app : forall t s, forallb is_digit t = true -> not_digit s ->
  take_digits (t ++ s) = (t, s).
Proof.
  induction t as [|c t IH]; intros s H N.
  - cbn. destruct s as [|c s]; cbn in *; [reflexivity|]. rewrite N. reflexivity.
  - cbn in *. apply andb_true_iff in H. destruct H as [-> H]. rewrite IH by assumption. reflexivity.
Qed.

Lemma take_digits_split : forall s d r, take_digits s = (d, r) ->
  s = d ++ r /\ forallb is_digit d = true /\ not_digit r.
Proof.
  induction s as [|c s IH]; intros d r H; cbn in H.
  - inv H. repeat split.
  - destruct (is_digit c) eqn:E.
    + destruct (take_digits s) as [d' r'] eqn:E2. inv H.
      destruct (IH _ _ eq_refl) as [-> [H1 H2]]. cbn. rewrite E, H1. repeat split. exact H2.
    + inv H. cbn. repeat split. exact E.
Qed.

Lemma some_digits_iff : forall t, some_digits t <-> t <> [] /\ forallb is_digit t = true.
Proof.
  intros t. unfold some_digits. split.
  - intros [H [z Hz]]. apply digits_iff in Hz. tauto.
  - intros [H1 H2]. split; [exact H1|]. exists (digits_val t). apply digits_iff. auto.
Qed.

(** what may follow a number *)
Definition num_end (s : str) : Prop :=
  match s with
  | c :: _ => is_digit c = false /\ c <> 46%N /\ c <> 101%N /\ c <> 69%N
  | [] => True
  end.

Lemma num_end_digit : forall s, num_end s -> not_digit s.
Proof. intros [|c s] H; cbn in *; tauto. Qed.

Lemma parse_frac_none : forall s, match s with c :: _ => c <> 46%N | [] => True end ->
  parse_frac s = Some (false, s).
Proof.
  intros [|c s] H; cbn [parse_frac]; [reflexivity|]. cbn in H. destruct (N.eqb_spec c 46); [congruence|reflexivity].
Qed.

Lemma parse_frac_some : forall f s, frac_part f -> not_digit s -> parse_frac (f ++ s) = Some (true, s).
Proof.
  intros f s [d [-> H]] N. apply some_digits_iff in H. destruct H as [H1 H2].
  cbn. rewrite take_digits_app by assumption. destruct d; [exfalso; apply H1; reflexivity|reflexivity].
Qed.

Lemma parse_exp_none : forall s, num_end s -> parse_exp s = Some (false, s).
Proof.
  intros [|c s] H; cbn; [reflexivity|]. cbn in H. destruct H as [_ [_ [H1 H2]]].
  destruct (N.eqb_spec c 101), (N.eqb_spec c 69); try congruence; reflexivity.
Qed.

Lemma parse_exp_some : forall e s, exp_part e -> not_digit s -> parse_exp (e ++ s) = Some (true, s).
Proof.
  intros e s [c [sign [d [-> [Hc [Hs H]]]]]] N. apply some_digits_iff in H. destruct H as [H1 H2].
  cbn [app]. unfold parse_exp.
  assert (E : N.eqb c 101 || N.eqb c 69 = true)
    by (cbn in Hc; destruct Hc as [<-|[<-|[]]]; reflexivity).
  rewrite E.
  assert (E2 : match (sign ++ d) ++ s with
               | x :: t => if N.eqb x 43 || N.eqb x 45 then t else (sign ++ d) ++ s
               | [] => (sign ++ d) ++ s
               end = d ++ s).
  { cbn in Hs. destruct Hs as [<-|[<-|[<-|[]]]]; cbn [app]; try reflexivity.
    destruct d as [|x d]; [exfalso; apply H1; reflexivity|]. cbn [app]. cbn in H2. apply andb_true_iff in H2.
    destruct H2 as [H2 _]. unfold is_digit in H2.
    assert (N.eqb x 43 || N.eqb x 45 = false) as -> by (unfold char in *; lia). reflexivity. }
  rewrite E2. rewrite take_digits_app by assumption. destruct d; [exfalso; apply H1; reflexivity|reflexivity].
Qed.

Lemma int_part_first : forall t z, int_part t z ->
  forallb is_digit t = true /\ digits_val t = z
  /\ exists c d', t = c :: d' /\ N.eqb c 48 && match d' with [] => false | _ => true end = false.
Proof.
  intros t z [H1 H2]. apply digits_iff in H1. destruct H1 as [H1 H3].
  split; [exact H1|]. split; [exact H3|].
  destruct H2 as [-> | [c [d' [-> H2]]]]; [exists 48%N, []; split; reflexivity|].
  exists c, d'. split; [reflexivity|]. destruct (N.eqb_spec c 48); [congruence|reflexivity].
Qed.

Lemma parse_unsigned_ok : forall neg t z f e s,
  int_part t z -> (f = [] \/ frac_part f) -> (e = [] \/ exp_part e) -> num_end s ->
  parse_unsigned neg (t ++ f ++ e ++ s)
  = Some (if negb (match f ++ e with [] => true | _ => false end) || (neg && (z =? 0))
          then JFloat else JInt (if neg then - z else z), s).
Proof.
  intros neg t z f e s Ht Hf He N. apply int_part_first in Ht.
  destruct Ht as [Hd [Hz [c [d' [Et Hc]]]]].
  unfold parse_unsigned.
  assert (Nf : not_digit (f ++ e ++ s)).
  { destruct Hf as [->|[d [-> _]]]; [|reflexivity].
    destruct He as [->|[x [sg [d [-> [Hx _]]]]]]; [apply num_end_digit; exact N|].
    cbn in Hx. destruct Hx as [<-|[<-|[]]]; reflexivity. }
  rewrite take_digits_app by assumption. rewrite Et, Hc, <- Et, Hz.
  assert (Ne : match e ++ s with c :: _ => c <> 46%N | [] => True end).
  { destruct He as [->|[x [sg [d [-> [Hx _]]]]]].
    - destruct s; cbn in *; tauto.
    - cbn in Hx. destruct Hx as [<-|[<-|[]]]; cbn; discriminate. }
  assert (Nd : not_digit (e ++ s)).
  { destruct He as [->|[x [sg [d [-> [Hx _]]]]]].
    - apply num_end_digit. exact N.
    - cbn in Hx. destruct Hx as [<-|[<-|[]]]; reflexivity. }
  assert (Ef : parse_frac (f ++ e ++ s)
               = Some (match f with [] => false | _ => true end, e ++ s)).
  { destruct Hf as [->|Hf].
    - cbn [app]. apply parse_frac_none. exact Ne.
    - rewrite parse_frac_some by assumption. destruct Hf as [d [-> _]]. reflexivity. }
  rewrite Ef.
  assert (Ee : parse_exp (e ++ s) = Some (match e with [] => false | _ => true end, s)).
  { destruct He as [->|He].
    - cbn [app]. apply parse_exp_none. exact N.
    - rewrite parse_exp_some by (try assumption; apply num_end_digit; exact N).
      destruct He as [x [sg [d [-> _]]]]. reflexivity. }
  rewrite Ee. destruct f, e; cbn; try reflexivity. destruct (neg && (z =? 0)); reflexivity.
Qed.

Lemma int_part_not_minus : forall t z s, int_part t z ->
  parse_number (t ++ s) = parse_unsigned false (t ++ s).
Proof.
  intros t z s H. apply int_part_first in H. destruct H as [Hd [_ [c [d' [-> _]]]]].
  cbn in *. apply andb_true_iff in Hd. destruct Hd as [Hd _]. unfold is_digit in Hd.
  destruct (N.eqb_spec c 45); [subst; discriminate|reflexivity].
Qed.

Lemma parse_number_ok : forall v t s, number_text v t -> num_end s -> parse_number (t ++ s) = Some (v, s).
Proof.
  intros v t s H N. destruct H as [t z H|t z H Hz|sign t z f e Hs H Hf He Hx].
  - rewrite (int_part_not_minus _ _ _ H).
    pose proof (parse_unsigned_ok false t z [] [] s H (or_introl eq_refl) (or_introl eq_refl) N) as E.
    exact E.
  - cbn [app]. unfold parse_number. rewrite N.eqb_refl.
    pose proof (parse_unsigned_ok true t z [] [] s H (or_introl eq_refl) (or_introl eq_refl) N) as E.
    cbn in E. rewrite E. destruct (Z.eqb_spec z 0); [congruence|reflexivity].
  - cbn in Hs. destruct Hs as [<-|[<-|[]]].
    + cbn [app]. rewrite <- app_assoc. rewrite (int_part_not_minus _ _ _ H), <- app_assoc.
      rewrite (parse_unsigned_ok false t z f e s) by assumption.
      destruct Hx as [Hx|[Hx _]]; [|discriminate]. destruct (f ++ e); [congruence|reflexivity].
    + cbn [app]. unfold parse_number. rewrite N.eqb_refl. rewrite <- !app_assoc.
      rewrite (parse_unsigned_ok true t z f e s) by assumption.
      destruct Hx as [Hx|[_ ->]].
      * destruct (f ++ e); [congruence|reflexivity].
      * rewrite Z.eqb_refl, orb_true_r. reflexivity.
Qed.

Lemma parse_frac_sound : forall s b r, parse_frac s = Some (b, r) ->
  exists f, s = f ++ r /\ (if b then frac_part f else f = []).
Proof.
  intros [|c s] b r H; cbn in H.
  - inv H. exists []. auto.
  - destruct (N.eqb_spec c 46) as [->|].
    + destruct (take_digits s) as [d r'] eqn:E. apply take_digits_split in E.
      destruct E as [-> [Hd _]]. destruct d as [|x d]; [discriminate|]. inv H.
      exists (46%N :: x :: d). split; [reflexivity|]. exists (x :: d). split; [reflexivity|].
      apply some_digits_iff. split; [discriminate|exact Hd].
    + inv H. exists []. auto.
Qed.

Lemma parse_exp_sound : forall s b r, parse_exp s = Some (b, r) ->
  exists e, s = e ++ r /\ (if b then exp_part e else e = []).
Proof.
  intros [|c s] b r H; cbn in H.
  - inv H. exists []. auto.
  - destruct (N.eqb c 101 || N.eqb c 69) eqn:Ec.
    + match type of H with (let '(d, r) := take_digits ?x in _) = _ => remember x as t eqn:Et end.
      assert (Hs : exists sign, s = sign ++ t /\ In sign [[]; [43%N]; [45%N]]).
      { destruct s as [|x s]; [exists []; subst; cbn; auto|].
        destruct (N.eqb x 43 || N.eqb x 45) eqn:Ex; subst t.
        - apply orb_true_iff in Ex. rewrite !N.eqb_eq in Ex.
          exists [x]. split; [reflexivity|]. cbn. destruct Ex as [->| ->]; auto.
        - exists []. cbn. auto. }
      clear Et. destruct Hs as [sign [-> Hs]].
      destruct (take_digits t) as [d r'] eqn:E. apply take_digits_split in E.
      destruct E as [-> [Hd _]]. destruct d as [|x d]; [discriminate|]. inv H.
      exists (c :: sign ++ x :: d). split; [cbn; rewrite <- app_assoc; reflexivity|].
      exists c, sign, (x :: d). split; [reflexivity|]. split.
      { apply orb_true_iff in Ec. rewrite !N.eqb_eq in Ec. cbn. intuition. }
      split; [exact Hs|]. apply some_digits_iff. split; [discriminate|exact Hd].
    + inv H. exists []. auto.
Qed.

Lemma parse_unsigned_sound : forall neg s v r, parse_unsigned neg s = Some (v, r) ->
  exists t z f e, s = t ++ f ++ e ++ r /\ int_part t z /\ (f = [] \/ frac_part f)
    /\ (e = [] \/ exp_part e)
    /\ ((v = JFloat /\ (f ++ e <> [] \/ (neg = true /\ z = 0)))
        \/ (v = JInt (if neg then - z else z) /\ f = [] /\ e = [] /\ (neg = true -> z <> 0))).
Proof.
  intros neg s v r H. unfold parse_unsigned in H.
  destruct (take_digits s) as [d r1] eqn:Ed. apply take_digits_split in Ed.
  destruct Ed as [-> [Hd _]]. destruct d as [|c d']; [discriminate|].
  destruct (N.eqb c 48 && match d' with [] => false | _ => true end) eqn:Ec; [discriminate|].
  destruct (parse_frac r1) as [[b1 r2]|] eqn:Ef; [|discriminate]. apply parse_frac_sound in Ef.
  destruct Ef as [f [-> Hf]].
  destruct (parse_exp r2) as [[b2 r3]|] eqn:Ee; [|discriminate]. apply parse_exp_sound in Ee.
  destruct Ee as [e [-> He]].
  exists (c :: d'), (digits_val (c :: d')), f, e.
  assert (Hi : int_part (c :: d') (digits_val (c :: d'))).
  { split; [apply digits_iff; auto|].
    destruct (N.eqb_spec c 48) as [->|]; [|right; eauto].
    destruct d'; [left; reflexivity|discriminate]. }
  assert (R : r3 = r) by (destruct (b1 || b2 || (neg && (digits_val (c :: d') =? 0))); inv H; reflexivity).
  subst r3. split; [reflexivity|]. split; [exact Hi|].
  split; [destruct b1; auto|]. split; [destruct b2; auto|].
  destruct b1.
  { left. cbn in H. inv H. split; [reflexivity|]. left.
    destruct Hf as [dd [-> _]]. discriminate. }
  destruct b2.
  { left. cbn in H. inv H. split; [reflexivity|]. left.
    destruct He as [x [sg [dd [-> _]]]]. cbn; discriminate. }
  subst f e. cbn [orb] in H.
  destruct (neg && (digits_val (c :: d') =? 0)) eqn:E; inv H.
  - left. split; [reflexivity|]. right. lia.
  - right. repeat split. intros ->. rewrite andb_true_l in E. apply Z.eqb_neq. exact E.
Qed.

Lemma parse_number_sound : forall s v r, parse_number s = Some (v, r) ->
  exists t, s = t ++ r /\ number_text v t.
Proof.
  intros [|c s] v r H; cbn [parse_number] in H; [discriminate|].
  destruct (N.eqb_spec c 45) as [->|].
  - apply parse_unsigned_sound in H.
    destruct H as [t [z [f [e [-> [Hi [Hf [He [[-> Hx]|[-> [-> [-> Hz]]]]]]]]]]]].
    + exists ([45%N] ++ t ++ f ++ e). split; [cbn; rewrite <- !app_assoc; reflexivity|].
      apply (num_float _ _ z); cbn; auto. destruct Hx as [Hx|[_ Hx]]; auto.
    + exists (45%N :: t). split; [reflexivity|]. apply num_neg; auto.
  - apply parse_unsigned_sound in H.
    destruct H as [t [z [f [e [-> [Hi [Hf [He [[-> Hx]|[-> [-> [-> Hz]]]]]]]]]]]].
    + exists ([] ++ t ++ f ++ e). split; [cbn; rewrite <- !app_assoc; reflexivity|].
      apply (num_float _ _ z); cbn; auto. destruct Hx as [Hx|[Hx _]]; [auto|discriminate].
    + exists t. split; [reflexivity|]. apply num_pos; auto.
Qed.

(** ** strings *)
Lemma hex_val_iff : forall c n, hex_val c = Some n <-> hex c n.
Proof.
  intros c n. unfold hex_val, hex, is_digit. unfold char in *. split.
  - destruct ((48 <=? c)%N && (c <=? 57)%N) eqn:E1.
    { intros H; inv H. left. exists (c - 48)%N. lia. }
    destruct ((65 <=? c)%N && (c <=? 70)%N) eqn:E2.
    { intros H; inv H. right. exists (c - 65)%N. lia. }
    destruct ((97 <=? c)%N && (c <=? 102)%N) eqn:E3; [|discriminate].
    intros H; inv H. right. exists (c - 97)%N. lia.
  - intros [[d [H1 [-> ->]]]|[d [H1 [[-> | ->] ->]]]].
    + assert (((48 <=? 48 + d) && (48 + d <=? 57))%N = true) as -> by lia. f_equal. lia.
    + assert (((48 <=? 65 + d) && (65 + d <=? 57))%N = false) as -> by lia.
      assert (((65 <=? 65 + d) && (65 + d <=? 70))%N = true) as -> by lia. f_equal. lia.
    + assert (((48 <=? 97 + d) && (97 + d <=? 57))%N = false) as -> by lia.
      assert (((65 <=? 97 + d) && (97 + d <=? 70))%N = false) as -> by lia.
      assert (((97 <=? 97 + d) && (97 + d <=? 102))%N = true) as -> by lia. f_equal. lia.
Qed.

Lemma parse_hex4_ok : forall t n s, hex4 t n -> parse_hex4 (t ++ s) = Some (n, s).
Proof.
  intros t n s (a & b & c & d & x & y & z & w & -> & Ha & Hb & Hc & Hd & ->).
  apply hex_val_iff in Ha, Hb, Hc, Hd. cbn [app parse_hex4]. rewrite Ha, Hb, Hc, Hd. f_equal. f_equal. lia.
Qed.

Lemma parse_hex4_sound : forall s n r, parse_hex4 s = Some (n, r) -> exists t, s = t ++ r /\ hex4 t n.
Proof.
  intros s n r H. unfold parse_hex4 in H. destruct s as [|a [|b [|c [|d s]]]]; try discriminate.
  destruct (hex_val a) as [x|] eqn:Ea; [|discriminate].
  destruct (hex_val b) as [y|] eqn:Eb; [|discriminate].
  destruct (hex_val c) as [z|] eqn:Ec; [|discriminate].
  destruct (hex_val d) as [w|] eqn:Ed; [|discriminate]. inv H.
  exists [a; b; c; d]. split; [reflexivity|].
  exists a, b, c, d, x, y, z, w. apply hex_val_iff in Ea, Eb, Ec, Ed.
  repeat (split; [first [reflexivity|assumption]|]). lia.
Qed.

Lemma hex4_length : forall t n, hex4 t n -> List.length t = 4%nat.
Proof. intros t n (a & b & c & d & x & y & z & w & -> & _). reflexivity. Qed.

Lemma parse_str_body_ok : forall s t, string_text s t -> forall fuel r,
  (List.length t < fuel)%nat -> parse_str_body fuel (t ++ 34%N :: r) = Some (s, r).
Proof.
  intros s t H. induction H as [|c s t H1 H2 H3 H IH|e c s t He H IH|u n s t Hu Hn H IH
                               |u1 hi u2 lo s t Hu1 Hu2 Hhi Hlo H IH]; intros fuel r F.
  - destruct fuel; [cbn in F; lia|]. reflexivity.
  - destruct fuel; [lia|]. cbn [app parse_str_body]. unfold c_quote.
    destruct (N.eqb_spec c 34); [congruence|]. destruct (N.eqb_spec c 92); [congruence|].
    assert ((c <? 32)%N = false) as -> by (unfold char in *; lia).
    cbn [length] in F. rewrite IH by lia. reflexivity.
  - destruct fuel; [lia|]. cbn [length] in F. cbn [app parse_str_body].
    assert (F' : (List.length t < fuel)%nat) by lia. specialize (IH fuel r F').
    cbn in He. decompose [or] He;
      try match goal with E : (_, _) = (e, c) |- _ => injection E as <- <- end;
      try (cbn; rewrite IH; reflexivity).
    contradiction.
  - destruct fuel; [lia|]. cbn [app parse_str_body]. rewrite <- app_assoc.
    rewrite (parse_hex4_ok u n) by assumption. cbn [N.eqb c_quote Pos.eqb].
    assert (((55296 <=? n) && (n <=? 56319))%N = false) as -> by (unfold char in *; lia).
    assert (((56320 <=? n) && (n <=? 57343))%N = false) as -> by (unfold char in *; lia).
    cbn [length] in F. rewrite app_length in F. rewrite IH by lia. reflexivity.
  - destruct fuel; [lia|]. cbn [app parse_str_body]. rewrite <- app_assoc.
    rewrite (parse_hex4_ok u1 hi) by assumption. cbn [N.eqb c_quote Pos.eqb].
    assert (((55296 <=? hi) && (hi <=? 56319))%N = true) as -> by (unfold char in *; lia).
    cbn [app N.eqb Pos.eqb andb]. rewrite <- app_assoc.
    rewrite (parse_hex4_ok u2 lo) by assumption.
    assert (((56320 <=? lo) && (lo <=? 57343))%N = true) as -> by (unfold char in *; lia).
    cbn [length] in F. rewrite app_length in F. cbn [length] in F. rewrite app_length in F.
    rewrite IH by lia. reflexivity.
Qed.

Lemma parse_string_ok : forall s t r, string_text s t -> parse_string (t ++ 34%N :: r) = Some (s, r).
Proof.
  intros s t r H. unfold parse_string. apply (parse_str_body_ok _ _ H). rewrite app_length. cbn. lia.
Qed.

Lemma some_pair : forall {A B} (a c : A) (b d : B), Some (a, b) = Some (c, d) -> a = c /\ b = d.
Proof. intros A B a c b d H. injection H as -> ->. split; reflexivity. Qed.

Lemma parse_str_body_sound : forall fuel s x r, parse_str_body fuel s = Some (x, r) ->
  exists t, s = t ++ 34%N :: r /\ string_text x t.
Proof.
  induction fuel as [|fuel IH]; intros s x r H; [discriminate|].
  cbn [parse_str_body] in H. destruct s as [|c s1]; [discriminate|]. unfold c_quote in H.
  destruct (N.eqb_spec c 34) as [->|N34].
  { inv H. exists []. split; [reflexivity|constructor]. }
  destruct (N.eqb_spec c 92) as [->|N92].
  - destruct s1 as [|e s2]; [discriminate|].
    assert (S : forall y, In (e, y) escapes ->
              match parse_str_body fuel s2 with Some (r0, rest) => Some (y :: r0, rest) | None => None end
              = Some (x, r) ->
              exists t, 92%N :: e :: s2 = t ++ 34%N :: r /\ string_text x t).
    { intros y Hy Hs. destruct (parse_str_body fuel s2) as [[r0 rest]|] eqn:E; [|discriminate]. inv Hs.
      apply IH in E. destruct E as [t [-> Ht]]. exists (92%N :: e :: t). split; [reflexivity|].
      apply st_escape; assumption. }
    repeat match type of H with
    | (if N.eqb e 117 then _ else _) = _ => fail 1
    | (if N.eqb e ?k then _ else _) = _ =>
        destruct (N.eqb_spec e k) as [->|_];
        [apply (S _ ltac:(cbn; tauto) H)|]
    end.
    clear S. destruct (N.eqb_spec e 117) as [->|_]; [|discriminate].
    destruct (parse_hex4 s2) as [[n s3]|] eqn:E4; [|discriminate].
    apply parse_hex4_sound in E4. destruct E4 as [u [-> Hu]].
    destruct ((55296 <=? n) && (n <=? 56319))%N eqn:Ehi.
    + destruct s3 as [|b [|u0 s4]]; try discriminate.
      destruct (N.eqb_spec b 92) as [->|]; [|discriminate].
      destruct (N.eqb_spec u0 117) as [->|]; [|discriminate]. cbn [andb] in H.
      destruct (parse_hex4 s4) as [[n2 s5]|] eqn:E5; [|discriminate].
      apply parse_hex4_sound in E5. destruct E5 as [u2 [-> Hu2]].
      destruct ((56320 <=? n2) && (n2 <=? 57343))%N eqn:Elo; [|discriminate].
      destruct (parse_str_body fuel s5) as [[r0 rest]|] eqn:E; [|discriminate]. apply some_pair in H. destruct H as [<- <-].
      apply IH in E. destruct E as [t [-> Ht]].
      exists (92%N :: 117%N :: u ++ 92%N :: 117%N :: u2 ++ t).
      split; [cbn; rewrite <- app_assoc; cbn; rewrite <- app_assoc; reflexivity|].
      apply st_surrogates; try assumption; unfold char in *; lia.
    + destruct ((56320 <=? n) && (n <=? 57343))%N eqn:Elo; [discriminate|].
      destruct (parse_str_body fuel s3) as [[r0 rest]|] eqn:E; [|discriminate]. inv H.
      apply IH in E. destruct E as [t [-> Ht]].
      exists (92%N :: 117%N :: u ++ t). split; [cbn; rewrite <- app_assoc; reflexivity|].
      apply st_unicode; try assumption. unfold char in *; lia.
  - destruct (c <? 32)%N eqn:E32; [discriminate|].
    destruct (parse_str_body fuel s1) as [[r0 rest]|] eqn:E; [|discriminate]. inv H.
    apply IH in E. destruct E as [t [-> Ht]]. exists (c :: t). split; [reflexivity|].
    apply st_plain; try assumption. unfold char in *; lia.
Qed.

Lemma parse_string_sound : forall s x r, parse_string s = Some (x, r) ->
  exists t, s = t ++ 34%N :: r /\ string_text x t.
Proof. intros s x r. apply parse_str_body_sound. Qed.

(** ** strings that can only be skipped *)
Lemma escapes_some : forall e, existsb (N.eqb e) [34; 92; 47; 98; 102; 110; 114; 116]%N = true
  <-> exists c, In (e, c) escapes.
Proof.
  intros e. rewrite existsb_exists. split.
  - intros [x [Hx E]]. apply N.eqb_eq in E. subst x. cbn in Hx.
    decompose [or] Hx; subst; try contradiction; eexists; cbn;
      repeat (first [left; reflexivity | right]).
  - intros [c Hc]. exists e. rewrite N.eqb_refl. split; [|reflexivity]. cbn in Hc.
    decompose [or] Hc; try match goal with E : (_, _) = (e, c) |- _ => injection E as <- <- end;
      try contradiction; cbn; tauto.
Qed.

Lemma escape_not_u : forall c, ~ In (117%N, c) escapes.
Proof. intros c H. cbn in H. decompose [or] H; congruence. Qed.

Lemma string_loose : forall s t, string_text s t -> loose_text t.
Proof.
  intros s t H. induction H; try (econstructor; eassumption).
  eapply lt_unicode; [eassumption|]. eapply lt_unicode; eassumption.
Qed.

Lemma skip_string_ok : forall t, loose_text t -> forall r, skip_string (t ++ 34%N :: r) = Some r.
Proof.
  intros t H. induction H as [|c t H1 H2 H3 H IH|e c t He H IH|u n t Hu H IH]; intros r.
  - reflexivity.
  - cbn [app skip_string]. unfold c_quote.
    destruct (N.eqb_spec c 34); [congruence|]. destruct (N.eqb_spec c 92); [congruence|].
    assert ((c <? 32)%N = false) as -> by (unfold char in *; lia). apply IH.
  - cbn [app skip_string]. change (N.eqb 92 c_quote) with false. change (N.eqb 92 92) with true. cbn iota.
    rewrite (proj2 (escapes_some e)) by eauto. apply IH.
  - destruct Hu as (a & b & c & d & x & y & z & w & -> & Ha & Hb & Hc & Hd & _).
    apply hex_val_iff in Ha, Hb, Hc, Hd. cbn [app skip_string existsb].
    change (N.eqb 92 c_quote) with false. change (N.eqb 92 92) with true. cbn iota.
    rewrite Ha, Hb, Hc, Hd. apply IH.
Qed.

Lemma skip_string_sound : forall n s r, (List.length s <= n)%nat -> skip_string s = Some r ->
  exists t, s = t ++ 34%N :: r /\ loose_text t.
Proof.
  induction n as [|n IH]; intros s r L H.
  { destruct s; [discriminate|cbn in L; lia]. }
  destruct s as [|c s1]; [discriminate|]. cbn [length] in L. cbn [skip_string] in H. unfold c_quote in H.
  destruct (N.eqb_spec c 34) as [->|N34].
  { inv H. exists []. split; [reflexivity|constructor]. }
  destruct (N.eqb_spec c 92) as [->|N92].
  - destruct s1 as [|e s2]; [discriminate|]. cbn [length] in L.
    destruct (existsb (N.eqb e) _) eqn:Ee.
    + apply escapes_some in Ee. destruct Ee as [c Hc]. apply IH in H; [|lia]. destruct H as [t [-> Ht]].
      exists (92%N :: e :: t). split; [reflexivity|]. apply (lt_escape e c); assumption.
    + destruct (N.eqb_spec e 117) as [->|]; [|discriminate].
      destruct s2 as [|a [|b [|c [|d s3]]]]; try discriminate. cbn [length] in L.
      destruct (hex_val a) as [x|] eqn:Ea; [|discriminate].
      destruct (hex_val b) as [y|] eqn:Eb; [|discriminate].
      destruct (hex_val c) as [z|] eqn:Ec; [|discriminate].
      destruct (hex_val d) as [w|] eqn:Ed; [|discriminate]. cbn [is_some andb] in H.
      apply IH in H; [|lia]. destruct H as [t [-> Ht]].
      exists (92%N :: 117%N :: [a; b; c; d] ++ t). split; [reflexivity|].
      apply (lt_unicode [a; b; c; d] (4096 * x + 256 * y + 16 * z + w)); [|exact Ht].
      apply hex_val_iff in Ea, Eb, Ec, Ed. exists a, b, c, d, x, y, z, w. auto 10.
  - destruct (c <? 32)%N eqn:E32; [discriminate|]. apply IH in H; [|lia]. destruct H as [t [-> Ht]].
    exists (c :: t). split; [reflexivity|]. apply lt_plain; try assumption. unfold char in *; lia.
Qed.

Lemma loose_end : forall t t' r r', loose_text t -> loose_text t' ->
  t ++ 34%N :: r = t' ++ 34%N :: r' -> t = t' /\ r = r'.
Proof.
  intros t t' r r' H H' E. pose proof (skip_string_ok t H r) as S. rewrite E in S.
  rewrite (skip_string_ok t' H') in S. inv S. split; [|reflexivity].
  apply app_inv_tail in E. exact E.
Qed.

Lemma parse_token_ok : forall k t r, key_text k t -> parse_token (t ++ 34%N :: r) = Some (k, r).
Proof.
  intros [s|] t r H; cbn in H; unfold parse_token.
  - rewrite (parse_string_ok s) by exact H. reflexivity.
  - destruct H as [Hl Hn]. rewrite (skip_string_ok t Hl).
    destruct (parse_string (t ++ 34%N :: r)) as [[x r']|] eqn:E; [|reflexivity].
    apply parse_string_sound in E. destruct E as [t' [E Ht']].
    apply loose_end in E; [|exact Hl|apply (string_loose x); exact Ht'].
    destruct E as [-> _]. destruct Hn. exists x. exact Ht'.
Qed.

Lemma parse_token_sound : forall s k r, parse_token s = Some (k, r) ->
  exists t, s = t ++ 34%N :: r /\ key_text k t.
Proof.
  intros s k r H. unfold parse_token in H.
  destruct (parse_string s) as [[x r']|] eqn:E.
  - inv H. apply parse_string_sound in E. exact E.
  - destruct (skip_string s) as [r'|] eqn:E2; [|discriminate]. inv H.
    apply (skip_string_sound _ _ _ (le_n _)) in E2. destruct E2 as [t [-> Ht]].
    exists t. split; [reflexivity|]. split; [exact Ht|]. intros [x Hx].
    rewrite (parse_string_ok x) in E by exact Hx. discriminate.
Qed.

(** ** values *)
Definition value_first (c : char) : Prop :=
  is_ws c = false /\ c <> 93%N /\ c <> 125%N /\ c <> 44%N /\ c <> 58%N.

Lemma int_part_value_first : forall t z, int_part t z -> exists c t', t = c :: t' /\ is_digit c = true.
Proof.
  intros t z H. apply int_part_first in H. destruct H as [H [_ [c [d' [-> _]]]]].
  cbn in H. apply andb_true_iff in H. exists c, d'. tauto.
Qed.

Definition number_first (c : char) : Prop := is_digit c = true \/ c = 45%N.

Lemma number_text_first : forall v t, number_text v t -> exists c t', t = c :: t' /\ number_first c.
Proof.
  intros v t H. destruct H as [t z H|t z H _|sign t z f e Hs H _ _ _].
  - apply int_part_value_first in H. destruct H as [c [t' [-> H]]]. exists c, t'. split; [|left]; auto.
  - exists 45%N, t. split; [reflexivity|right; reflexivity].
  - cbn in Hs. destruct Hs as [<-|[<-|[]]].
    + apply int_part_value_first in H. destruct H as [c [t' [-> H]]].
      exists c, (t' ++ f ++ e). split; [reflexivity|left; exact H].
    + exists 45%N, (t ++ f ++ e). split; [reflexivity|right; reflexivity].
Qed.

Lemma number_first_value : forall c, number_first c -> value_first c.
Proof.
  intros c [H| ->]; [|repeat split; discriminate]. unfold is_digit in H. unfold value_first, is_ws.
  unfold char in *. repeat split; lia.
Qed.

Lemma json_text_first : forall v t, json_text v t -> exists c t', t = c :: t' /\ value_first c.
Proof.
  intros v t H. destruct H.
  1-3: do 2 eexists; split; [reflexivity|repeat split; discriminate].
  - apply number_text_first in H. destruct H as [c [t' [-> H]]]. exists c, t'.
    split; [reflexivity|apply number_first_value; exact H].
  - do 2 eexists; split; [reflexivity|repeat split; discriminate].
  - do 2 eexists; split; [reflexivity|repeat split; discriminate].
  - do 2 eexists; split; [reflexivity|repeat split; discriminate].
  - do 2 eexists; split; [reflexivity|repeat split; discriminate].
  - do 2 eexists; split; [reflexivity|repeat split; discriminate].
  - do 2 eexists; split; [reflexivity|repeat split; discriminate].
Qed.

Lemma number_first_dispatch : forall c, number_first c ->
  N.eqb c c_quote = false /\ N.eqb c 91 = false /\ N.eqb c 123 = false /\ N.eqb c 110 = false
  /\ N.eqb c 116 = false /\ N.eqb c 102 = false /\ is_ws c = false.
Proof.
  intros c [H| ->]; [|repeat split; reflexivity]. unfold is_digit in H. unfold is_ws, c_quote.
  unfold char in *. repeat split; lia.
Qed.

(** what may follow a value *)
Definition value_end (s : str) : Prop :=
  match s with c :: _ => In c [32; 9; 10; 13; 44; 93; 125]%N | [] => True end.

Lemma value_end_num : forall s, value_end s -> num_end s.
Proof.
  intros [|c s] H; [exact I|]. cbn in *. decompose [or] H; try contradiction; subst c;
    repeat split; discriminate.
Qed.

Lemma white_value_end : forall w s, white w -> value_end s -> value_end (w ++ s).
Proof.
  intros w s Hw Hs. destruct Hw as [|c w Hc _]; [exact Hs|]. cbn in *. tauto.
Qed.

Lemma elements_first : forall l t s, elements_text l t ->
  exists c s', skip_ws (t ++ s) = c :: s' /\ value_first c.
Proof.
  intros l t s H. destruct H as [v w1 t w2 H1 H2 H|v l w1 t w2 ts H1 H2 H _];
    rewrite <- !app_assoc, skip_ws_white by assumption;
    apply json_text_first in H; destruct H as [c [t' [-> H]]]; cbn [app skip_ws];
    rewrite (proj1 H); eauto.
Qed.

Lemma members_first : forall l t s, members_text l t ->
  exists s', skip_ws (t ++ s) = c_quote :: s'.
Proof.
  intros l t s H. destruct H; rewrite <- !app_assoc, skip_ws_white by assumption;
    cbn [app quoted skip_ws]; eexists; reflexivity.
Qed.

Lemma texts_parse :
  (forall v t, json_text v t -> forall fuel w r, white w -> value_end r ->
     (2 * List.length t <= fuel)%nat -> parse_value fuel (w ++ t ++ r) = Some (v, r))
  /\ (forall l t, elements_text l t -> forall fuel r,
     (2 * List.length t + 1 <= fuel)%nat -> parse_elems fuel (t ++ lit "]" ++ r) = Some (l, r))
  /\ (forall l t, members_text l t -> forall fuel r,
     (2 * List.length t + 1 <= fuel)%nat -> parse_members fuel (t ++ lit "}" ++ r) = Some (l, r)).
Proof.
  apply texts_mind.
  - intros fuel w r Hw Hr F. destruct fuel; [cbn in F; lia|]. cbn [parse_value].
    rewrite skip_ws_stop by (try assumption; reflexivity). reflexivity.
  - intros fuel w r Hw Hr F. destruct fuel; [cbn in F; lia|]. cbn [parse_value].
    rewrite skip_ws_stop by (try assumption; reflexivity). reflexivity.
  - intros fuel w r Hw Hr F. destruct fuel; [cbn in F; lia|]. cbn [parse_value].
    rewrite skip_ws_stop by (try assumption; reflexivity). reflexivity.
  - intros v t H fuel w r Hw Hr F. pose proof (number_text_first v t H) as [c [t' [E Hc]]].
    destruct (number_first_dispatch c Hc) as (Q1 & Q2 & Q3 & Q4 & Q5 & Q6 & Q7).
    destruct fuel; [rewrite E in F; cbn in F; lia|]. cbn [parse_value].
    rewrite skip_ws_stop by (try assumption; rewrite E; exact Q7).
    rewrite E. cbn [app]. rewrite Q1, Q2, Q3, Q4, Q5, Q6.
    change (c :: t' ++ r) with ((c :: t') ++ r). rewrite <- E.
    apply parse_number_ok; [exact H|]. apply value_end_num. exact Hr.
  - intros s t H fuel w r Hw Hr F. destruct fuel; [cbn in F; lia|]. cbn [parse_value].
    rewrite skip_ws_stop by (try assumption; reflexivity).
    unfold quoted. cbn [app]. rewrite <- app_assoc. cbn [app].
    change (N.eqb 34 c_quote) with true. cbn iota. rewrite (parse_token_ok (Some s)) by exact H. reflexivity.
  - intros t H fuel w r Hw Hr F. destruct fuel; [cbn in F; lia|]. cbn [parse_value].
    rewrite skip_ws_stop by (try assumption; reflexivity).
    unfold quoted. cbn [app]. rewrite <- app_assoc. cbn [app].
    change (N.eqb 34 c_quote) with true. cbn iota. rewrite (parse_token_ok None) by exact H. reflexivity.
  - intros w0 H0 fuel w r Hw Hr F. destruct fuel; [cbn in F; lia|]. cbn [parse_value].
    rewrite skip_ws_stop by (try assumption; reflexivity).
    change (lit "[") with [91%N]. rewrite <- !app_assoc. cbn [app].
    change (N.eqb 91 c_quote) with false. change (N.eqb 91 91) with true.
    cbn iota. rewrite skip_ws_stop by (try assumption; reflexivity). reflexivity.
  - intros l t H IH fuel w r Hw Hr F.
    rewrite !app_length in F. cbn [lit length] in F.
    destruct fuel; [lia|]. cbn [parse_value].
    rewrite skip_ws_stop by (try assumption; reflexivity).
    change (lit "[") with [91%N]. rewrite <- !app_assoc. cbn [app].
    change (N.eqb 91 c_quote) with false. change (N.eqb 91 91) with true.
    cbn iota.
    destruct (elements_first l t (lit "]" ++ r) H) as [c [s' [E Hc]]]. rewrite E.
    destruct (N.eqb_spec c 93); [destruct Hc; tauto|].
    rewrite (IH fuel r) by lia. reflexivity.
  - intros w0 H0 fuel w r Hw Hr F. destruct fuel; [cbn in F; lia|]. cbn [parse_value].
    rewrite skip_ws_stop by (try assumption; reflexivity).
    change (lit "{") with [123%N]. rewrite <- !app_assoc. cbn [app].
    change (N.eqb 123 c_quote) with false. change (N.eqb 123 91) with false.
    change (N.eqb 123 123) with true.
    cbn iota. rewrite skip_ws_stop by (try assumption; reflexivity). reflexivity.
  - intros l t H IH fuel w r Hw Hr F.
    rewrite !app_length in F. cbn [lit length] in F.
    destruct fuel; [lia|]. cbn [parse_value].
    rewrite skip_ws_stop by (try assumption; reflexivity).
    change (lit "{") with [123%N]. rewrite <- !app_assoc. cbn [app].
    change (N.eqb 123 c_quote) with false. change (N.eqb 123 91) with false.
    change (N.eqb 123 123) with true.
    cbn iota.
    destruct (members_first l t (lit "}" ++ r) H) as [s' E]. rewrite E.
    change (N.eqb c_quote 125) with false. cbn iota.
    rewrite (IH fuel r) by lia. reflexivity.
  - intros v w1 t w2 H1 H2 H IH fuel r F. rewrite !app_length in F.
    destruct fuel; [lia|]. cbn [parse_elems]. rewrite <- !app_assoc.
    rewrite (IH fuel w1 (w2 ++ lit "]" ++ r)); [|assumption|apply white_value_end; cbn; auto 10|lia].
    rewrite skip_ws_stop by (try assumption; reflexivity). reflexivity.
  - intros v l w1 t w2 ts H1 H2 H IH Hl IHl fuel r F. rewrite !app_length in F. cbn [lit length] in F.
    destruct fuel; [lia|]. cbn [parse_elems]. rewrite <- !app_assoc.
    rewrite (IH fuel w1); [|assumption|apply white_value_end; cbn; auto 10|lia].
    rewrite skip_ws_stop by (try assumption; reflexivity).
    change (lit ",") with [44%N]. cbn [app]. change (N.eqb 44 93) with false. change (N.eqb 44 44) with true.
    cbn iota. rewrite (IHl fuel r) by lia. reflexivity.
  - intros k kt v t w1 w2 w3 w4 H1 H2 H3 H4 Hk H IH fuel r F.
    unfold quoted in F. rewrite !app_length in F. cbn [lit length] in F. rewrite !app_length in F.
    cbn [length] in F.
    destruct fuel; [lia|]. cbn [parse_members]. rewrite <- !app_assoc.
    rewrite skip_ws_stop by (try assumption; reflexivity).
    unfold quoted. cbn [app]. change (N.eqb 34 c_quote) with true. cbn iota.
    rewrite <- app_assoc. cbn [app]. rewrite (parse_token_ok k) by exact Hk.
    rewrite skip_ws_stop by (try assumption; reflexivity).
    change (lit ":") with [58%N]. cbn [app]. change (N.eqb 58 58) with true. cbn iota.
    rewrite (IH fuel w3); [|assumption|apply white_value_end; cbn; auto 10|lia].
    rewrite skip_ws_stop by (try assumption; reflexivity). reflexivity.
  - intros k kt v m t ts w1 w2 w3 w4 H1 H2 H3 H4 Hk H IH Hm IHm fuel r F.
    unfold quoted in F. rewrite !app_length in F. cbn [lit length] in F. rewrite !app_length in F.
    cbn [length] in F.
    destruct fuel; [lia|]. cbn [parse_members]. rewrite <- !app_assoc.
    rewrite skip_ws_stop by (try assumption; reflexivity).
    unfold quoted. cbn [app]. change (N.eqb 34 c_quote) with true. cbn iota.
    rewrite <- app_assoc. cbn [app]. rewrite (parse_token_ok k) by exact Hk.
    rewrite skip_ws_stop by (try assumption; reflexivity).
    change (lit ":") with [58%N]. cbn [app]. change (N.eqb 58 58) with true. cbn iota.
    rewrite (IH fuel w3); [|assumption|apply white_value_end; cbn; auto 10|lia].
    rewrite skip_ws_stop by (try assumption; reflexivity).
    change (lit ",") with [44%N]. cbn [app]. change (N.eqb 44 125) with false. change (N.eqb 44 44) with true.
    cbn iota. rewrite (IHm fuel r) by lia. reflexivity.
Qed.

Lemma is_prefix_split : forall p s, is_prefix p s = true -> s = p ++ skipn (List.length p) s.
Proof.
  induction p as [|x p IH]; intros s H; [reflexivity|].
  destruct s as [|y s]; [discriminate|]. cbn in H. apply andb_true_iff in H. destruct H as [H1 H2].
  apply N.eqb_eq in H1. subst y. cbn. rewrite <- IH by exact H2. reflexivity.
Qed.

Lemma expect_sound : forall p v s x r, expect p v s = Some (x, r) -> x = v /\ s = p ++ r.
Proof.
  intros p v s x r H. unfold expect in H. destruct (is_prefix p s) eqn:E; [|discriminate]. inv H.
  split; [reflexivity|]. apply is_prefix_split. exact E.
Qed.

Lemma parse_sound : forall fuel,
  (forall s v r, parse_value fuel s = Some (v, r) ->
     exists w t, white w /\ json_text v t /\ s = w ++ t ++ r)
  /\ (forall s l r, parse_elems fuel s = Some (l, r) ->
     exists t, elements_text l t /\ s = t ++ lit "]" ++ r)
  /\ (forall s l r, parse_members fuel s = Some (l, r) ->
     exists t, members_text l t /\ s = t ++ lit "}" ++ r).
Proof.
  induction fuel as [|fuel [IHv [IHe IHm]]]; [repeat split; discriminate|]. split; [|split].
  - intros s v r H. cbn [parse_value] in H.
    destruct (skip_ws_split s) as [w [Hw [E Nw]]]. destruct (skip_ws s) as [|c s'] eqn:Es; [discriminate|].
    subst s. clear Es.
    assert (G : exists t, json_text v t /\ c :: s' = t ++ r).
    { destruct (N.eqb_spec c c_quote) as [->|Hq].
      { destruct (parse_token s') as [[k r']|] eqn:Ep; [|discriminate].
        apply parse_token_sound in Ep. destruct Ep as [t [-> Ht]].
        exists (quoted t). split; [destruct k; inv H; constructor; exact Ht|].
        assert (r' = r) as -> by (destruct k; inv H; reflexivity).
        unfold quoted. cbn. rewrite <- app_assoc. reflexivity. }
      destruct (N.eqb_spec c 91) as [->|Ha].
      { destruct (skip_ws_split s') as [w' [Hw' [E' Nw']]].
        destruct (skip_ws s') as [|d s''] eqn:Es'; [discriminate|].
        destruct (N.eqb_spec d 93) as [->|Hd].
        - injection H as <- <-. exists (lit "[" ++ w' ++ lit "]"). split; [constructor; exact Hw'|].
          rewrite E'. cbn. rewrite <- app_assoc. reflexivity.
        - destruct (parse_elems fuel s') as [[l r']|] eqn:Ee; [|discriminate]. inv H.
          apply IHe in Ee. destruct Ee as [t [Ht Et]]. exists (lit "[" ++ t ++ lit "]").
          split; [constructor; exact Ht|]. rewrite Et. cbn. rewrite <- app_assoc. reflexivity. }
      destruct (N.eqb_spec c 123) as [->|Ho].
      { destruct (skip_ws_split s') as [w' [Hw' [E' Nw']]].
        destruct (skip_ws s') as [|d s''] eqn:Es'; [discriminate|].
        destruct (N.eqb_spec d 125) as [->|Hd].
        - injection H as <- <-. exists (lit "{" ++ w' ++ lit "}"). split; [constructor; exact Hw'|].
          rewrite E'. cbn. rewrite <- app_assoc. reflexivity.
        - destruct (parse_members fuel s') as [[l r']|] eqn:Ee; [|discriminate]. inv H.
          apply IHm in Ee. destruct Ee as [t [Ht Et]]. exists (lit "{" ++ t ++ lit "}").
          split; [constructor; exact Ht|]. rewrite Et. cbn. rewrite <- app_assoc. reflexivity. }
      destruct (N.eqb_spec c 110) as [->|].
      { apply expect_sound in H. destruct H as [-> H]. eexists. split; [apply jt_null|exact H]. }
      destruct (N.eqb_spec c 116) as [->|].
      { apply expect_sound in H. destruct H as [-> H]. eexists. split; [apply jt_true|exact H]. }
      destruct (N.eqb_spec c 102) as [->|].
      { apply expect_sound in H. destruct H as [-> H]. eexists. split; [apply jt_false|exact H]. }
      apply parse_number_sound in H. destruct H as [t [-> H]]. exists t.
      split; [constructor; exact H|reflexivity]. }
    destruct G as [t [Ht Et]]. exists w, t. rewrite Et. auto.
  - intros s l r H. cbn [parse_elems] in H.
    destruct (parse_value fuel s) as [[v r1]|] eqn:Ev; [|discriminate].
    apply IHv in Ev. destruct Ev as [w1 [t [Hw1 [Ht ->]]]].
    destruct (skip_ws_split r1) as [w2 [Hw2 [E _]]].
    destruct (skip_ws r1) as [|c r'] eqn:Es; [discriminate|]. subst r1.
    destruct (N.eqb_spec c 93) as [->|].
    + inv H. exists (w1 ++ t ++ w2). split; [constructor; assumption|].
      rewrite <- !app_assoc. reflexivity.
    + destruct (N.eqb_spec c 44) as [->|]; [|discriminate].
      destruct (parse_elems fuel r') as [[l' r'']|] eqn:Ee; [|discriminate]. inv H.
      apply IHe in Ee. destruct Ee as [ts [Hts ->]].
      exists (w1 ++ t ++ w2 ++ lit "," ++ ts). split; [constructor; assumption|].
      rewrite <- !app_assoc. reflexivity.
  - intros s l r H. cbn [parse_members] in H.
    destruct (skip_ws_split s) as [w1 [Hw1 [E _]]].
    destruct (skip_ws s) as [|q s1] eqn:Es; [discriminate|]. subst s.
    destruct (N.eqb_spec q c_quote) as [->|]; [|discriminate].
    destruct (parse_token s1) as [[k rk]|] eqn:Ek; [|discriminate].
    apply parse_token_sound in Ek. destruct Ek as [kt [-> Hk]].
    destruct (skip_ws_split rk) as [w2 [Hw2 [E2 _]]].
    destruct (skip_ws rk) as [|c r1] eqn:Es2; [discriminate|]. subst rk.
    destruct (N.eqb_spec c 58) as [->|]; [|discriminate].
    destruct (parse_value fuel r1) as [[v r2]|] eqn:Ev; [|discriminate].
    apply IHv in Ev. destruct Ev as [w3 [t [Hw3 [Ht ->]]]].
    destruct (skip_ws_split r2) as [w4 [Hw4 [E4 _]]].
    destruct (skip_ws r2) as [|d r3] eqn:Es4; [discriminate|]. subst r2.
    destruct (N.eqb_spec d 125) as [->|].
    + inv H. exists (w1 ++ quoted kt ++ w2 ++ lit ":" ++ w3 ++ t ++ w4).
      split; [constructor; assumption|].
      unfold quoted. rewrite <- !app_assoc. cbn. rewrite <- !app_assoc. reflexivity.
    + destruct (N.eqb_spec d 44) as [->|]; [|discriminate].
      destruct (parse_members fuel r3) as [[l' r4]|] eqn:Em; [|discriminate]. inv H.
      apply IHm in Em. destruct Em as [ts [Hts ->]].
      exists (w1 ++ quoted kt ++ w2 ++ lit ":" ++ w3 ++ t ++ w4 ++ lit "," ++ ts).
      split; [constructor; assumption|].
      unfold quoted. rewrite <- !app_assoc. cbn. rewrite <- !app_assoc. reflexivity.
Qed.

Lemma parse_json_iff : forall s v, parse_json s = Some v <-> document v s.
Proof.
  intros s v. unfold parse_json. split.
  - destruct (parse_value (S (2 * List.length s)) s) as [[v' r]|] eqn:E; [|discriminate].
    destruct (skip_ws r) eqn:Er; [|discriminate]. intros H; inv H.
    apply (proj1 (parse_sound _)) in E. destruct E as [w1 [t [Hw1 [Ht Es]]]].
    destruct (skip_ws_split r) as [w2 [Hw2 [E2 _]]]. rewrite Er, app_nil_r in E2. subst r.
    exists w1, t, w2. auto.
  - intros [w1 [t [w2 [Hw1 [Hw2 [Ht ->]]]]]].
    rewrite (proj1 texts_parse v t Ht).
    + rewrite <- (app_nil_r w2) at 1. rewrite skip_ws_white by exact Hw2. reflexivity.
    + exact Hw1.
    + rewrite <- (app_nil_r w2). apply white_value_end; [exact Hw2|exact I].
    + rewrite !app_length. lia.
Qed.
