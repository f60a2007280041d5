(** * Characters of plain texts and percent escapes *)
From Verif Require Import Base F_Base M_Util S_Url F_Dec F_UrlText F_UrlPath F_UrlOps.

Lemma host_chars : forall h c, plain_host h -> In c h -> lower c = true \/ c = ch ".".
Proof.
  intros h c [ls [Hn [Hl ->]]] Hi. apply in_app_or in Hi.
  assert (G : forall l, In l ls -> In c l -> lower c = true).
  { intros l Hll Hc. rewrite Forall_forall in Hl. destruct (Hl l Hll) as [_ H]. rewrite Forall_forall in H. auto. }
  destruct Hi as [Hi|Hi].
  - apply in_concat in Hi. destruct Hi as [x [Hx Hc]]. apply in_map_iff in Hx. destruct Hx as [l [<- Hl']].
    apply in_app_or in Hc. destruct Hc as [Hc|Hc].
    + left. apply (G l); [|exact Hc]. clear -Hl'. induction ls as [|a ls IH]; [destruct Hl'|].
      destruct ls; [destruct Hl'|]. cbn [removelast] in Hl'. destruct Hl' as [->|H]; [left; reflexivity|right; auto].
    + cbn [lit In] in Hc. destruct Hc as [<-|[]]. right. reflexivity.
  - left. apply (G (last ls [])); [|exact Hi].
    destruct (snoc_cases _ ls) as [->|[l [x ->]]]; [exfalso; apply Hn; reflexivity|].
    rewrite last_last. apply in_or_app. right. left. reflexivity.
Qed.

Lemma host_no : forall h c, plain_host h -> lower c = false -> c <> ch "." -> ~ In c h.
Proof. intros h c Hh H1 H2 Hi. destruct (host_chars h c Hh Hi); congruence. Qed.

Lemma decimal_chars : forall t n c, decimal t n -> In c t -> (48 <= c <= 57)%N.
Proof.
  intros t n c H. induction H as [d Hd|t n d H IH Hn Hd]; intros Hi.
  - destruct Hi as [<-|[]]. unfold char in *. lia.
  - apply in_app_or in Hi. destruct Hi as [Hi|[<-|[]]]; [apply IH; exact Hi|]. unfold char in *. lia.
Qed.

(** what follows the scheme *)
Definition authority (o : origin) : str := login_text o ++ o_host o ++ port_text o.

Lemma port_no : forall o c, plain_port o -> c <> ch ":" -> ~ (48 <= c <= 57)%N -> ~ In c (port_text o).
Proof.
  intros o c H N1 N2 Hi. unfold plain_port, port_text in *. destruct (o_port o) as [t|]; [|destruct Hi].
  destruct H as [n [D _]]. apply in_app_or in Hi. destruct Hi as [[Hi|[]]|Hi]; [symmetry in Hi; contradiction|].
  apply N2. apply (decimal_chars _ _ _ D Hi).
Qed.

Lemma name_no : forall s c, Forall (fun c => name_char c = true) s -> name_char c = false -> ~ In c s.
Proof. intros s c H N Hi. rewrite Forall_forall in H. apply H in Hi. congruence. Qed.

Lemma authority_no : forall o c, plain_origin o -> name_char c = false -> c <> ch ":" -> c <> ch "@" -> ~ In c (authority o).
Proof.
  intros o c [[[Hs [Hh [[L1 L2] Hp]]]|[_ [U1 [U2 [U3 U4]]]]]|[_ [U1 [U2 [U3 U4]]]]] N1 N2 N3 Hi; unfold authority in Hi.
  2:{ apply file_host_names in U4. unfold login_text, port_text in Hi. rewrite U1, U3, app_nil_r in Hi. revert Hi. apply name_no; assumption. }
  2:{ unfold login_text, port_text in Hi. rewrite U1, U3, app_nil_r in Hi. revert Hi. apply name_no; assumption. }
  assert (D : ~ (48 <= c <= 57)%N).
  { intros D. unfold name_char in N1. rewrite !orb_false_iff in N1. destruct N1 as [[[[[_ N1] _] _] _] _].
    apply andb_false_iff in N1. unfold char in *. destruct N1 as [N1|N1]; apply N.leb_gt in N1; lia. }
  apply in_app_or in Hi. destruct Hi as [Hi|Hi].
  - unfold login_text in Hi. destruct (o_user o) as [|a user]; [destruct Hi|].
    apply in_app_or in Hi. destruct Hi as [Hi|Hi]; [revert Hi; apply name_no; assumption|].
    apply in_app_or in Hi. destruct Hi as [Hi|[Hi|[]]]; [|symmetry in Hi; contradiction].
    destruct (o_pass o) as [p|]; [|destruct Hi]. destruct Hi as [Hi|Hi]; [symmetry in Hi; contradiction|].
    revert Hi. apply name_no; [apply L2|exact N1].
  - apply in_app_or in Hi. destruct Hi as [Hi|Hi]; [|revert Hi; apply port_no; assumption].
    revert Hi. apply host_no; [exact Hh| |].
    + destruct (lower c) eqn:E; [|reflexivity]. unfold name_char in N1. unfold lower in E. rewrite E in N1.
      rewrite orb_true_r in N1. discriminate.
    + intros ->. discriminate N1.
Qed.

(** ** escapes *)
Lemma escape_app : forall a b, escape (a ++ b) = escape a ++ escape b.
Proof. intros. unfold escape. rewrite map_app, concat_app. reflexivity. Qed.

Lemma escape_cons : forall c s, escaped_char c = false -> escape (c :: s) = c :: escape s.
Proof. intros c s H. unfold escape. cbn [map concat]. rewrite H. reflexivity. Qed.

Lemma escape_id : forall s, (forall c, In c s -> escaped_char c = false) -> escape s = s.
Proof.
  induction s as [|c s IH]; intros H; [reflexivity|]. rewrite escape_cons by (apply H; left; reflexivity).
  rewrite IH; [reflexivity|]. intros x Hx. apply H. right. exact Hx.
Qed.

Definition upper_hex (c : char) : bool := ((48 <=? c) && (c <=? 57))%N || ((65 <=? c) && (c <=? 70))%N.

Lemma hex_digit_upper : forall n, (n < 16)%N -> upper_hex (hex_digit n) = true.
Proof.
  intros n H. unfold upper_hex, hex_digit. rewrite orb_true_iff, !andb_true_iff, !N.leb_le.
  destruct (N.ltb_spec n 10); lia.
Qed.

Lemma escaped_cases : forall c, escaped_char c = true ->
  (c = 32 \/ c = 34 \/ c = 60 \/ c = 62 \/ (128 <= c <= 1114111))%N.
Proof.
  intros c H. unfold escaped_char in H. cbn [existsb] in H. unfold char in *.
  rewrite !orb_true_iff, !andb_true_iff, !N.leb_le, !N.eqb_eq in H.
  repeat match goal with H : _ \/ _ |- _ => destruct H as [H|H] end; try discriminate; lia.
Qed.

Lemma utf8_bytes : forall c, escaped_char c = true ->
  (exists b, utf8 c = [b] /\ In b [32; 34; 60; 62]%N) \/ (Forall (fun b => (128 <= b < 256)%N) (utf8 c) /\ utf8 c <> []).
Proof.
  intros c H. apply escaped_cases in H. unfold char in *.
  destruct H as [->|[->|[->|[->|H]]]]; try (left; eexists; split; [reflexivity|cbn; tauto]).
  right. unfold utf8.
  assert (M : forall n, (128 <= 128 + n mod 64 < 256)%N) by (intros n; pose proof (N.mod_lt n 64 ltac:(discriminate)) as L; revert L; generalize (n mod 64)%N; lia).
  assert (L : forall k n m, (128 <= k -> n < m -> k + m <= 256 -> 128 <= k + n < 256)%N) by (intros; lia).
  destruct (N.ltb_spec c 128); [lia|].
  destruct (N.ltb_spec c 2048).
  { assert (c / 64 < 32)%N by (apply N.div_lt_upper_bound; lia).
    split; [|discriminate]. repeat apply Forall_cons; try apply Forall_nil; try apply M. eapply L; [|eassumption|]; lia. }
  destruct (N.ltb_spec c 65536).
  { assert (c / 4096 < 16)%N by (apply N.div_lt_upper_bound; lia).
    split; [|discriminate]. repeat apply Forall_cons; try apply Forall_nil; try apply M. eapply L; [|eassumption|]; lia. }
  assert (c / 262144 < 5)%N by (apply N.div_lt_upper_bound; lia).
  split; [|discriminate]. repeat apply Forall_cons; try apply Forall_nil; try apply M. eapply L; [|eassumption|]; lia.
Qed.

Lemma percent_plain : forall b, In b [32; 34; 60; 62]%N \/ (128 <= b < 256)%N ->
  forall s, plain s -> plain (percent b ++ s).
Proof.
  intros b H s Hs. unfold percent. cbn [app].
  assert (B : (b / 16 < 16)%N).
  { apply N.div_lt_upper_bound; [discriminate|]. destruct H as [H|H]; [|lia]. cbn in H. intuition (subst; lia). }
  assert (U : forall c, upper_hex c = true -> hex_char c = true).
  { intros c Hc. unfold upper_hex, hex_char in *. rewrite !orb_true_iff, !andb_true_iff, !N.leb_le in *. lia. }
  apply plain_escape; [apply U, hex_digit_upper; exact B|apply U, hex_digit_upper; apply N.mod_lt; discriminate| |exact Hs].
  intros [E1 E2]. destruct H as [H|H].
  - cbn [In] in H. repeat match goal with H : _ \/ _ |- _ => destruct H as [H|H] end; try contradiction; subst b;
      vm_compute in E1; try discriminate; vm_compute in E2; discriminate.
  - assert (8 <= b / 16)%N by (apply N.div_le_lower_bound; lia).
    unfold hex_digit in E1. change (ch "2") with 50%N in E1. destruct (N.ltb_spec (b / 16) 10); lia.
Qed.

Lemma escaped_plain : forall c s, escaped_char c = true -> plain s -> plain (concat (map percent (utf8 c)) ++ s).
Proof.
  intros c s H Hs. destruct (utf8_bytes c H) as [[b [-> Hb]]|[Hb _]].
  - cbn [map concat]. rewrite app_nil_r. apply percent_plain; [left; exact Hb|exact Hs].
  - induction Hb as [|b l Hb _ IH]; [exact Hs|]. cbn [map concat]. rewrite <- app_assoc.
    apply percent_plain; [right; exact Hb|exact IH].
Qed.

(** the characters of an escape *)
Lemma escaped_in : forall c x, escaped_char c = true -> In x (concat (map percent (utf8 c))) ->
  x = ch "%" \/ upper_hex x = true.
Proof.
  intros c x H Hi. apply in_concat in Hi. destruct Hi as [t [Ht Hx]]. apply in_map_iff in Ht. destruct Ht as [b [<- Hb]].
  assert (B : (b < 256)%N).
  { destruct (utf8_bytes c H) as [[b' [E Hb']]|[F _]].
    - rewrite E in Hb. destruct Hb as [<-|[]]. cbn [In] in Hb'.
      repeat match goal with H : _ \/ _ |- _ => destruct H as [H|H] end; try contradiction; subst b'; lia.
    - rewrite Forall_forall in F. apply F. exact Hb. }
  unfold percent in Hx. destruct Hx as [<-|[<-|[<-|[]]]]; [left; reflexivity| |]; right; apply hex_digit_upper.
  - apply N.div_lt_upper_bound; lia.
  - apply N.mod_lt. discriminate.
Qed.

Lemma escaped_shape : forall c, escaped_char c = true -> exists a b t, concat (map percent (utf8 c)) = ch "%" :: a :: b :: t.
Proof.
  intros c H. destruct (utf8_bytes c H) as [[b [-> _]]|[_ N]]; [do 3 eexists; reflexivity|].
  destruct (utf8 c) as [|b l]; [contradiction N; reflexivity|]. do 3 eexists. reflexivity.
Qed.

Lemma upper_hex_fixed : forall x, x = ch "%" \/ upper_hex x = true -> escaped_char x = false.
Proof.
  intros x [->|H]; [reflexivity|]. destruct (escaped_char x) eqn:E; [|reflexivity]. apply escaped_cases in E.
  unfold upper_hex, char in *. rewrite orb_true_iff, !andb_true_iff, !N.leb_le in H. lia.
Qed.

Lemma escape_chars : forall s x, In x (escape s) -> (In x s /\ escaped_char x = false) \/ x = ch "%" \/ upper_hex x = true.
Proof.
  intros s x Hi. apply in_concat in Hi. destruct Hi as [t [Ht Hx]]. apply in_map_iff in Ht. destruct Ht as [c [<- Hc]].
  destruct (escaped_char c) eqn:E; [right; apply (escaped_in c); assumption|].
  destruct Hx as [<-|[]]. left. split; assumption.
Qed.

Lemma escape_fixed : forall s x, In x (escape s) -> escaped_char x = false.
Proof. intros s x H. apply escape_chars in H. destruct H as [[_ H]|H]; [exact H|apply upper_hex_fixed; exact H]. Qed.

Lemma escape_idem : forall s, escape (escape s) = escape s.
Proof. intros s. apply escape_id. apply escape_fixed. Qed.

Lemma escape_nil : forall s, escape s = [] -> s = [].
Proof.
  destruct s as [|c s]; intros H; [reflexivity|]. exfalso. unfold escape in H. cbn [map concat] in H.
  apply app_eq_nil in H. destruct H as [H _]. destruct (escaped_char c) eqn:E; [|discriminate].
  destruct (escaped_shape c E) as [a [b [t Es]]]. rewrite Es in H. discriminate.
Qed.

Lemma escape_len : forall s, len s <= len (escape s).
Proof.
  induction s as [|c s IH]; [discriminate|]. change (c :: s) with ([c] ++ s) at 2. rewrite escape_app, !len_app.
  replace (len (c :: s)) with (1 + len s) by (unfold len; cbn [List.length]; lia).
  assert (1 <= len (escape [c])); [|lia]. unfold escape. cbn [map concat]. rewrite app_nil_r.
  destruct (escaped_char c) eqn:E; [|discriminate]. destruct (escaped_shape c E) as [a [b [t ->]]].
  unfold len. cbn [List.length]. lia.
Qed.

(** a character that is neither escaped nor in escapes *)
Definition outside (x : char) : Prop := escaped_char x = false /\ x <> ch "%" /\ upper_hex x = false.

Lemma outside_in : forall x s, outside x -> In x (escape s) <-> In x s.
Proof.
  intros x s [O1 [O2 O3]]. split; intros Hi.
  - apply escape_chars in Hi. destruct Hi as [[Hi _]|[Hi|Hi]]; [exact Hi|contradiction|congruence].
  - apply in_split in Hi. destruct Hi as [a [b ->]]. rewrite escape_app, escape_cons by exact O1.
    apply in_or_app. right. left. reflexivity.
Qed.

(** ** plain texts have nothing to escape *)
Lemma text_fixed : forall c, text_char c = true -> escaped_char c = false.
Proof.
  intros c H. destruct (escaped_char c) eqn:E; [|reflexivity]. exfalso. apply escaped_cases in E.
  unfold text_char, plain_char, name_char in H. cbn [existsb lit] in H. unfold char in *.
  destruct E as [->|[->|[->|[->|E]]]]; try discriminate H.
  rewrite !orb_true_iff, !andb_true_iff, !N.leb_le, !N.eqb_eq in H. cbn in H.
  repeat match goal with H : _ \/ _ |- _ => destruct H as [H|H] end; try discriminate; try lia; subst c; lia.
Qed.

Lemma authority_fixed : forall o c, plain_origin o -> In c (authority o) -> escaped_char c = false.
Proof.
  intros o c Ho Hi. destruct (name_char c) eqn:E.
  - apply text_fixed. unfold text_char, plain_char. rewrite E. reflexivity.
  - destruct (N.eq_dec c (ch ":")) as [->|N1]; [reflexivity|].
    destruct (N.eq_dec c (ch "@")) as [->|N2]; [reflexivity|].
    exfalso. revert Hi. apply authority_no; assumption.
Qed.

Lemma reference_fixed : forall s c, reference s -> In c s -> escaped_char c = false.
Proof.
  assert (P : forall p c, plain_path p -> In c (path_text p) -> escaped_char c = false).
  { intros p c Hp Hi. destruct (path_text_chars p c Hp Hi) as [H| ->]; [apply text_fixed; exact H|reflexivity]. }
  assert (A : forall p c, plain_path p -> In c (abs_text p) -> escaped_char c = false).
  { intros p c Hp [<-|Hi]; [reflexivity|apply (P p); assumption]. }
  assert (T : forall q f c, plain_opt q -> plain_opt f -> In c (tail_text q f) -> escaped_char c = false).
  { intros q f c Hq Hf Hi. destruct (tail_text_chars q f c Hq Hf Hi) as [H|[-> | ->]]; [apply text_fixed; exact H|reflexivity..]. }
  assert (H : forall h c, plain_host h -> In c h -> escaped_char c = false).
  { intros h c Hh Hi. destruct (host_chars h c Hh Hi) as [L| ->]; [|reflexivity]. apply text_fixed.
    unfold text_char, plain_char, name_char, lower in *. rewrite L, !orb_true_r. reflexivity. }
  intros s c R Hi. destruct R as [p q f Hp Hq Hf Hn|p q f Hp Hq Hf|h p q f Hh Hp Hq Hf|o p q f Ho Hp Hq Hf].
  - apply in_app_or in Hi. destruct Hi as [Hi|Hi]; [apply (P p)|apply (T q f)]; assumption.
  - apply in_app_or in Hi. destruct Hi as [Hi|Hi]; [apply (A p)|apply (T q f)]; assumption.
  - unfold net_text in Hi. apply in_app_or in Hi. destruct Hi as [[<-|[<-|[]]]|Hi]; [reflexivity..|].
    apply in_app_or in Hi. destruct Hi as [Hi|Hi]; [apply (H h); assumption|].
    apply in_app_or in Hi. destruct Hi as [Hi|Hi]; [apply (A p)|apply (T q f)]; assumption.
  - unfold url_text in Hi. apply in_app_or in Hi. destruct Hi as [Hi|Hi].
    + unfold origin_text in Hi. fold (authority o) in Hi. apply in_app_or in Hi. destruct Hi as [Hi|Hi].
      * destruct Ho as [[[[E|E] _]|[E _]]|[O _]];
          [rewrite E in Hi; cbn in Hi; repeat (destruct Hi as [<-|Hi]; [reflexivity|]); destruct Hi..|].
        destruct (other_scheme_chars _ O) as [_ F]. rewrite Forall_forall in F. apply F in Hi.
        destruct (escaped_char c) eqn:E; [|reflexivity]. apply escaped_cases in E. unfold char in *. lia.
      * apply in_app_or in Hi. destruct Hi as [[<-|[<-|[<-|[]]]]|Hi]; [reflexivity..|]. apply (authority_fixed o); assumption.
    + apply in_app_or in Hi. destruct Hi as [Hi|Hi]; [apply (A p)|apply (T q f)]; assumption.
Qed.

Lemma reference_escape : forall s, reference s -> escape s = s.
Proof. intros s H. apply escape_id. intros c. apply reference_fixed. exact H. Qed.

Lemma origin_escape : forall o, plain_origin o -> escape (origin_text o) = origin_text o.
Proof.
  intros o Ho. apply escape_id. intros c Hc. apply (reference_fixed (url_text o (mkPath [] []) None None)).
  - apply reference_url; [exact Ho|split; constructor|exact I|exact I].
  - unfold url_text. apply in_or_app. left. exact Hc.
Qed.
