(** * Lemmas about the v3 decoder of S_Decode.v *)
From Verif Require Import F_Base M_Mapping M_SourceMap M_MapLib S_Vlq S_Decode.

Notation comma := (ch ",").
Notation semicolon := (ch ";").

(** ** split_on *)
Lemma split_on_cons : forall c s, exists h t, split_on c s = h :: t.
Proof.
  intros c [|x s]; cbn; [eauto|]. destruct (N.eqb x c); [eauto|].
  destruct (split_on c s); eauto.
Qed.

Lemma split_on_sep : forall c s, split_on c (c :: s) = [] :: split_on c s.
Proof. intros. cbn. rewrite N.eqb_refl. reflexivity. Qed.

Lemma split_on_app : forall c a s, ~ In c a ->
  forall h t, split_on c s = h :: t -> split_on c (a ++ s) = (a ++ h) :: t.
Proof.
  intros c a s. induction a as [|x a IH]; intros Hn h t E; cbn [app]; [exact E|].
  cbn [split_on]. destruct (N.eqb x c) eqn:Ex.
  - apply N.eqb_eq in Ex. exfalso. apply Hn. left. exact Ex.
  - rewrite (IH (fun H => Hn (or_intror H)) h t E). reflexivity.
Qed.

Lemma split_on_none : forall c a, ~ In c a -> split_on c a = [a].
Proof.
  intros c a H. rewrite <- (app_nil_r a) at 1. rewrite (split_on_app c a [] H [] []); [|reflexivity].
  rewrite app_nil_r. reflexivity.
Qed.

(** ** Decoding from the middle of a text *)
Definition start_from (line : Z) (r : Regs) (s : str) : option (list RawMapping) :=
  decode_lines line r (split_on semicolon s).

(** The rest of a line after a segment. *)
Definition rest_line (line gcol : Z) (r : Regs) (s : str) : option (list RawMapping * Regs) :=
  match s with
  | [] => Some ([], r)
  | c :: s' => if N.eqb c comma then decode_segments line gcol r (split_on comma s') else None
  end.

Definition mid_from (line gcol : Z) (r : Regs) (s : str) : option (list RawMapping) :=
  match split_on semicolon s with
  | [] => None
  | h :: t =>
      match rest_line line gcol r h with
      | None => None
      | Some (ms, r) => match decode_lines (line + 1) r t with
                        | None => None
                        | Some rest => Some (ms ++ rest)
                        end
      end
  end.

(** A text that can follow a segment. *)
Definition sep_start (s : str) : Prop :=
  s = [] \/ (exists s', s = comma :: s') \/ (exists s', s = semicolon :: s').

Definition seg_text (seg : str) : Prop := seg <> [] /\ ~ In comma seg /\ ~ In semicolon seg.

Lemma start_nil : forall line r, start_from line r [] = Some [].
Proof. reflexivity. Qed.

Lemma mid_nil : forall line g r, mid_from line g r [] = Some [].
Proof. reflexivity. Qed.

Lemma start_semicolon : forall line r s, start_from line r (semicolon :: s) = start_from (line + 1) r s.
Proof.
  intros. unfold start_from. rewrite split_on_sep. cbn [decode_lines decode_line].
  destruct (decode_lines (line + 1) r (split_on semicolon s)); reflexivity.
Qed.

Lemma mid_semicolon : forall line g r s, mid_from line g r (semicolon :: s) = start_from (line + 1) r s.
Proof.
  intros. unfold mid_from, start_from. rewrite split_on_sep. cbn [rest_line].
  destruct (decode_lines (line + 1) r (split_on semicolon s)); reflexivity.
Qed.

Lemma start_semicolons : forall n line r s,
  start_from line r (repeat semicolon n ++ s) = start_from (line + Z.of_nat n) r s.
Proof.
  induction n as [|n IH]; intros line r s; cbn [repeat app].
  - rewrite Z.add_0_r. reflexivity.
  - rewrite start_semicolon, IH. f_equal. lia.
Qed.

Lemma mid_semicolons : forall n line g r s,
  mid_from line g r (repeat semicolon (S n) ++ s) = start_from (line + Z.of_nat (S n)) r s.
Proof.
  intros. cbn [repeat app]. rewrite mid_semicolon, start_semicolons. f_equal. lia.
Qed.

(** The first line of a text that follows a segment. *)
Lemma sep_head : forall s h t, sep_start s -> split_on semicolon s = h :: t ->
  h = [] \/ exists h', h = comma :: h'.
Proof.
  intros s h t [->|[[s' ->]|[s' ->]]] E.
  - cbn in E. inv E. left. reflexivity.
  - destruct (split_on_cons semicolon s') as [h' [t' E']].
    change (comma :: s') with ([comma] ++ s') in E.
    rewrite (split_on_app semicolon [comma] s' ltac:(intros [H|[]]; discriminate) h' t' E') in E.
    injection E as <- <-. right. eexists. reflexivity.
  - rewrite split_on_sep in E. inv E. left. reflexivity.
Qed.

Lemma segments_head : forall line g r seg h, seg_text seg -> (h = [] \/ exists h', h = comma :: h') ->
  decode_segments line g r (split_on comma (seg ++ h)) =
  match decode_segment line g r seg with
  | None => None
  | Some (m, g', r') => match rest_line line g' r' h with
                        | None => None
                        | Some (ms, r'') => Some (m :: ms, r'')
                        end
  end.
Proof.
  intros line g r seg h [_ [Hc _]] [->|[h' ->]].
  - rewrite app_nil_r, split_on_none by exact Hc. cbn [decode_segments rest_line].
    destruct (decode_segment line g r seg) as [[[m g'] r']|]; reflexivity.
  - rewrite (split_on_app comma seg (comma :: h') Hc [] (split_on comma h') (split_on_sep _ _)).
    rewrite app_nil_r. cbn [decode_segments].
    destruct (decode_segment line g r seg) as [[[m g'] r']|]; [|reflexivity].
    unfold rest_line. rewrite N.eqb_refl. reflexivity.
Qed.

Lemma start_segment : forall line r seg s, seg_text seg -> sep_start s ->
  start_from line r (seg ++ s) =
  match decode_segment line 0 r seg with
  | None => None
  | Some (m, g, r') => match mid_from line g r' s with
                       | None => None
                       | Some l => Some (m :: l)
                       end
  end.
Proof.
  intros line r seg s Hs Hsep. unfold start_from, mid_from.
  destruct (split_on_cons semicolon s) as [h [t E]].
  pose proof (sep_head s h t Hsep E) as Hh.
  rewrite (split_on_app semicolon seg s (proj2 (proj2 Hs)) h t E). rewrite E.
  cbn [decode_lines]. unfold decode_line. destruct (seg ++ h) as [|c k] eqn:Ek.
  { destruct Hs as [Hs _]. apply app_eq_nil in Ek. destruct Ek. contradiction. }
  rewrite <- Ek. rewrite (segments_head line 0 r seg h Hs Hh).
  destruct (decode_segment line 0 r seg) as [[[m g] r']|]; [|reflexivity].
  destruct (rest_line line g r' h) as [[ms r'']|]; [|reflexivity].
  destruct (decode_lines (line + 1) r'' t); reflexivity.
Qed.

Lemma mid_segment : forall line g r seg s, seg_text seg -> sep_start s ->
  mid_from line g r (comma :: seg ++ s) =
  match decode_segment line g r seg with
  | None => None
  | Some (m, g', r') => match mid_from line g' r' s with
                        | None => None
                        | Some l => Some (m :: l)
                        end
  end.
Proof.
  intros line g r seg s Hs Hsep. unfold mid_from.
  destruct (split_on_cons semicolon s) as [h [t E]].
  pose proof (sep_head s h t Hsep E) as Hh.
  assert (Hn : ~ In semicolon (comma :: seg)).
  { intros [H|H]; [discriminate | exact (proj2 (proj2 Hs) H)]. }
  change (comma :: seg ++ s) with ((comma :: seg) ++ s).
  rewrite (split_on_app semicolon (comma :: seg) s Hn h t E). rewrite E.
  cbn [app]. unfold rest_line at 1. rewrite N.eqb_refl.
  rewrite (segments_head line g r seg h Hs Hh).
  destruct (decode_segment line g r seg) as [[[m g'] r']|]; [|reflexivity].
  destruct (rest_line line g' r' h) as [[ms r'']|]; [|reflexivity].
  destruct (decode_lines (line + 1) r'' t); reflexivity.
Qed.

(** ** Line structure *)
Section Lines.
  Context (F : str -> Prop).
Definition good_rest (s : str) : Prop :=
  s = [] \/ exists s', s = comma :: s' /\ Forall (good_seg F) (split_on comma s').

Definition start_good (s : str) (n : Z) : Prop :=
  Forall (good_line F) (split_on semicolon s) /\ len (split_on semicolon s) = n.
Definition mid_good (s : str) (n : Z) : Prop :=
  exists h t, split_on semicolon s = h :: t /\ good_rest h /\ Forall (good_line F) t /\ len t + 1 = n.

Lemma start_good_nil : start_good [] 1.
Proof. split; [repeat constructor | reflexivity]. Qed.
Lemma mid_good_nil : mid_good [] 1.
Proof. exists [], []. repeat split; auto. left. reflexivity. Qed.

Lemma start_good_semicolons : forall n s k, start_good s k ->
  start_good (repeat semicolon n ++ s) (Z.of_nat n + k).
Proof.
  induction n as [|n IH]; intros s k H; [exact H|]. cbn [repeat app].
  destruct (IH s k H) as [H1 H2]. split.
  - rewrite split_on_sep. constructor; [left; reflexivity | exact H1].
  - rewrite split_on_sep, len_cons. unfold str in *. rewrite H2. lia.
Qed.

Lemma mid_good_semicolons : forall n s k, start_good s k ->
  mid_good (repeat semicolon (S n) ++ s) (Z.of_nat (S n) + k).
Proof.
  intros n s k H. cbn [repeat app]. destruct (start_good_semicolons n s k H) as [H1 H2].
  exists [], (split_on semicolon (repeat semicolon n ++ s)). rewrite split_on_sep.
  repeat split; auto; [left; reflexivity | unfold str in *; lia].
Qed.

Lemma segs_good : forall seg h, seg_text seg -> good_seg F seg -> good_rest h ->
  Forall (good_seg F) (split_on comma (seg ++ h)).
Proof.
  intros seg h [_ [Hc _]] Hg [->|[h' [-> Hh]]].
  - rewrite app_nil_r, split_on_none by exact Hc. constructor; [exact Hg | constructor].
  - rewrite (split_on_app comma seg (comma :: h') Hc [] (split_on comma h') (split_on_sep _ _)).
    rewrite app_nil_r. constructor; assumption.
Qed.

Lemma start_good_segment : forall seg s k, seg_text seg -> good_seg F seg -> mid_good s k ->
  start_good (seg ++ s) k.
Proof.
  intros seg s k Hs Hg [h [t [E [Hh [Ht Hk]]]]]. unfold start_good.
  rewrite (split_on_app semicolon seg s (proj2 (proj2 Hs)) h t E). split.
  - constructor; [|exact Ht]. right. apply segs_good; assumption.
  - rewrite len_cons. exact Hk.
Qed.

Lemma mid_good_segment : forall seg s k, seg_text seg -> good_seg F seg -> mid_good s k ->
  mid_good (comma :: seg ++ s) k.
Proof.
  intros seg s k Hs Hg [h [t [E [Hh [Ht Hk]]]]].
  assert (Hn : ~ In semicolon (comma :: seg)).
  { intros [H|H]; [discriminate | exact (proj2 (proj2 Hs) H)]. }
  exists (comma :: seg ++ h), t. change (comma :: seg ++ s) with ((comma :: seg) ++ s).
  rewrite (split_on_app semicolon (comma :: seg) s Hn h t E). split; [reflexivity|].
  split; [|split; assumption]. right. eexists. split; [reflexivity|]. apply segs_good; assumption.
Qed.
End Lines.
