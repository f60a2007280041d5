(** * Texts that say the same are read the same; texts that are refused *)
From Verif Require Import Base F_Base M_ArraySet M_Util M_Mapping M_SourceMap M_Json M_MapLib M_Consumer M_Indexed
  S_Json F_Dec F_JsonText F_Json F_Dispatch.

Definition strip (f : option json) : option json :=
  match f with Some JNull => None | _ => f end.

Lemma strip_option : forall A (g : json -> option A) f, de_field_option g f = de_field_option g (strip f).
Proof. intros A g [[]|]; reflexivity. Qed.

Lemma strip_field : forall A (g : json -> option A) f, g JNull = None -> de_field g f = de_field g (strip f).
Proof. intros A g [[]|] H; cbn; try reflexivity. exact H. Qed.

Lemma member_twice : forall k m, Forall (fun kv => fst kv <> None) m -> member k m = None ->
  exists a v b w c, m = a ++ (Some k, v) :: b ++ (Some k, w) :: c.
Proof.
  induction m as [|[[k'|] v] m IH]; intros N H; cbn in H; [discriminate| |inv N; cbn in *; congruence].
  inv N. destruct (str_eqb k k') eqn:E.
  - apply str_eqb_eq in E. subst k'. destruct (member k m) as [[x|]|] eqn:Em; [|discriminate|].
    + clear H IH. assert (I : In (Some k, x) m).
      { revert Em. clear. revert x. induction m as [|[[k'|] y] m IH]; intros x H; cbn in H; try discriminate.
        destruct (str_eqb k k') eqn:E.
        - apply str_eqb_eq in E. subst k'. destruct (member k m) as [[z|]|]; inv H. left. reflexivity.
        - right. apply IH. exact H. }
      apply in_split in I. destruct I as [b [c ->]]. exists [], v, b, x, c. reflexivity.
    + destruct (IH ltac:(assumption) eq_refl) as (a & v' & b & w & c & ->).
      exists ((Some k, v) :: a), v', b, w, c. reflexivity.
  - destruct (IH ltac:(assumption) H) as (a & v' & b & w & c & ->).
    exists ((Some k', v) :: a), v', b, w, c. reflexivity.
Qed.

Lemma well_keyed_member : forall ks m k, well_keyed ks m -> In k ks -> exists f, member (lit k) m = Some f.
Proof.
  intros ks m k [N D] Hk. destruct (member (lit k) m) as [f|] eqn:E; [eauto|].
  apply member_twice in E; [|exact N]. destruct E as (a & v & b & w & c & ->).
  exfalso. eapply D; [exact Hk|reflexivity].
Qed.

Lemma member_says : forall m k f o, Forall (fun kv => fst kv <> None) m ->
  member (lit k) m = Some f -> (says m k o <-> o = strip f).
Proof.
  intros m k f o N H. apply member_iff in H; [|exact N]. destruct f as [v|]; cbn in H.
  - destruct H as [a [b [-> Hn]]].
    assert (U : forall x, In (Some (lit k), x) (a ++ (Some (lit k), v) :: b) <-> x = v).
    { intros x. rewrite in_app_iff. cbn. rewrite map_app, in_app_iff in Hn. split.
      - intros [I|[I|I]]; [|inv I; reflexivity|]; exfalso; apply Hn;
          [left|right]; apply (in_map fst) in I; exact I.
      - intros ->. right. left. reflexivity. }
    destruct o as [x|]; cbn [says].
    + rewrite U. split.
      * intros [H ->]. destruct v; try reflexivity. congruence.
      * destruct v; cbn; try discriminate; intros E; inv E; split; congruence.
    + split.
      * intros H. rewrite (H v (proj2 (U v) eq_refl)). reflexivity.
      * intros H x Hx. apply U in Hx. subst x. destruct v; try discriminate. reflexivity.
  - assert (U : forall x, ~ In (Some (lit k), x) m) by (intros x I; apply H; apply (in_map fst) in I; exact I).
    destruct o as [x|]; cbn.
    + split; [intros [_ I]; destruct (U x I)|discriminate].
    + split; [reflexivity|]. intros _ x I. destruct (U x I).
Qed.

(** the fields of both objects, alike up to nulls *)
Lemma same_member : forall ks ms m m' k, well_keyed ks m -> well_keyed ks m' -> In k ks ->
  same_members ms m m' -> In k ms ->
  exists f f', member (lit k) m = Some f /\ member (lit k) m' = Some f' /\ strip f = strip f'.
Proof.
  intros ks ms m m' k W W' Hk S Hs.
  destruct (well_keyed_member ks m k W Hk) as [f Hf]. destruct (well_keyed_member ks m' k W' Hk) as [f' Hf'].
  exists f, f'. split; [exact Hf|]. split; [exact Hf'|].
  apply (proj1 (member_says m' k f' (strip f) (proj1 W') Hf')).
  apply S; [exact Hs|]. apply (member_says m k f _ (proj1 W) Hf). reflexivity.
Qed.

Lemma said_member : forall ks m k o, well_keyed ks m -> In k ks -> says m k o ->
  exists f, member (lit k) m = Some f /\ strip f = o.
Proof.
  intros ks m k o W Hk H. destruct (well_keyed_member ks m k W Hk) as [f Hf].
  exists f. split; [exact Hf|]. symmetry. apply (member_says m k f o (proj1 W) Hf). exact H.
Qed.

Lemma same_position_read : forall d v v', same_position v v' -> position_of_json d v = position_of_json d v'.
Proof.
  intros d v v' H. destruct H as [v|m m' W W' S]; [reflexivity|].
  unfold position_of_json. destruct (enter d); [|reflexivity]. cbn [struct_fields omap].
  destruct (same_member _ _ m m' "line"%string W W' ltac:(cbn; tauto) S ltac:(cbn; tauto)) as (f & f' & -> & -> & E).
  destruct (same_member _ _ m m' "column"%string W W' ltac:(cbn; tauto) S ltac:(cbn; tauto)) as (g & g' & -> & -> & E').
  rewrite (strip_field _ _ f), (strip_field _ _ g), (strip_field _ _ f'), (strip_field _ _ g'), E, E' by reflexivity.
  reflexivity.
Qed.

Lemma position_null : forall d, position_of_json d JNull = None.
Proof. intros d. unfold position_of_json. destruct (enter d); reflexivity. Qed.

Lemma map_null : forall fuel d, smj_of_json fuel d JNull = None.
Proof. intros [|fuel] d; [reflexivity|]. cbn. destruct (enter d); reflexivity. Qed.

Lemma same_read : forall fuel,
  (forall d v v', same_map v v' -> smj_of_json fuel d v = smj_of_json fuel d v')
  /\ (forall d v v', same_section v v' -> section_of_json fuel d v = section_of_json fuel d v').
Proof.
  induction fuel as [|fuel [IHm IHs]]; [split; reflexivity|]. split.
  - intros d v v' H. destruct H as [v|m m' o o' W W' S So So' HS]; [reflexivity|].
    cbn [smj_of_json]. destruct (enter d) as [d'|]; [|reflexivity]. cbn [struct_fields omap].
    assert (F : forall k, In k map_keys -> exists f f',
      member (lit k) m = Some f /\ member (lit k) m' = Some f' /\ strip f = strip f').
    { intros k Hk. apply (same_member _ map_keys m m' k W W'); [right; exact Hk|exact S|exact Hk]. }
    destruct (F "version"%string ltac:(cbn; tauto)) as (f1 & g1 & -> & -> & E1).
    destruct (F "sources"%string ltac:(cbn; tauto)) as (f2 & g2 & -> & -> & E2).
    destruct (F "names"%string ltac:(cbn; tauto)) as (f3 & g3 & -> & -> & E3).
    destruct (F "mappings"%string ltac:(cbn; tauto)) as (f4 & g4 & -> & -> & E4).
    destruct (F "file"%string ltac:(cbn; tauto)) as (f5 & g5 & -> & -> & E5).
    destruct (F "sourceRoot"%string ltac:(cbn; tauto)) as (f6 & g6 & -> & -> & E6).
    destruct (F "sourcesContent"%string ltac:(cbn; tauto)) as (f7 & g7 & -> & -> & E7).
    destruct (said_member _ m "sections"%string o W ltac:(left; reflexivity) So) as (f8 & -> & E8).
    destruct (said_member _ m' "sections"%string o' W' ltac:(left; reflexivity) So') as (g8 & -> & E8').
    rewrite (strip_field _ _ f1), (strip_field _ _ g1), E1 by reflexivity.
    rewrite (strip_option _ _ f2), (strip_option _ _ g2), E2.
    rewrite (strip_option _ _ f3), (strip_option _ _ g3), E3.
    rewrite (strip_option _ _ f4), (strip_option _ _ g4), E4.
    rewrite (strip_option _ _ f5), (strip_option _ _ g5), E5.
    rewrite (strip_option _ _ f6), (strip_option _ _ g6), E6.
    rewrite (strip_option _ _ f7), (strip_option _ _ g7), E7.
    rewrite (strip_option _ _ f8), (strip_option _ _ g8), E8, E8'.
    assert (G : de_field_option (fun v => match v with
                  | JArr l => match enter d' with None => None
                              | Some d'' => omap (section_of_json fuel d'') l end
                  | _ => None end) o
              = de_field_option (fun v => match v with
                  | JArr l => match enter d' with None => None
                              | Some d'' => omap (section_of_json fuel d'') l end
                  | _ => None end) o').
    { destruct HS as [->|(l & l' & -> & -> & HS)]; [reflexivity|].
      cbn [de_field_option de_option]. destruct (enter d') as [d''|]; [|reflexivity].
      assert (Q : omap (section_of_json fuel d'') l = omap (section_of_json fuel d'') l').
      { clear - HS IHs. induction HS as [|v v' l l' Hv _ IH]; [reflexivity|].
        cbn [omap]. rewrite (IHs d'' v v' Hv), IH. reflexivity. }
      rewrite Q. reflexivity. }
    rewrite G. reflexivity.
  - intros d v v' H. destruct H as [v|m m' p p' v v' W W' S Sp Sp' HP Sv Sv' HV]; [reflexivity|].
    cbn [section_of_json]. destruct (enter d) as [d'|]; [|reflexivity]. cbn [struct_fields omap].
    destruct (said_member _ m "offset"%string _ W ltac:(cbn; tauto) Sp) as (f1 & -> & E1).
    destruct (said_member _ m' "offset"%string _ W' ltac:(cbn; tauto) Sp') as (g1 & -> & E1').
    destruct (said_member _ m "map"%string _ W ltac:(cbn; tauto) Sv) as (f2 & -> & E2).
    destruct (said_member _ m' "map"%string _ W' ltac:(cbn; tauto) Sv') as (g2 & -> & E2').
    destruct (same_member _ _ m m' "url"%string W W' ltac:(cbn; tauto) S ltac:(cbn; tauto)) as (f3 & g3 & -> & -> & E3).
    rewrite (strip_field _ _ f1), (strip_field _ _ g1), E1, E1' by apply position_null.
    rewrite (strip_field _ _ f2), (strip_field _ _ g2), E2, E2' by apply map_null.
    rewrite (strip_option _ _ f3), (strip_option _ _ g3), E3.
    cbn [de_field]. rewrite (same_position_read d' p p' HP), (IHm d' v v' HV). reflexivity.
Qed.

Lemma same_text : forall s s' v v', document v s -> document v' s' -> same_map v v' ->
  smj_from_str s = smj_from_str s'.
Proof.
  intros s s' v v' H H' HS. unfold smj_from_str.
  apply parse_json_iff in H, H'. rewrite H, H'. apply (proj1 (same_read 128)). exact HS.
Qed.

Lemma same_text_consumer : forall md L U order s s' url v v', document v s -> document v' s' -> same_map v v' ->
  create_consumer md L U order s url = create_consumer md L U order s' url.
Proof.
  intros md L U order s s' url v v' H H' HS. unfold create_consumer.
  rewrite (same_text s s' v v' H H' HS). reflexivity.
Qed.

(** ** Refused *)
Lemma member_in : forall k m f v, member (lit k) m = Some f -> In (Some (lit k), v) m -> f = Some v.
Proof.
  intros k m f v H I. pose proof (member_keys _ _ _ H) as N. apply member_iff in H; [|exact N].
  destruct f as [x|]; cbn in H.
  - destruct H as [a [b [-> Hn]]]. rewrite map_app, in_app_iff in Hn. rewrite in_app_iff in I. cbn in I.
    destruct I as [I|[I|I]]; [|inv I; reflexivity|]; exfalso; apply Hn; [left|right]; apply (in_map fst) in I; exact I.
  - exfalso. apply H. apply (in_map fst) in I. exact I.
Qed.

Lemma refused_entry : forall s m k l x, document (JObj m) s ->
  In k ["sources"; "names"; "sourcesContent"]%string -> In (Some (lit k), JArr l) m ->
  In x l -> (forall t, x <> JStr t) -> smj_from_str s = None.
Proof.
  intros s m k l x H Hk Hm Hx Nx. unfold smj_from_str. apply parse_json_iff in H. rewrite H.
  destruct (smj_of_json 128 128 (JObj m)) as [r|] eqn:E; [|reflexivity]. exfalso.
  apply (proj1 (map_iff 128)) in E; [|lia].
  assert (B : forall d f so, optional (is_strs d) f so -> f <> Some (JArr l)).
  { intros d f so O ->. inversion O as [| |v a Hv [_ Hl]]; subst. inv Hl.
    apply in_map_iff in Hx. destruct Hx as [t [Ht _]]. apply (Nx t). symmetry. exact Ht. }
  inversion E as [d' v' fv fs fn fm ff fr fc fse ver so na ma fi ro co se
                  E0 E1 E2 E3 E4 E5 E6 E7 E8]; subst.
  apply struct_fields_iff in E0. cbn [struct_fields] in E0. apply omap_iff in E0.
  repeat match goal with F : Forall2 _ (_ :: _) (_ :: _) |- _ => inversion F; subst; clear F end.
  cbn [In] in Hk. destruct Hk as [<-|[<-|[<-|[]]]];
    match goal with M : member (lit ?n) m = Some ?f, I : In (Some (lit ?n), _) m |- _ =>
      apply (member_in n m f _) in I; [subst f|exact M] end;
    first [exact (B _ _ _ E2 eq_refl) | exact (B _ _ _ E3 eq_refl) | exact (B _ _ _ E7 eq_refl)].
Qed.

Lemma refused_version : forall s m v, document (JObj m) s -> In (Some (lit "version"), v) m ->
  (forall z, v <> JInt z) -> smj_from_str s = None.
Proof.
  intros s m v H Hm Nv. unfold smj_from_str. apply parse_json_iff in H. rewrite H.
  destruct (smj_of_json 128 128 (JObj m)) as [r|] eqn:E; [|reflexivity]. exfalso.
  apply (proj1 (map_iff 128)) in E; [|lia].
  inversion E as [d' v' fv fs fn fm ff fr fc fse ver so na ma fi ro co se
                  E0 E1 E2 E3 E4 E5 E6 E7 E8]; subst.
  apply struct_fields_iff in E0. cbn [struct_fields] in E0. apply omap_iff in E0. inv E0.
  match goal with M : member (lit "version") m = Some ?f |- _ =>
    apply (member_in "version" m f _ M) in Hm end.
  inv Hm. destruct E1 as [E1 _]. eapply Nv. exact E1.
Qed.

Lemma refused_consumer : forall md L U order s url, smj_from_str s = None ->
  create_consumer md L U order s url = Ok None.
Proof. intros md L U order s url H. unfold create_consumer. rewrite H. reflexivity. Qed.

(** ** Checking the relations on given values *)
Lemma checked_keys : forall ks m, forallb (fun kv => is_some (fst kv)) m = true ->
  forallb (fun k => is_some (member (lit k) m)) ks = true -> well_keyed ks m.
Proof.
  intros ks m H1 H2. rewrite forallb_forall in H1, H2. split.
  - apply Forall_forall. intros kv I E. specialize (H1 kv I). rewrite E in H1. discriminate.
  - intros k a v b w c Hk ->. specialize (H2 k Hk).
    rewrite member_app in H2. cbn [member] in H2. rewrite str_eqb_refl, member_app in H2.
    cbn [member] in H2. rewrite str_eqb_refl in H2.
    destruct (member (lit k) a) as [[x|]|], (member (lit k) b) as [[y|]|], (member (lit k) c) as [[z|]|];
      discriminate.
Qed.

Lemma checked_says : forall m k o, option_map strip (member (lit k) m) = Some o -> says m k o.
Proof.
  intros m k o H. destruct (member (lit k) m) as [f|] eqn:E; [|discriminate]. inv H.
  apply (member_says m k f); [exact (member_keys _ _ _ E)|exact E|reflexivity].
Qed.

Lemma checked_members : forall ks m m',
  forallb (fun k => is_some (member (lit k) m)) ks = true ->
  map (fun k => option_map strip (member (lit k) m)) ks = map (fun k => option_map strip (member (lit k) m')) ks ->
  same_members ks m m'.
Proof.
  intros ks m m' H E k o Hk. rewrite forallb_forall in H. specialize (H k Hk).
  assert (Ek : option_map strip (member (lit k) m) = option_map strip (member (lit k) m')).
  { revert E Hk. clear. induction ks as [|k0 ks IH]; intros E [].
    - subst. inv E. reflexivity.
    - inv E. auto. }
  destruct (member (lit k) m) as [f|] eqn:M; [|discriminate].
  destruct (member (lit k) m') as [f'|] eqn:M'; [|discriminate]. inv Ek.
  rewrite (member_says m k f o (member_keys _ _ _ M) M), (member_says m' k f' o (member_keys _ _ _ M') M').
  rewrite H1. reflexivity.
Qed.
