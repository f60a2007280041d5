(** * C86: positions that are far apart *)
From Verif Require Import Base M_Mapping M_Util M_SourceMap M_Generator S_Decode S_List S_Mapping S_Generator S_Far F_UrlRef F_MappingList F_GeneratorProps F_Far.

(** C86: [r] is what should be read (C22).  It is, exactly if no step reaches
    2^30. *)
Theorem C86_read_back_exactly_when_near : forall (md : mode) (U : UrlLib) (file root : option str) (skip : bool)
    (ops : list gen_op)
    (valid : Forall valid_mapping (added_mappings ops))
    (few : few_names (2^30) (added_mappings ops))
    (contents : root = None \/ no_content ops),
  exists g j g' a r, gen_run md U (gen_new file root skip) ops = Ok g
    /\ gen_as_json md U g = Ok (j, g')
    /\ held (list_ops ops ++ [ToArray]) a
    /\ collapsed (map written a) r
    /\ (near_by r <-> steps_fit ops)
    /\ (read_json j = Some r <-> near_by r).
Proof. exact generate_far. Qed.
Print Assumptions C86_read_back_exactly_when_near.

(** Numbers below 2^30 need no larger steps. *)
Theorem C86_small_numbers_near : forall (ms : list Mapping)
    (valid : Forall expressible ms) (small : Forall small_mapping ms),
  near_by ms.
Proof. exact small_near. Qed.
Print Assumptions C86_small_numbers_near.

Theorem C86_small_numbers_fit : forall (ops : list gen_op)
    (valid : Forall expressible (added_mappings ops))
    (small : Forall small_mapping (added_mappings ops)),
  steps_fit ops.
Proof. exact small_fits. Qed.
Print Assumptions C86_small_numbers_fit.

(** Large numbers in small steps are read back; one large step is not, and moves
    everything behind it on the line. *)
Definition c86_at (c : Z) : Mapping := mkMapping (mkPos 1 c) None None None None.
Definition c86_near : list gen_op := [GAdd (c86_at 1073741823); GAdd (c86_at 2147483646)].
Definition c86_far : list gen_op := [GAdd (c86_at 1073741824); GAdd (c86_at 1073741830)].

Example C86_case : forall md,
  Forall valid_mapping (added_mappings c86_near) /\ ~ Forall small_mapping (added_mappings c86_near)
  /\ near_by (added_mappings c86_near) /\ steps_fit c86_near
  /\ (let* j := observe_json md RefUrl (gen_new None None false) c86_near in Ok (read_json j))
     = Ok (Some [c86_at 1073741823; c86_at 2147483646])
  /\ Forall valid_mapping (added_mappings c86_far) /\ ~ near_by (added_mappings c86_far)
  /\ (let* j := observe_json md RefUrl (gen_new None None false) c86_far in Ok (smj_mappings j, read_json j))
     = Ok (Some (lit "A,M"), Some [c86_at 0; c86_at 6]).
Proof.
  intros md. split; [repeat constructor; cbn; discriminate|]. split.
  { intros H. inversion H as [|x l _ H2]. inversion H2 as [|y l' [H3 _] _]. vm_compute in H3. discriminate. }
  assert (Hn : near_by (added_mappings c86_near)) by (repeat constructor; vm_compute; reflexivity).
  split; [exact Hn|]. split.
  { intros a r Ha Hc.
    rewrite (held_unique _ _ Ha (added_mappings c86_near)) in Hc.
    - rewrite (collapsed_fun _ _ _ (added_mappings c86_near) Hc); [exact Hn|].
      apply collapsed_diff; [discriminate | apply collapsed_one].
    - apply (held_kept [Add (c86_at 1073741823); Add (c86_at 2147483646)]).
      + apply (held_add [Add (c86_at 1073741823)] [c86_at 1073741823]). apply (held_add [] []). apply held_new.
      + repeat constructor; vm_compute; discriminate. }
  split; [destruct md; vm_compute; reflexivity|].
  split; [repeat constructor; cbn; discriminate|]. split.
  { intros H. inversion H as [|x l H2 _]. vm_compute in H2. discriminate. }
  destruct md; vm_compute; reflexivity.
Qed.
