(** * Specification: which contents a generator with a source root can keep (C96) *)
From Verif Require Import Base M_Mapping S_Url S_Refs S_Generator S_Contents.

(** Two paths of one kind, or of one host without its scheme *)
Definition at_odds (root s : ref) : Prop :=
  match root, s with
  | RRel _ _ _, RRel _ _ _ | RAbs _ _ _, RAbs _ _ _ => True
  | RNet h _ _ _, RNet h' _ _ _ => h = h'
  | _, _ => False
  end.

(** The way from directory [a] to [b]: up to where they part, then down. *)
Definition way (a b steps : list str) : Prop :=
  exists common up down, a = common ++ up /\ b = common ++ down
    /\ steps = repeat dotdot (List.length up) ++ down
    /\ (forall x up' down', up = x :: up' -> down = x :: down' -> False).

(** The name under which the content of [s] is kept *)
Definition kept_as (root s : ref) (k : str) : Prop :=
  ~ at_odds root s
  /\ match root, s with
     | RUrl o r _ _, RUrl o' t q f =>
         (o = o' -> exists steps,
            way (as_dirs (resolve_from [] r)) (dirs (resolve_from [] t) ++ [file (resolve_from [] t)]) steps
            /\ k = path_text (mkPath (removelast steps) (last steps [])) ++ glue q ++ glue f)
         /\ (o <> o' -> k = ref_text (in_order s))
     | _, _ => k = given_text (in_order s)
     end.

(** [s] is a plain reference, not too long for [root]. *)
Definition written_as (root : ref) (s : str) (x : ref) : Prop :=
  s = ref_text x /\ plain_ref x /\ len (ref_text root) + len s <= 2147483645.

(** Every file of a history is such a reference. *)
Definition named_history (root : ref) (ops : list gen_op) : Prop :=
  (forall s c, In (GContent s c) ops -> exists x, written_as root s x)
  /\ (forall m s, In m (added_mappings ops) -> m_source m = Some s -> exists x, written_as root s x).

(** No content is given for a file at odds with the root, and whenever the JSON is
    produced no content is left or no source so far is at odds with it. *)
Definition harmless (root : ref) (key : str -> str) (ops : list gen_op) : Prop :=
  (forall s c x, In (GContent s c) ops -> written_as root s x -> ~ at_odds root x)
  /\ (forall before after, ops = before ++ GJson :: after ->
        (forall k, last_content k (renamed key before) None = None)
        \/ (forall m s x, In m (added_mappings before) -> m_source m = Some s -> written_as root s x ->
            ~ at_odds root x)).
