(** * Specification for references of every kind (C76)

    A plain reference is a relative path, a path from the root, one without its
    scheme, or a whole URL.  [resolved] is resolution of one against another that
    is taken as a directory (RFC 3986, 5.2.2, with the base as a directory). *)
From Verif Require Import Base S_Url.

Inductive ref :=
| RRel (p : path) (q f : option str)
| RAbs (p : path) (q f : option str)
| RNet (h : str) (p : path) (q f : option str)
| RUrl (o : origin) (p : path) (q f : option str).

Definition ref_text (r : ref) : str :=
  match r with
  | RRel p q f => path_text p ++ tail_text q f
  | RAbs p q f => abs_text p ++ tail_text q f
  | RNet h p q f => net_text h p q f
  | RUrl o p q f => url_text o p q f
  end.

(** Of plain parts, and long enough to be classified. *)
Definition plain_ref (r : ref) : Prop :=
  match r with
  | RRel p q f => plain_path p /\ plain_opt q /\ plain_opt f /\ path_text p <> []
  | RAbs p q f => plain_path p /\ plain_opt q /\ plain_opt f
  | RNet h p q f => plain_host h /\ plain_path p /\ plain_opt q /\ plain_opt f
  | RUrl o p q f => plain_origin o /\ plain_path p /\ plain_opt q /\ plain_opt f
  end
  /\ 2 <= len (ref_text r).

(** What [t] means in the directory [root]. *)
Definition resolved (root t : ref) : ref :=
  match t with
  | RUrl _ _ _ _ => t
  | RNet h p q f =>
      match root with
      | RUrl o _ _ _ => RUrl (net_origin (o_scheme o) h) (resolve_from [] p) q f
      | _ => RNet h (resolve_from [] p) q f
      end
  | RAbs p q f =>
      match root with
      | RUrl o _ _ _ => RUrl o (resolve_from [] p) q f
      | RNet h _ _ _ => RNet h (resolve_from [] p) q f
      | _ => RAbs (resolve_from [] p) q f
      end
  | RRel p q f =>
      match root with
      | RUrl o r _ _ => RUrl o (resolve_from [] (below r p)) q f
      | RNet h r _ _ => RNet h (resolve_from [] (below r p)) q f
      | RAbs r _ _ => RAbs (resolve_from [] (below r p)) q f
      | RRel r _ _ => RRel (normal (below r p)) q f
      end
  end.

(** The text of a reference as the code gives it: a relative one has lost the
    '?' and '#' (C35). *)
Definition given_text (r : ref) : str :=
  match r with
  | RRel p q f => path_text p ++ glue q ++ glue f
  | _ => ref_text r
  end.

(** A relative root whose query and fragment, glued together, are not a dot segment. *)
Definition harmless_markers (r : ref) : Prop :=
  match r with RRel _ q f => proper (glue q ++ glue f) | _ => True end.

(** Without its dot segments *)
Definition in_order (r : ref) : ref :=
  match r with
  | RRel p q f => RRel (normal p) q f
  | RAbs p q f => RAbs (resolve_from [] p) q f
  | RNet h p q f => RNet h (resolve_from [] p) q f
  | RUrl o p q f => RUrl o (resolve_from [] p) q f
  end.

Definition is_relative (r : ref) : Prop := match r with RRel _ _ _ => True | _ => False end.
Definition is_path (r : ref) : Prop := match r with RRel _ _ _ | RAbs _ _ _ => True | _ => False end.

(** The map URL with its directories run together and its file name dropped (C36). *)
Definition map_ref (r : ref) : ref :=
  match r with
  | RRel p q f => RRel (map_dir p) q f
  | RAbs p q f => RAbs (map_dir p) q f
  | RNet h p q f => RNet h (map_dir p) q f
  | RUrl o p q f => RUrl o (map_dir p) q f
  end.
