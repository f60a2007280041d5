(** * Specification: which plain maps open, and where their sources are (C89) *)
From Verif Require Import Base S_Url S_Refs.

(** A source as written: of plain parts, of any length.  A path with '?' or '#' is not empty. *)
Definition source_ref (s : ref) : Prop :=
  match s with
  | RRel p q f | RAbs p q f =>
      plain_path p /\ plain_opt q /\ plain_opt f /\ (path_text p <> [] \/ q = None /\ f = None)
  | RNet h p q f => plain_host h /\ plain_path p /\ plain_opt q /\ plain_opt f
  | RUrl o p q f => plain_origin o /\ plain_path p /\ plain_opt q /\ plain_opt f
  end.

(** A relative path without its dot segments, and then without its '?' and '#' (C35) *)
Definition unmarked (p : path) (q f : option str) : path :=
  mkPath (dirs (normal p)) (file (normal p) ++ glue q ++ glue f).

Definition root_ref (root : option ref) : Prop :=
  match root with Some r => plain_ref r /\ harmless_markers r | None => True end.

Definition root_length (root : option ref) : Z :=
  match root with Some r => len (ref_text r) | None => 0 end.

(** Without a root, two characters are enough.  Under a root, two characters must
    be left of a path without the '/' in front, and of that without its dot segments and markers. *)
Definition acceptable (root : option ref) (s : ref) : Prop :=
  match root, s with
  | Some _, (RRel p q f | RAbs p q f) =>
      2 <= len (path_text p ++ tail_text q f) /\ 2 <= len (path_text (unmarked p q f))
  | _, _ => 2 <= len (ref_text s)
  end.

(** Where the source is.  A '/' in front does not lead out of the root (C34). *)
Definition location (root : option ref) (s : ref) : ref :=
  match root, s with
  | None, RRel p q f => RRel (unmarked p q f) None None
  | None, _ => in_order s
  | Some r, (RRel p q f | RAbs p q f) => resolved r (RRel (unmarked p q f) None None)
  | Some r, _ => in_order (resolved r s)
  end.
