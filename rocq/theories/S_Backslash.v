(** * Specification for names with backslashes (C91)

    [slashes] (S_Url.v) puts slashes for backslashes. *)
From Verif Require Import Base S_Url.

(** A name that is a plain path, or "//host" and one, once its backslashes are
    slashes, and whose kind does not change by that. *)
Definition windows_name (t : str) : Prop :=
  path_reference (slashes t) /\ len t <= 2147483645
  /\ (forall r, t <> 92%N :: r) /\ (forall r, t <> ch "/" :: 92%N :: r).

(** "/path" or "//host/path" *)
Definition share (h : option str) (p : path) : str :=
  match h with Some h => net_text h p None None | None => abs_text p end.

(** [p] from the root, below [k] ".." *)
Definition climbed (k : nat) (p : path) : path :=
  let p := resolve_from [] p in mkPath (repeat dotdot k ++ dirs p) (file p).
