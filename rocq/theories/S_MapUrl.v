(** * Specification for relative map URLs (C92) *)
From Verif Require Import Base S_Url.

(** The first of p0, p1, p2, ... that is not in the text *)
Definition internal_name (text name : str) : Prop :=
  exists t n, decimal t n /\ name = lit "p" ++ t /\ ~ substring name text
    /\ forall t' m, decimal t' m -> m < n -> substring (lit "p" ++ t') text.

(** The directory taken for that of the map: the path [m] as seen from [n]
    directories of the internal name, its own directories and those that are left
    of the internal ones run together, with [t] at the end.  If that is the
    internal name itself, it is lost together with one "..". *)
Definition map_directory (n : nat) (name : str) (m : path) (t : str) : path :=
  let run := concat (dirs (resolve_from (repeat name n) m)) in
  if str_eqb run name then
    match n with
    | O => mkPath [] (run ++ t)
    | S O => mkPath [] t
    | S (S k) => mkPath (repeat dotdot k) (dotdot ++ t)
    end
  else mkPath (repeat dotdot n) (run ++ t).

(** [m] goes [u] levels up and then down into [ds]. *)
Definition leads (m : path) (u : nat) (ds : list str) : Prop :=
  dirs (normal m) = repeat dotdot u ++ ds /\ Forall proper ds.
