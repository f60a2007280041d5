(** * Which elements of a list a result depends on *)
From Verif Require Import Base.

(** [f] gives the same for every list of this length that has the same elements
    at the places [seen]. *)
Definition looks_only_at {T R} (f : list T -> R) (l : list T) (seen : list nat) : Prop :=
  forall l', List.length l' = List.length l ->
    (forall i, In i seen -> nth_error l' i = nth_error l i) -> f l' = f l.
