(** * Small specifications on lists of strings, independent of the model *)
From Verif Require Import Base.

Fixpoint mem (x : str) (l : list str) : bool :=
  match l with [] => false | y :: l' => str_eqb x y || mem x l' end.

(** The distinct elements in order of first occurrence; [seen] are those met. *)
Fixpoint distinct_from (seen l : list str) : list str :=
  match l with
  | [] => []
  | x :: l' => if mem x seen then distinct_from seen l'
               else x :: distinct_from (x :: seen) l'
  end.
Definition distinct (l : list str) : list str := distinct_from [] l.

(** Position of the first occurrence. *)
Fixpoint first_index (x : str) (l : list str) : option nat :=
  match l with
  | [] => None
  | y :: l' => if str_eqb x y then Some O else option_map S (first_index x l')
  end.

(** The present strings of a list of optional ones. *)
Fixpoint present {A} (l : list (option A)) : list A :=
  match l with
  | [] => []
  | Some x :: l' => x :: present l'
  | None :: l' => present l'
  end.
