(** * What a nearest-element search should return; independent of the model *)
From Verif Require Import Base.

Section Spec.
  Context {T1 T2 : Type} (c1 : T1 -> T2 -> Z) (c2 : T2 -> T2 -> Z).

  (** [c2] is a total preorder on elements (the sign is what matters), and [c1]
      places a needle consistently with it: greater elements make the needle
      compare lower, and elements equal to the same needle are equal. *)
  Record consistent : Prop := {
    c2_refl : forall x, c2 x x = 0;
    c2_antisym : forall x y, Z.sgn (c2 x y) = - Z.sgn (c2 y x);
    c2_trans : forall x y z, c2 x y <= 0 -> c2 y z <= 0 -> c2 x z <= 0;
    c1_mono : forall a x y, c2 x y <= 0 -> Z.sgn (c1 a y) <= Z.sgn (c1 a x);
    c1_equal : forall a x y, c1 a x = 0 -> c1 a y = 0 -> c2 x y = 0
  }.

  Definition sorted (l : list T2) : Prop :=
    forall i j x y, (i <= j)%nat -> nth_error l i = Some x -> nth_error l j = Some y -> c2 x y <= 0.

  (** [x] is a greatest element of [l] not above the needle. *)
  Definition greatest_lower (a : T1) (l : list T2) (x : T2) : Prop :=
    In x l /\ 0 <= c1 a x /\ forall y, In y l -> 0 <= c1 a y -> c2 y x <= 0.

  (** [x] is a least element of [l] not below the needle. *)
  Definition least_upper (a : T1) (l : list T2) (x : T2) : Prop :=
    In x l /\ c1 a x <= 0 /\ forall y, In y l -> c1 a y <= 0 -> c2 x y <= 0.
End Spec.
