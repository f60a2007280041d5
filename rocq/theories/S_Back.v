(** * Vocabulary for going from generated to original positions and back *)
From Verif Require Import Base M_Mapping M_SourceMap M_MapLib.

(** The mapping [m] has the source and the original position of the answer [a]. *)
Definition same_original (sources : list str) (a : Mapping) (m : RawMapping) : Prop :=
  exists o, rm_original m = Some o
    /\ nth_error sources (Z.to_nat (ol_source o)) = m_source a
    /\ m_original a = Some (mkPos (ol_line o + 1) (ol_column o)).

(** where [m] starts, in the lines of answers *)
Definition start_of (m : RawMapping) : Position := mkPos (rm_line m + 1) (rm_column m).
