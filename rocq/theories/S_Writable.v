(** * Vocabulary for mappings with any combination of fields *)
From Verif Require Import Base M_Mapping S_Mapping S_Generator.

(** No coordinate is negative; any fields may be missing. *)
Definition natural (m : Mapping) : Prop := window_mapping 0 i32_max m.

(** Lines start at 1, and a mapping with a source has an original position. *)
Definition writable (m : Mapping) : Prop :=
  line1 (m_generated m) /\ (m_source m <> None -> m_original m <> None).

(** Everything else is only written behind a source. *)
Definition left_of (m : Mapping) : Mapping :=
  match m_source m with
  | Some _ => written m
  | None => mkMapping (m_generated m) None None None None
  end.

(** Has a source but no original position. *)
Definition lacking (m : Mapping) : Prop := m_source m <> None /\ m_original m = None.

(** Mappings that lack their original position share their place with no other. *)
Definition lacking_alone (ms : list Mapping) : Prop := forall m x,
  In m ms -> lacking m -> In x ms -> m_generated x = m_generated m -> x = m.
