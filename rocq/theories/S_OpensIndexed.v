(** * Specification: which indexed maps open (C95) *)
From Verif Require Import Base M_Mapping M_SourceMap S_Url S_Refs S_Opens S_OpensAt S_Mapping S_Indexed.

(** A section as written: where it starts, its url, and the root and the sources of its map *)
Record piece := mkPiece {
  pc_offset : Position; pc_url : option str; pc_root : option ref; pc_sources : option (list ref) }.

Definition piece_sources (d : piece) : list ref := match pc_sources d with Some ss => ss | None => [] end.

(** written under the directory [w] of the map URL *)
Definition written_piece (w : option ref) (d : piece) : Prop :=
  root_ref (pc_root d) /\ Forall source_ref (piece_sources d)
  /\ Forall (short_enough w (pc_root d)) (piece_sources d).

(** The JSON has this section. *)
Definition section_of (s : JSection) (d : piece) : Prop :=
  js_offset s = pc_offset d /\ js_url s = pc_url d
  /\ smj_sources (js_map s) = option_map (map ref_text) (pc_sources d)
  /\ smj_source_root (js_map s) = option_map ref_text (pc_root d).

(** A section without url whose map lists sources that all open (C94).  The offset
    must have a successor in a debug build. *)
Definition usable (md : mode) (w : option ref) (d : piece) : Prop :=
  (md = Debug -> p_line (pc_offset d) < i32_max /\ p_column (pc_offset d) < i32_max)
  /\ pc_url d = None /\ pc_sources d <> None /\ Forall (acceptable_at w (pc_root d)) (piece_sources d).

(** In the order in which the threads take them, no section starts before the one taken before. *)
Definition well_timed (ds : list piece) (order : list nat) : Prop :=
  exists ds', arranged ds order ds' /\ S_Indexed.in_order (map pc_offset ds').
