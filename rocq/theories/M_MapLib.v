(** * The interface of the crate source-map-mappings 0.5.0

    The crate is not part of /repo.  Its types and operations used by
    src/consumer.rs enter as a record; what is assumed of them is stated in
    S_MapLib.v and appears as a hypothesis of the theorems that need it. *)
From Verif Require Import Base.

(** source_map_mappings::OriginalLocation (all numbers u32, 0-based) *)
Record OriginalLocation := mkOrig {
  ol_source : Z; ol_line : Z; ol_column : Z; ol_name : option Z }.

(** source_map_mappings::Mapping (all numbers u32, 0-based) *)
Record RawMapping := mkRaw {
  rm_line : Z; rm_column : Z; rm_last_column : option Z; rm_original : option OriginalLocation }.

(** source_map_mappings::Bias *)
Inductive Bias := GreatestLowerBound | LeastUpperBound.

(** source_map_mappings::Mappings and its methods.  A [&mut self] method also
    returns the new state. *)
Record MapLib := mkMapLib {
  lm_t : Type;
  lm_parse : str -> option lm_t;                          (* parse_mappings; None for Err *)
  lm_by_generated : lm_t -> list RawMapping;              (* by_generated_location *)
  lm_by_original : lm_t -> list RawMapping * lm_t;        (* by_original_location *)
  lm_compute_spans : lm_t -> lm_t;                        (* compute_column_spans *)
  lm_original_for : lm_t -> Z -> Z -> Bias -> option RawMapping;   (* original_location_for line column bias *)
  lm_generated_for : lm_t -> Z -> Z -> Z -> Bias -> option RawMapping * lm_t;
                                                          (* generated_location_for source line column bias *)
  lm_all_generated : lm_t -> Z -> Z -> option Z -> list RawMapping * lm_t
                                                          (* all_generated_locations_for source line column *)
}.
