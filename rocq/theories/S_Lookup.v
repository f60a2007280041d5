(** * Specification: what a name finds (C102) *)
From Verif Require Import Base S_Url S_Refs S_MapUrl S_Opens S_OpensAt S_DataMap.

(** The map URL [m], if there is one, is a plain reference (C94) or like a data: URL (C98); [d] is its directory. *)
Definition url_at (m : option str) (d : option ref) : Prop :=
  (exists r, m = option_map ref_text r /\ map_at r d)
  \/ (exists u d', m = Some u /\ d = Some d' /\ data_map u d').

(** [u] is in the list at [k], and not before. *)
Definition first_at (l : list str) (u : str) (k : nat) : Prop :=
  nth_error l k = Some u /\ forall i, nth_error l i = Some u -> (k <= i)%nat.

(** What is found for the name [q] among the [listed] sources, looking in the directory [e]:
    first as if there were no root, and then, if that is not listed, in the root. *)
Inductive found (e root : option ref) (listed : list str) (q : ref) : res (option Z) -> Prop :=
| found_refused : ~ acceptable_at e None q -> found e root listed q (Panic PUnwrapNone)
| found_outside : forall k, acceptable_at e None q -> first_at listed (ref_text (location_at e None q)) k ->
    found e root listed q (Ok (Some (Z.of_nat k)))
| found_root_refused : acceptable_at e None q -> ~ In (ref_text (location_at e None q)) listed ->
    ~ acceptable_at e root q -> found e root listed q (Panic PUnwrapNone)
| found_in_root : forall k, acceptable_at e None q -> ~ In (ref_text (location_at e None q)) listed ->
    acceptable_at e root q -> first_at listed (ref_text (location_at e root q)) k ->
    found e root listed q (Ok (Some (Z.of_nat k)))
| found_nothing : acceptable_at e None q -> ~ In (ref_text (location_at e None q)) listed ->
    acceptable_at e root q -> ~ In (ref_text (location_at e root q)) listed ->
    found e root listed q (Ok None).

(** The consumer looks in the directory of the map URL, or in none if it has not kept it. *)
Definition looks_in (lookup : option str) (d : option ref) : option ref :=
  match lookup with Some _ => d | None => None end.

(** What is left of '?' and '#' behind a path is no dot segment, and there still is a path in front of them. *)
Definition plain_markers (s : ref) : Prop :=
  match s with
  | RRel p q f => proper (file (unmarked p q f))
  | RAbs p q f => path_text (resolve_from [] p) <> [] \/ q = None /\ f = None
  | _ => True
  end.

(** The two names are two spellings of the same place. *)
Definition same_place (e root : option ref) (q q' : ref) : Prop :=
  (acceptable_at e None q <-> acceptable_at e None q') /\ location_at e None q = location_at e None q'
  /\ (acceptable_at e root q <-> acceptable_at e root q') /\ location_at e root q = location_at e root q'.
