(** * Decoding of the "mappings" text by the Source Map v3 rules

    Independent of the model (only the record types of decoded mappings are
    shared).  Lines are separated by ';', segments by ','; a segment has 1, 4 or
    5 VLQ fields; every field is relative to the previous value of the same
    kind, the generated column starts again at 0 on every line.  Lines and
    columns are 0-based here. *)
From Verif Require Import Base M_Mapping M_SourceMap M_MapLib S_Vlq.

Fixpoint split_on (c : char) (s : str) : list str :=
  match s with
  | [] => [[]]
  | x :: s' =>
      if N.eqb x c then [] :: split_on c s'
      else match split_on c s' with
           | h :: t => (x :: h) :: t
           | [] => [[x]]
           end
  end.

(** The running values that last over lines. *)
Record Regs := mkRegs { r_source : Z; r_line : Z; r_column : Z; r_name : Z }.
Definition regs0 : Regs := mkRegs 0 0 0 0.

(** One segment: the mapping, the new generated column, the new values.  All
    values must be u32 numbers. *)
Definition decode_segment (line gcol : Z) (r : Regs) (seg : str)
  : option (RawMapping * Z * Regs) :=
  match vlq_decode_all seg with
  | Some [a] =>
      let gcol := gcol + a in
      if in_u32 gcol then Some (mkRaw line gcol None None, gcol, r) else None
  | Some [a; b; c; d] =>
      let gcol := gcol + a in
      let r := mkRegs (r_source r + b) (r_line r + c) (r_column r + d) (r_name r) in
      if in_u32 gcol && in_u32 (r_source r) && in_u32 (r_line r) && in_u32 (r_column r)
      then Some (mkRaw line gcol None
                   (Some (mkOrig (r_source r) (r_line r) (r_column r) None)), gcol, r)
      else None
  | Some [a; b; c; d; e] =>
      let gcol := gcol + a in
      let r := mkRegs (r_source r + b) (r_line r + c) (r_column r + d) (r_name r + e) in
      if in_u32 gcol && in_u32 (r_source r) && in_u32 (r_line r) && in_u32 (r_column r)
         && in_u32 (r_name r)
      then Some (mkRaw line gcol None
                   (Some (mkOrig (r_source r) (r_line r) (r_column r) (Some (r_name r)))), gcol, r)
      else None
  | _ => None
  end.

Fixpoint decode_segments (line gcol : Z) (r : Regs) (segs : list str)
  : option (list RawMapping * Regs) :=
  match segs with
  | [] => Some ([], r)
  | seg :: segs' =>
      match decode_segment line gcol r seg with
      | None => None
      | Some (m, gcol, r) =>
          match decode_segments line gcol r segs' with
          | None => None
          | Some (ms, r) => Some (m :: ms, r)
          end
      end
  end.

(** One line; an empty line has no segment. *)
Definition decode_line (line : Z) (r : Regs) (s : str) : option (list RawMapping * Regs) :=
  match s with
  | [] => Some ([], r)
  | _ => decode_segments line 0 r (split_on (ch ",") s)
  end.

Fixpoint decode_lines (line : Z) (r : Regs) (lines : list str) : option (list RawMapping) :=
  match lines with
  | [] => Some []
  | s :: lines' =>
      match decode_line line r s with
      | None => None
      | Some (ms, r) =>
          match decode_lines (line + 1) r lines' with
          | None => None
          | Some rest => Some (ms ++ rest)
          end
      end
  end.

(** The decoded mappings, in the order of the text. *)
Definition decode_mappings (s : str) : option (list RawMapping) :=
  decode_lines 0 regs0 (split_on (ch ";") s).

(** ** Shape of a text *)

(** A VLQ number of at most seven digits (more than any 32-bit number needs). *)
Definition short_field (t : str) : Prop := vlq_shape t /\ len t <= 7.
(** ... that is not written as minus zero *)
Definition canonical_field (t : str) : Prop := short_field t /\ vlq_unsigned t <> Some (1, []).
(** ... and in as few digits as possible *)
Definition shortest_field (t : str) : Prop :=
  canonical_field t
  /\ forall v t', vlq_decode t = Some (v, []) -> vlq_decode t' = Some (v, []) -> len t <= len t'.
(** One, four or five fields. *)
Definition good_seg (field : str -> Prop) (seg : str) : Prop :=
  exists fields, seg = concat fields /\ Forall field fields /\ In (List.length fields) [1; 4; 5]%nat.
(** Empty, or segments separated by single commas. *)
Definition good_line (field : str -> Prop) (s : str) : Prop :=
  s = [] \/ Forall (good_seg field) (split_on (ch ",") s).
(** Such lines, separated by semicolons *)
Definition good_text (field : str -> Prop) (s : str) : Prop :=
  Forall (good_line field) (split_on (ch ";") s).

(** ** Resolution of indices in the arrays of a source map *)

Definition lookup (l : list str) (i : Z) : option str :=
  if i <? 0 then None else nth_error l (Z.to_nat i).

(** Lines become 1-based. *)
Definition resolve_mapping (sources names : list str) (m : RawMapping) : option Mapping :=
  let gen := mkPos (rm_line m + 1) (rm_column m) in
  match rm_original m with
  | None => Some (mkMapping gen None None None None)
  | Some o =>
      match lookup sources (ol_source o) with
      | None => None
      | Some s =>
          let orig := mkPos (ol_line o + 1) (ol_column o) in
          match ol_name o with
          | None => Some (mkMapping gen (Some orig) (Some s) None None)
          | Some i => match lookup names i with
                      | None => None
                      | Some n => Some (mkMapping gen (Some orig) (Some s) (Some n) None)
                      end
          end
      end
  end.

Fixpoint all_some {A} (l : list (option A)) : option (list A) :=
  match l with
  | [] => Some []
  | None :: _ => None
  | Some x :: l' => match all_some l' with Some r => Some (x :: r) | None => None end
  end.

Definition resolve (sources names : list str) (ms : list RawMapping) : option (list Mapping) :=
  all_some (map (resolve_mapping sources names) ms).

(** What a reader gets out of a source map: the mappings with absolute
    positions and strings. *)
Definition read_json (j : SourceMapJson) : option (list Mapping) :=
  match smj_sources j, smj_names j, smj_mappings j with
  | Some sources, Some names, Some text =>
      match decode_mappings text with
      | Some ms => resolve sources names ms
      | None => None
      end
  | _, _, _ => None
  end.
