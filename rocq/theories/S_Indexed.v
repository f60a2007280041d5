(** * Vocabulary for the properties of IndexedConsumer *)
From Verif Require Import Base M_ArraySet M_BinarySearch M_Mapping M_Util M_SourceMap M_Generator M_Json M_MapLib
  M_Consumer M_Indexed S_List S_Mapping S_MapLib S_Consumer.
From Coq Require Import Sorting.Sorted Sorting.Permutation.

(** [order] is a schedule of [n] section jobs: each runs once. *)
Definition schedule (order : list nat) (n : nat) : Prop := Permutation order (seq 0 n).

(** [l'] are the elements of [l] in the order of the indices [order]. *)
Definition arranged {A} (l : list A) (order : list nat) (l' : list A) : Prop :=
  Forall2 (fun i x => nth_error l i = Some x) order l'.

(** Offsets that do not decrease, the first one at (-1,0) or after. *)
Definition in_order (l : list Position) : Prop := StronglySorted pos_le (mkPos (-1) 0 :: l).

Definition increasing (l : list Position) : Prop := StronglySorted pos_lt l.

(** the range of the field type *)
Definition i32_offset (s : JSection) : Prop :=
  i32_min <= p_line (js_offset s) <= i32_max /\ i32_min <= p_column (js_offset s) <= i32_max.
Definition small_offset (s : JSection) : Prop :=
  i32_min <= p_line (js_offset s) < i32_max /\ i32_min <= p_column (js_offset s) < i32_max.

Definition natural_offset (s : JSection) : Prop :=
  0 <= p_line (js_offset s) < i32_max /\ 0 <= p_column (js_offset s) < i32_max.

(** One more, in an i32: the greatest wraps to the least in a release build and
    does not pass in a debug build. *)
Definition next_i32 (x : Z) : Z := if x =? i32_max then i32_min else x + 1.
Definition plus_one (md : mode) (a b : Position) : Prop :=
  b = mkPos (next_i32 (p_line a)) (next_i32 (p_column a))
  /\ (md = Debug -> p_line a < i32_max /\ p_column a < i32_max).

(** The section at the (0-based) offset starts on an earlier line than the position
    (1-based line, 0-based column), or on its line strictly before its column. *)
Definition starts_before (offset g : Position) : Prop :=
  p_line offset + 1 < p_line g \/ (p_line offset + 1 = p_line g /\ p_column offset < p_column g).

(** The position counted from the offset *)
Definition relative_position (offset g : Position) : Position :=
  mkPos (p_line g - p_line offset)
        (if p_line offset + 1 =? p_line g then p_column g - p_column offset else p_column g).

(** Where a section at the offset starts, in the numbering the consumer keeps *)
Definition start_of (offset : Position) : Position := mkPos (p_line offset + 1) (p_column offset + 1).

(** No difference of lines, or of columns on one line, that the search for a section
    or the shift into it takes exceeds an i32. *)
Definition fits (x : Z) : Prop := i32_min <= x <= i32_max.
Definition in_reach (starts : list Position) (g : Position) : Prop :=
  fits (p_line g) /\ fits (p_column g)
  /\ (forall o, In o starts ->
        fits (p_line o - 1) /\ fits (p_line g - p_line o) /\ fits (p_line g - (p_line o - 1))
        /\ (p_line g = p_line o ->
             fits (p_column o - 1) /\ fits (p_column g - p_column o) /\ fits (p_column g - (p_column o - 1))))
  /\ (forall o o', In o starts -> In o' starts ->
        fits (p_line o - p_line o') /\ (p_line o = p_line o' -> fits (p_column o - p_column o'))).

Inductive iquery :=
| ISources
| IOriginal (input : Position) (bias : option Bias)
| IHasContents
| IContent (source : str) (panic_on_missing : option bool)
| IGenerated (source : str) (line column : Z) (bias : option Bias)
| IAll (source : str) (line : Z) (column : option Z)
| ISpans
| IEach (ord : IterOrd).

Section Indexed.
  Context (md : mode) (L : MapLib) (U : UrlLib).

  (** What opening makes of a section *)
  Definition section_opens (url : option str) (s : JSection) (sec : Section L) : Prop :=
    js_url s = None
    /\ plus_one md (js_offset s) (sec_generated_offset sec)
    /\ bc_from_source_map_json md L U (js_map s) url = Ok (sec_consumer sec).

  (** An indexed consumer as returned by a constructor, under some schedule *)
  Definition iopened (c : IndexedConsumer L) : Prop :=
    exists order j url l, smj_sections j = Some l /\ schedule order (length l) /\ Forall i32_offset l
      /\ ic_from_source_map_json md L U order j url = Ok c.

  Definition sections_of (c : IndexedConsumer L) : list (Section L) := rc_val (ic_sections c).

  Definition istate {A} (r : res (A * IndexedConsumer L)) : res (IndexedConsumer L) :=
    match r with Ok (_, c) => Ok c | Panic p => Panic p end.

  Definition iask (c : IndexedConsumer L) (q : iquery) : res (IndexedConsumer L) :=
    match q with
    | ISources => istate (ic_get_sources L c)
    | IOriginal g b => istate (ic_original_position_for md L c g b)
    | IHasContents => istate (ic_has_contents_of_all_sources L c)
    | IContent s p => istate (ic_source_content_for md L U c s p)
    | IGenerated s l co b => istate (ic_generated_position_for md L U c s l co b)
    | IAll s l co => istate (ic_all_generated_position_for md L U c s l co)
    | ISpans => ic_computed_column_spans L c
    | IEach o => istate (ic_each_mapping md L c o)
    end.

  Fixpoint iasked (c : IndexedConsumer L) (qs : list iquery) : res (IndexedConsumer L) :=
    match qs with
    | [] => Ok c
    | q :: qs' => let* c := iask c q in iasked c qs'
    end.

  (** What an indexed consumer asks of its sections' consumers: no reverse query, no iteration *)
  Definition passed_on (q : query) : Prop :=
    match q with QOriginal _ _ | QSpans | QContent _ _ => True | _ => False end.

  (** [c'] is the section's consumer after some such calls; compute_column_spans was one
      of them exactly when [spans]. *)
  Definition later (spans : Prop) (s : Section L) (c' : BasicConsumer L) : Prop :=
    exists qs, asked md L U (sec_consumer s) qs = Ok c' /\ (spans <-> In QSpans qs) /\ Forall passed_on qs.

  (** The section starts, in the numbering the consumer keeps (both one more than
      in the map), at or before the position. *)
  Definition before (needle : Position) (s : Section L) : Prop := pos_le (sec_generated_offset s) needle.

  (** The first of the last sections before the position *)
  Definition selected (secs : list (Section L)) (needle : Position) (k : nat) (s : Section L) : Prop :=
    nth_error secs k = Some s /\ before needle s
    /\ (forall s', In s' secs -> before needle s' -> pos_le (sec_generated_offset s') (sec_generated_offset s))
    /\ (forall k' s', nth_error secs k' = Some s' -> sec_generated_offset s' = sec_generated_offset s -> (k <= k')%nat).

  (** The position relative to the start of the section *)
  Definition relative_to (s : Section L) (needle : Position) : Position :=
    mkPos (p_line needle - (p_line (sec_generated_offset s) - 1))
          (if p_line (sec_generated_offset s) =? p_line needle
           then p_column needle - (p_column (sec_generated_offset s) - 1) else p_column needle).

  (** The sources as written in the section's map *)
  Definition raw_sources (s : Section L) : list str :=
    match smj_sources (bc_source_map (sec_consumer s)) with Some l => l | None => [] end.

  (** The first answer that is not None *)
  Fixpoint first_answer (l : list (res (option str))) : res (option str) :=
    match l with
    | [] => Ok None
    | Ok None :: l' => first_answer l'
    | r :: _ => r
    end.
End Indexed.
