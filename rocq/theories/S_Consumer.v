(** * Vocabulary for the properties of BasicConsumer *)
From Verif Require Import Base M_ArraySet M_Mapping M_Util M_SourceMap M_Generator M_Json M_MapLib
  M_Consumer S_List S_MapLib.

(** The answer of a call, without the new state *)
Definition answer {A B} (r : res (A * B)) : res A :=
  match r with Ok (a, _) => Ok a | Panic p => Panic p end.

(** Calls on a consumer *)
Inductive query :=
| QOriginal (generated : Position) (bias : option Bias)
| QGenerated (source : str) (line column : Z) (bias : option Bias)
| QAll (source : str) (line : Z) (column : option Z)
| QSpans
| QContent (source : str) (panic_on_missing : option bool)
| QEach (ord : IterOrd).

Section Consumer.
  Context (md : mode) (L : MapLib) (U : UrlLib).

  (** A consumer just made by one of the constructors *)
  Definition opened (c : BasicConsumer L) : Prop :=
    (exists s url, bc_new md L U s url = Ok c)
    \/ (exists j url, bc_from_source_map_json md L U j url = Ok c).

  Definition state {A} (r : res (A * BasicConsumer L)) : res (BasicConsumer L) :=
    match r with Ok (_, c) => Ok c | Panic p => Panic p end.

  Definition ask (c : BasicConsumer L) (q : query) : res (BasicConsumer L) :=
    match q with
    | QOriginal g b => state (bc_original_position_for md L c g b)
    | QGenerated s l co b => state (bc_generated_position_for md L U c s l co b)
    | QAll s l co => state (bc_all_generated_position_for md L U c s l co)
    | QSpans => bc_compute_column_spans L c
    | QContent s p => state (bc_source_content_for md L U c s p)
    | QEach o => state (bc_each_mapping L c o)
    end.

  (** A history of calls, none of which panics *)
  Fixpoint asked (c : BasicConsumer L) (qs : list query) : res (BasicConsumer L) :=
    match qs with
    | [] => Ok c
    | q :: qs' => let* c := ask c q in asked c qs'
    end.

  (** The index of a source: that of its URL relative to the map, or else of its
      URL relative to sourceRoot. *)
  Definition index_of_source (root url : option str) (sources : list str) (source : str)
    : res (option nat) :=
    let* u := compute_source_url md U None source url in
    match first_index u sources with
    | Some i => Ok (Some i)
    | None =>
        let* u := compute_source_url md U root source url in
        Ok (first_index u sources)
    end.
  Definition source_lookup (c : BasicConsumer L) (source : str) : res (option nat) :=
    index_of_source (smj_source_root (bc_source_map c)) (bc_source_map_url c) (bc_get_sources L c) source.

  (** The library reads the map's mappings. *)
  Definition readable (j : SourceMapJson) : Prop :=
    exists s t, smj_mappings j = Some s /\ lm_parse L s = Some t.

  (** each_mapping in generated order reports [l]. *)
  Definition reports (c : BasicConsumer L) (l : list RawMapping) : Prop :=
    answer (bc_each_mapping L c GeneratedOrd) = Ok l.
End Consumer.

(** The number fits an i32; lines are counted from 0 here and reported from 1. *)
Definition i31 (z : Z) : Prop := z < 2^31.
Definition raw_i31 (m : RawMapping) : Prop :=
  i31 (rm_line m + 1) /\ i31 (rm_column m)
  /\ match rm_original m with Some o => i31 (ol_line o + 1) /\ i31 (ol_column o) | None => True end.

(** A name by its index: the map must have names, and that many. *)
Definition find_name (names : option (list str)) (i : option Z) : res (option str) :=
  match i, names with
  | None, _ => Ok None
  | Some _, None => Panic PUnwrapNone
  | Some i, Some l =>
      match nth_error l (Z.to_nat i) with Some n => Ok (Some n) | None => Panic PIndex end
  end.

Definition default_bias (b : option Bias) : Bias :=
  match b with Some b => b | None => GreatestLowerBound end.

(** A u32 number cast to i32 *)
Definition as_signed (z : Z) : Z := if z <? 2^31 then z else z - 2^32.

(** The answer of original_position_for that goes with the library mapping [m]
    when it has the original [o] *)
Definition original_answer (sources : list str) (m : RawMapping) (o : OriginalLocation)
    (name : option str) : Mapping :=
  mkMapping (mkPos (rm_line m + 1) (rm_column m)) (Some (mkPos (ol_line o + 1) (ol_column o)))
            (nth_error sources (Z.to_nat (ol_source o))) name
            (option_map as_signed (rm_last_column m)).

(** A position in 1-based lines and 0-based columns *)
Definition position_ok (line column : Z) : Prop := 1 <= line <= i32_max /\ 0 <= column <= i32_max.

(** What original_position_for answers for line [line] when the library finds [found] *)
Definition original_outcome (j : SourceMapJson) (sources : list str) (line : Z) (found : option RawMapping)
  : res (option Mapping) :=
  match found with
  | None => Ok None
  | Some m =>
      if rm_line m =? line then
        match rm_original m with
        | None => Ok None
        | Some o =>
            match find_name (smj_names j) (ol_name o) with
            | Ok name => Ok (Some (original_answer sources m o name))
            | Panic p => Panic p
            end
        end
      else Ok None
  end.

(** The last column shown for the mapping [found] of [l]: its own, which is missing
    or right; after compute_column_spans a missing one is shown as -1. *)
Definition end_shown (computed : Prop) (l : list RawMapping) (found : option RawMapping) (shown : option Z) : Prop :=
  match found with
  | None => True
  | Some m => exists r, strip r = m /\ ends_right l r
      /\ (computed -> shown = Some match rm_last_column r with Some e => e | None => -1 end)
      /\ (~ computed -> shown = rm_last_column r)
  end.

(** What generated_position_for answers for source number [i] when the library
    finds [found] *)
Definition generated_outcome (j : SourceMapJson) (sources : list str) (i : nat) (found : option RawMapping)
    (last : option Z) : res (option Mapping) :=
  match found with
  | None => Ok None
  | Some m =>
      match rm_original m with
      | None => Ok None
      | Some o =>
          match find_name (smj_names j) (Some (Z.of_nat i)) with
          | Ok name => Ok (Some (mkMapping (mkPos (rm_line m + 1) (rm_column m))
                                   (Some (mkPos (ol_line o) (ol_column o))) (nth_error sources i) name last))
          | Panic p => Panic p
          end
      end
  end.
