(** * Vocabulary: the same calls with other lines or other names (C104, C105) *)
From Verif Require Import Base M_Mapping M_SourceMap M_MapLib S_MapLib S_Generator.

(** The generated code is [k] lines further down. *)
Definition moved (k : Z) (m : Mapping) : Mapping :=
  mkMapping (mkPos (p_line (m_generated m) + k) (p_column (m_generated m)))
            (m_original m) (m_source m) (m_name m) (m_last_generated_column m).
Definition moved_call (k : Z) (op : gen_op) : gen_op :=
  match op with GAdd m => GAdd (moved k m) | other => other end.

(** Lines start at 1, and there is room for [k] more. *)
Definition room (k : Z) (m : Mapping) : Prop :=
  1 <= p_line (m_generated m) /\ p_line (m_generated m) + k <= i32_max.

Definition banner (k : Z) : str := repeat (ch ";") (Z.to_nat k).
(** The map with [k] semicolons before its mappings *)
Definition with_banner (k : Z) (j : SourceMapJson) : SourceMapJson :=
  mkSMJ (smj_version j) (smj_sources j) (smj_names j) (option_map (app (banner k)) (smj_mappings j))
        (smj_file j) (smj_source_root j) (smj_sources_content j) (smj_sections j).

(** The sources and names are called something else. *)
Definition called (f n : str -> str) (m : Mapping) : Mapping :=
  mkMapping (m_generated m) (m_original m) (option_map f (m_source m)) (option_map n (m_name m))
            (m_last_generated_column m).
Definition called_call (f n : str -> str) (op : gen_op) : gen_op :=
  match op with
  | GAdd m => GAdd (called f n m)
  | GContent s c => GContent (f s) c
  | GJson => GJson
  end.
Definition called_map (f n : str -> str) (j : SourceMapJson) : SourceMapJson :=
  mkSMJ (smj_version j) (option_map (map f) (smj_sources j)) (option_map (map n) (smj_names j)) (smj_mappings j)
        (smj_file j) (smj_source_root j) (smj_sources_content j) (smj_sections j).

(** The files and names in a history of calls *)
Fixpoint files_in (ops : list gen_op) : list str :=
  match ops with
  | [] => []
  | GAdd m :: ops' => match m_source m with Some s => s :: files_in ops' | None => files_in ops' end
  | GContent s _ :: ops' => s :: files_in ops'
  | GJson :: ops' => files_in ops'
  end.
Fixpoint names_in (ops : list gen_op) : list str :=
  match ops with
  | [] => []
  | GAdd m :: ops' => match m_name m with Some s => s :: names_in ops' | None => names_in ops' end
  | _ :: ops' => names_in ops'
  end.
Definition one_to_one (f : str -> str) (l : list str) : Prop :=
  forall s t, In s l -> In t l -> f s = f t -> s = t.

(** Mappings at one place are compared as before. *)
Definition same_order (f n : str -> str) (ms : list Mapping) : Prop := forall a b,
  In a ms -> In b ms -> m_generated a = m_generated b ->
  strcmp (option_map f (m_source a)) (option_map f (m_source b)) = strcmp (m_source a) (m_source b)
  /\ strcmp (option_map n (m_name a)) (option_map n (m_name b)) = strcmp (m_name a) (m_name b).

(** ** the consumers' side *)

(** A mapping [k] lines further down *)
Definition lower (k : Z) (m : RawMapping) : RawMapping :=
  mkRaw (rm_line m + k) (rm_column m) (rm_last_column m) (rm_original m).

(** No two mappings start at one place. *)
Definition one_per_place (ms : list RawMapping) : Prop :=
  forall a b, In a ms -> In b ms -> gen_loc a = gen_loc b -> a = b.
(** No two mappings have one original place. *)
Definition one_per_original (ms : list RawMapping) : Prop := forall a b o o',
  In a ms -> In b ms -> rm_original a = Some o -> rm_original b = Some o' ->
  ol_source o = ol_source o' -> ol_line o = ol_line o' -> ol_column o = ol_column o' -> a = b.

(** What is answered, last columns aside, [k] lines further down *)
Definition answered_lower (k : Z) (r : res (option Mapping)) : res (option Mapping) :=
  match r with
  | Ok o => Ok (option_map (fun m => written (moved k m)) o)
  | Panic p => Panic p
  end.
