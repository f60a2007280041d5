(** * Vocabulary for the properties of the generator *)
From Verif Require Import Base M_ArraySet M_Mapping M_Util M_SourceMap M_Generator S_Mapping S_List.

(** Calls on a generator. *)
Inductive gen_op :=
| GAdd (m : Mapping)                            (* add_mapping *)
| GContent (source : str) (content : option str) (* set_source_content *)
| GJson.                                        (* producing the JSON *)

(** A history of calls, as it runs *)
Definition gen_step (md : mode) (U : UrlLib) (g : Generator) (op : gen_op) : res Generator :=
  match op with
  | GAdd m => gen_add_mapping md g m
  | GContent s c => gen_set_source_content md U g s c
  | GJson => let* r := gen_as_json md U g in Ok (snd r)
  end.

Fixpoint gen_run (md : mode) (U : UrlLib) (g : Generator) (ops : list gen_op) : res Generator :=
  match ops with
  | [] => Ok g
  | op :: ops' => let* g := gen_step md U g op in gen_run md U g ops'
  end.

(** What a user sees of a history followed by producing the JSON. *)
Definition observe_json (md : mode) (U : UrlLib) (g : Generator) (ops : list gen_op) : res SourceMapJson :=
  let* g := gen_run md U g ops in
  let* r := gen_as_json md U g in
  Ok (fst r).

(** The mappings added by a history. *)
Fixpoint added_mappings (ops : list gen_op) : list Mapping :=
  match ops with
  | [] => []
  | GAdd m :: ops' => m :: added_mappings ops'
  | _ :: ops' => added_mappings ops'
  end.

(** The content a history leaves for source [s]: that of the last call for it. *)
Fixpoint last_content (s : str) (ops : list gen_op) (now : option str) : option str :=
  match ops with
  | [] => now
  | GContent s' c :: ops' => last_content s ops' (if str_eqb s s' then c else now)
  | _ :: ops' => last_content s ops' now
  end.

(** A history without set_source_content. *)
Definition no_content (ops : list gen_op) : Prop :=
  forall s c, ~ In (GContent s c) ops.

(** A mapping that the v3 format can express: lines start at 1, columns at 0,
    everything in i32, original position iff source, name only with source. *)
Definition line1 (p : Position) : Prop := 1 <= p_line p.
Definition valid_mapping (m : Mapping) : Prop :=
  wf_mapping m /\ line1 (m_generated m)
  /\ match m_original m with Some p => line1 p | None => m_name m = None end.

(** At most [n] different sources and at most [n] different names (so in
    particular if there are at most [n] mappings). *)
Definition few_names (n : Z) (ms : list Mapping) : Prop :=
  len (distinct (present (map m_source ms))) <= n /\ len (distinct (present (map m_name ms))) <= n.

(** ... without the condition on the name. *)
Definition expressible (m : Mapping) : Prop :=
  wf_mapping m /\ line1 (m_generated m)
  /\ match m_original m with Some p => line1 p | None => True end.

(** The numbers that are written as VLQ values are below 2^30. *)
Definition small_mapping (m : Mapping) : Prop :=
  p_column (m_generated m) < 2^30
  /\ match m_original m with
     | Some p => p_line p - 1 < 2^30 /\ p_column p < 2^30
     | None => True
     end.

(** last_generated_column is not written. *)
Definition written (m : Mapping) : Mapping :=
  mkMapping (m_generated m) (m_original m) (m_source m) (m_name m) None.

(** What is left of a mapping: a name is only written behind a source. *)
Definition read_back (m : Mapping) : Mapping :=
  mkMapping (m_generated m) (m_original m) (m_source m)
            (match m_source m with Some _ => m_name m | None => None end) None.

(** Runs of equal neighbours collapsed. *)
Inductive collapsed {A} : list A -> list A -> Prop :=
| collapsed_nil : collapsed [] []
| collapsed_one : forall x, collapsed [x] [x]
| collapsed_same : forall x l r, collapsed (x :: l) r -> collapsed (x :: x :: l) r
| collapsed_diff : forall x y l r, x <> y -> collapsed (y :: l) r -> collapsed (x :: y :: l) (x :: r).

(** No name condition; the original line may be 0. *)
Definition encodable (m : Mapping) : Prop := wf_mapping m /\ line1 (m_generated m).

(** The mappings added, in the terms of a mapping list: producing the JSON reads
    the list. *)
Fixpoint list_ops (ops : list gen_op) : list ml_op :=
  match ops with
  | [] => []
  | GAdd m :: ops' => Add m :: list_ops ops'
  | GContent _ _ :: ops' => list_ops ops'
  | GJson :: ops' => ToArray :: list_ops ops'
  end.

Fixpoint without_json (ops : list gen_op) : list gen_op :=
  match ops with
  | [] => []
  | GJson :: ops' => without_json ops'
  | op :: ops' => op :: without_json ops'
  end.

(** The last generated line; 1 when there are no mappings *)
Definition is_last_line (ms : list Mapping) (n : Z) : Prop :=
  Forall (fun m => p_line (m_generated m) <= n) ms
  /\ ((ms = [] /\ n = 1) \/ exists m, In m ms /\ p_line (m_generated m) = n).

(** Entry i of sourcesContent belongs to entry i of sources. *)
Definition aligned (sources contents : list str) (content : str -> option str) : Prop :=
  forall i s, nth_error sources i = Some s -> nth_error contents i = content s.

(** No source without content comes before one with content. *)
Definition contents_first (sources : list str) (content : str -> option str) : Prop :=
  forall i i' s s', (i < i')%nat -> nth_error sources i = Some s -> nth_error sources i' = Some s' ->
    content s' <> None -> content s <> None.

