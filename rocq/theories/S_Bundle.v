(** * Vocabulary for indexed maps whose sections are generator outputs *)
From Verif Require Import Base M_ArraySet M_Mapping M_Util M_SourceMap M_Generator M_Json M_MapLib M_Consumer
  M_Indexed S_List S_Mapping S_Generator S_Far S_Contents S_Consumer S_Indexed S_EndToEnd.

(** What was done for one section: where it starts, how its generator was made
    and what it was given *)
Record part := mkPart { pt_offset : Position; pt_file : option str; pt_root : option str; pt_skip : bool;
                        pt_ops : list gen_op }.

Definition pt_mappings (p : part) : list Mapping := added_mappings (pt_ops p).
Definition pt_sources (p : part) : list str := source_names (pt_ops p).

(** The offset fits, also after adding one. *)
Definition small_part (p : part) : Prop :=
  (i32_min <= p_line (pt_offset p) < i32_max) /\ (i32_min <= p_column (pt_offset p) < i32_max).

(** Offsets and mappings as the format has them *)
Definition good_part (p : part) : Prop :=
  (0 <= p_line (pt_offset p) < i32_max /\ 0 <= p_column (pt_offset p) < i32_max)
  /\ Forall valid_mapping (pt_mappings p) /\ steps_fit (pt_ops p) /\ few_names (2^30) (pt_mappings p).

Section Bundle.
  Context (md : mode) (L : MapLib) (U : UrlLib).

  (** The section holds what the part's generator gives out. *)
  Definition section_of (p : part) (s : JSection) : Prop :=
    js_offset s = pt_offset p
    /\ exists g g', gen_run md U (gen_new (pt_file p) (pt_root p) (pt_skip p)) (pt_ops p) = Ok g
         /\ gen_as_json md U g = Ok (js_map s, g').

  (** [c] was opened with the URL [url] on the map of these parts, its sections in
      order, by from_source_map_json or by create_consumer. *)
  Definition opened_bundle (parts : list part) (url : option str) (c : IndexedConsumer L) : Prop :=
    exists j l, smj_sections j = Some l /\ Forall2 section_of parts l
      /\ (ic_from_source_map_json md L U (seq 0 (length l)) j url = Ok c
          \/ exists s, smj_from_str s = Some j
               /\ create_consumer md L U (seq 0 (length l)) s url = Ok (Some (CIndexed c))).

  (** The part that is asked about [g]: of those that start before, the last;
      of several at one place, the first. *)
  Definition part_for (parts : list part) (g : Position) (p : part) : Prop :=
    exists before after, parts = before ++ p :: after /\ starts_before (pt_offset p) g
      /\ (forall p', In p' parts -> starts_before (pt_offset p') g -> pos_le (pt_offset p') (pt_offset p))
      /\ (forall p', In p' before -> pt_offset p' <> pt_offset p).

  (** [key] gives the keys that contents are kept under. *)
  Definition keyed (root : option str) (key : str -> str) : Prop :=
    match root with
    | None => forall f, key f = f
    | Some r => forall f k, relative md U r f = Ok k -> key f = k
    end.
  Definition text_of (key : str -> str) (ops : list gen_op) (f : str) : option str :=
    last_content (key f) (renamed key ops) None.
  Definition some_text (key : str -> str) (ops : list gen_op) : Prop :=
    exists k, last_content k (renamed key ops) None <> None.

  (** The number of the source that [src] asks for in a part *)
  Definition part_index (url : option str) (p : part) (src : str) : res (option nat) :=
    let* urls := mapM (fun s => compute_source_url md U (pt_root p) s url) (pt_sources p) in
    index_of_source md U (pt_root p) None urls src.

  (** The answer of source_content_for for one part *)
  Definition part_content (url : option str) (key : str -> str) (src : str) (panics : bool) (p : part)
      (answer : res (option str)) : Prop :=
    (~ some_text key (pt_ops p) -> answer = Ok None)
    /\ (some_text key (pt_ops p) ->
        match part_index url p src with
        | Ok (Some i) => content_reply (pt_sources p) (text_of key (pt_ops p)) i answer
        | Ok None => answer = if panics then Panic PMissing else Ok None
        | Panic e => answer = Panic e
        end).
End Bundle.
