(** * Vocabulary for queries about the mappings added to a generator

    Positions as users give them: lines start at 1. *)
From Verif Require Import Base M_Mapping M_Util M_SourceMap M_Generator M_Json M_MapLib M_Consumer M_Indexed
  S_MapLib S_List S_Generator.

Definition place (p : Position) : loc := (p_line p, p_column p).

(** The mappings with their generated places *)
Definition by_generated (ms : list Mapping) : list (Mapping * loc) :=
  map (fun m => (m, place (m_generated m))) ms.

(** The mappings of source [s] with their original places *)
Fixpoint of_file (s : str) (ms : list Mapping) : list (Mapping * loc) :=
  match ms with
  | [] => []
  | m :: ms' =>
      match m_source m, m_original m with
      | Some s', Some p => if str_eqb s s' then (m, place p) :: of_file s ms' else of_file s ms'
      | _, _ => of_file s ms'
      end
  end.

(** No other mapping was added for the place of [m]. *)
Definition only_at_its_place (ms : list Mapping) (m : Mapping) : Prop :=
  exists before after, ms = before ++ m :: after
    /\ forall m', In m' (before ++ after) -> m_generated m' <> m_generated m.

(** The sources and names a generator lists *)
Definition source_names (ops : list gen_op) : list str := distinct (present (map m_source (added_mappings ops))).
Definition symbol_names (ops : list gen_op) : list str := distinct (present (map m_name (added_mappings ops))).

(** [c] was opened with the URL [url] on what the generator [g] gives out: by
    from_source_map or by create_consumer.  [lookup] is the URL that sources are
    then looked up with; create_consumer leaves it out. *)
Definition opened_on (md : mode) (L : MapLib) (U : UrlLib) (g : Generator) (url : option str)
    (c : BasicConsumer L) (lookup : option str) : Prop :=
  (exists g', bc_from_source_map md L U g url = Ok (c, g') /\ lookup = url)
  \/ (exists g' s order, gen_as_string md U g = Ok (s, g')
        /\ create_consumer md L U order s url = Ok (Some (CBasic c)) /\ lookup = None).

(** [c] was opened with the URL [url] on the map [j]; [lookup] as above. *)
Definition opened_map (md : mode) (L : MapLib) (U : UrlLib) (j : SourceMapJson) (url : option str)
    (c : BasicConsumer L) (lookup : option str) : Prop :=
  (exists s, smj_from_str s = Some j /\ bc_new md L U s url = Ok c /\ lookup = url)
  \/ (exists s order, smj_from_str s = Some j
        /\ create_consumer md L U order s url = Ok (Some (CBasic c)) /\ lookup = None).

(** [last] is where the next mapping on the line of [m] starts, if there is one:
    another one at the place of [m] counts as the next. *)
Definition column_end (ms : list Mapping) (m : Mapping) (last : option Z) : Prop :=
  let line := p_line (m_generated m) in
  let column := p_column (m_generated m) in
  match last with
  | None => forall m', In m' ms -> p_line (m_generated m') = line -> p_column (m_generated m') <= column
  | Some e =>
      column <= e
      /\ (exists m', In m' ms /\ m_generated m' = mkPos line e)
      /\ (forall m', In m' ms -> p_line (m_generated m') = line -> column < p_column (m_generated m') ->
          e <= p_column (m_generated m'))
      /\ (only_at_its_place ms m -> column < e)
  end.

Section Answers.
  Context (md : mode) (U : UrlLib) (root url : option str).

  (** The answer of original_position_for, asked about line [line], when [found]
      is the nearest mapping: only a mapping on the line after that counts. *)
  Definition original_reply (ends : Mapping -> option Z -> Prop) (line : Z) (found : option Mapping)
      (answer : res (option Mapping)) : Prop :=
    match found with
    | None => answer = Ok None
    | Some m =>
        if p_line (m_generated m) =? line + 1 then
          match m_source m with
          | None => answer = Ok None
          | Some s => exists u last, compute_source_url md U root s url = Ok u /\ ends m last
              /\ answer = Ok (Some (mkMapping (m_generated m) (m_original m) (Some u) (m_name m) last))
          end
        else answer = Ok None
    end.

  (** The answer of generated_position_for, asked about source number [i], with
      URL [u]: the original line is one too small, the name is the one with the
      number of the source. *)
  Definition generated_reply (ends : Mapping -> option Z -> Prop) (names : list str) (i : nat) (u : str)
      (found : option Mapping) (answer : res (option Mapping)) : Prop :=
    match found with
    | None => answer = Ok None
    | Some m =>
        match nth_error names i, m_original m with
        | None, _ => answer = Panic PIndex
        | Some n, Some p => exists last, ends m last /\ answer
            = Ok (Some (mkMapping (m_generated m) (Some (mkPos (p_line p - 1) (p_column p))) (Some u) (Some n) last))
        | Some _, None => False
        end
    end.

  (** [src] is a way to ask for the source [s], which has the URL [u]. *)
  Definition asks_for (lookup : option str) (src s u : str) : Prop :=
    compute_source_url md U root s url = Ok u
    /\ (compute_source_url md U None src lookup = Ok u \/ compute_source_url md U root src lookup = Ok u).
End Answers.

(** The answer of source_content_for, asked about source number [i] of
    [sources], when the text [text s] was left for the source [s]: texts that are
    missing make the later ones move forward. *)
Definition content_reply (sources : list str) (text : str -> option str) (i : nat)
    (answer : res (option str)) : Prop :=
  answer = match nth_error (present (map text sources)) i with
           | Some t => Ok (Some t)
           | None => Panic PIndex
           end
  /\ (contents_first sources text -> forall s, nth_error sources i = Some s ->
      answer = match text s with Some t => Ok (Some t) | None => Panic PIndex end).
