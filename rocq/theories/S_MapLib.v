(** * What is assumed of the crate source-map-mappings 0.5.0

    The contract [MapLibOk] is a hypothesis of the theorems about consumers.
    F_MapLibRef.v has an implementation meeting it. *)
From Verif Require Import Base M_MapLib S_Vlq S_Decode.
From Coq Require Import Sorting.Sorted Sorting.Permutation.

(** ** Places: line and column *)
Definition loc : Type := Z * Z.
Definition loc_lt (a b : loc) : Prop := fst a < fst b \/ (fst a = fst b /\ snd a < snd b).
Definition loc_le (a b : loc) : Prop := loc_lt a b \/ a = b.

Definition gen_loc (m : RawMapping) : loc := (rm_line m, rm_column m).
Definition raw_le (a b : RawMapping) : Prop := loc_le (gen_loc a) (gen_loc b).

(** [nearest l q b r]: [r] is an entry of [l] at the place [q] if there is one;
    otherwise one at the nearest place in the direction of [b]. *)
Definition nearest {A} (l : list (A * loc)) (q : loc) (b : Bias) (r : option A) : Prop :=
  match r with
  | Some a => exists p, In (a, p) l
      /\ (p = q
          \/ (forall a' p', In (a', p') l -> p' <> q)
             /\ match b with
                | GreatestLowerBound =>
                    loc_lt p q /\ (forall a' p', In (a', p') l -> loc_lt p' q -> loc_le p' p)
                | LeastUpperBound =>
                    loc_lt q p /\ (forall a' p', In (a', p') l -> loc_lt q p' -> loc_le p p')
                end)
  | None => forall a' p', In (a', p') l ->
      match b with
      | GreatestLowerBound => loc_lt q p'
      | LeastUpperBound => loc_lt p' q
      end
  end.

(** ** Mappings *)

(** without the last column, which the crate fills in at various times *)
Definition strip (m : RawMapping) : RawMapping :=
  mkRaw (rm_line m) (rm_column m) None (rm_original m).

Definition u32 (z : Z) : Prop := 0 <= z < 2^32.
Definition raw_u32 (m : RawMapping) : Prop :=
  u32 (rm_line m) /\ u32 (rm_column m)
  /\ match rm_last_column m with Some z => u32 z | None => True end
  /\ match rm_original m with
     | Some o => u32 (ol_source o) /\ u32 (ol_line o) /\ u32 (ol_column o)
                 /\ match ol_name o with Some z => u32 z | None => True end
     | None => True
     end.

(** each mapping with its generated place *)
Definition by_place (l : list RawMapping) : list (RawMapping * loc) :=
  map (fun m => (m, gen_loc m)) l.

(** the mappings of one source, with their original place *)
Fixpoint of_source (source : Z) (l : list RawMapping) : list (RawMapping * loc) :=
  match l with
  | [] => []
  | m :: l' =>
      match rm_original m with
      | Some o => if ol_source o =? source
                  then (strip m, (ol_line o, ol_column o)) :: of_source source l'
                  else of_source source l'
      | None => of_source source l'
      end
  end.

(** those at one original place *)
Definition at_place (q : loc) (l : list (RawMapping * loc)) : list RawMapping :=
  map fst (filter (fun x => (fst (snd x) =? fst q) && (snd (snd x) =? snd q)) l).

Definition has_original (m : RawMapping) : bool := negb (is_none (rm_original m)).

(** order by source, original line, original column *)
Definition orig_le (a b : RawMapping) : Prop :=
  match rm_original a, rm_original b with
  | Some o, Some o' =>
      ol_source o < ol_source o'
      \/ (ol_source o = ol_source o'
          /\ loc_le (ol_line o, ol_column o) (ol_line o', ol_column o'))
  | _, _ => False
  end.

(** Every mapping ends where the next one on its line starts; the last one of a
    line has no end. *)
Fixpoint spans (l : list RawMapping) : Prop :=
  match l with
  | [] => True
  | m :: l' =>
      match l' with
      | [] => rm_last_column m = None
      | m' :: _ => (rm_line m = rm_line m' -> rm_last_column m = Some (rm_column m'))
                   /\ (rm_line m <> rm_line m' -> rm_last_column m = None)
      end /\ spans l'
  end.

(** The last column of [m], one of the mappings [l], is missing or right. *)
Definition ends_right (l : list RawMapping) (m : RawMapping) : Prop :=
  rm_last_column m = None \/ exists l', map strip l' = map strip l /\ spans l' /\ In m l'.

(** ** The contract *)

(** The states of the library's value for the text [s]; the flag says whether
    compute_column_spans was called. *)
Inductive lib_state (L : MapLib) (s : str) : bool -> lm_t L -> Prop :=
| ls_parse : forall t, lm_parse L s = Some t -> lib_state L s false t
| ls_by_original : forall b t, lib_state L s b t -> lib_state L s b (snd (lm_by_original L t))
| ls_generated_for : forall b t src l c bias, lib_state L s b t ->
    lib_state L s b (snd (lm_generated_for L t src l c bias))
| ls_all_generated : forall b t src l c, lib_state L s b t ->
    lib_state L s b (snd (lm_all_generated L t src l c))
| ls_spans : forall b t, lib_state L s b t -> lib_state L s true (lm_compute_spans L t).

(** a character that can occur in a "mappings" text *)
Definition text_char (c : char) : Prop :=
  c = ch "," \/ c = ch ";" \/ exists d, b64_value c = Some d.

Record MapLibOk (L : MapLib) : Prop := {
  (** A text of lines and segments of VLQ numbers within u32 is read by the v3
      rules. *)
  mo_parse : forall s ms, good_text canonical_field s ->
    Z.of_nat (count_occ N.eq_dec s (ch ";")) < 2^32 -> decode_mappings s = Some ms ->
    exists t, lm_parse L s = Some t /\ Permutation ms (lm_by_generated L t);
  mo_bad_char : forall s c, In c s -> ~ text_char c -> lm_parse L s = None;

  (** The mappings are ordered by generated place, whatever was parsed, and no
      call changes more than last columns. *)
  mo_sorted : forall s b t, lib_state L s b t ->
    StronglySorted raw_le (lm_by_generated L t) /\ Forall raw_u32 (lm_by_generated L t);
  mo_same : forall s b t t0, lib_state L s b t -> lm_parse L s = Some t0 ->
    map strip (lm_by_generated L t) = map strip (lm_by_generated L t0);
  mo_spans : forall s t, lib_state L s true t -> spans (lm_by_generated L t);
  (** before compute_column_spans there are no last columns or right ones *)
  mo_last : forall s b t, lib_state L s b t ->
    spans (lm_by_generated L t) \/ Forall (fun m => rm_last_column m = None) (lm_by_generated L t);

  mo_original_for : forall s b t l c bias, lib_state L s b t -> u32 l -> u32 c ->
    nearest (by_place (lm_by_generated L t)) (l, c) bias (lm_original_for L t l c bias);
  mo_generated_for : forall s b t src l c bias, lib_state L s b t -> u32 src -> u32 l -> u32 c ->
    nearest (of_source src (lm_by_generated L t)) (l, c) bias
            (option_map strip (fst (lm_generated_for L t src l c bias)));
  (** only for places that have a mapping *)
  mo_all_generated : forall s b t src l c, lib_state L s b t -> u32 src -> u32 l -> u32 c ->
    let exact := at_place (l, c) (of_source src (lm_by_generated L t)) in
    exact <> [] -> Permutation (map strip (fst (lm_all_generated L t src l (Some c)))) exact;
  mo_by_original : forall s b t, lib_state L s b t ->
    Permutation (map strip (fst (lm_by_original L t)))
                (filter has_original (map strip (lm_by_generated L t)))
    /\ StronglySorted orig_le (fst (lm_by_original L t));
  (** mappings found by source have no last column or the right one *)
  mo_found_last : forall s b t m, lib_state L s b t ->
    (forall src l c bias, fst (lm_generated_for L t src l c bias) = Some m -> ends_right (lm_by_generated L t) m)
    /\ (forall src l c, In m (fst (lm_all_generated L t src l c)) -> ends_right (lm_by_generated L t) m)
    /\ (In m (fst (lm_by_original L t)) -> ends_right (lm_by_generated L t) m)
}.
