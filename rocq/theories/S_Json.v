(** * Specification of source map JSON texts

    The grammar of RFC 8259 as inductive relations between values and texts, and
    the rules for reading a source map from a JSON value.  Nothing here uses the
    parser or the printer of the model. *)
From Verif Require Import Base M_Mapping M_SourceMap M_Json.

(** ** Texts of JSON values *)

Definition white (w : str) : Prop := Forall (fun c => In c [32; 9; 10; 13]%N) w.

Definition digit (c : char) (d : Z) : Prop := 0 <= d <= 9 /\ c = (48 + Z.to_N d)%N.

(** [digits t z]: [t] is a sequence of decimal digits of value [z] *)
Inductive digits : str -> Z -> Prop :=
| digits_nil : digits [] 0
| digits_snoc : forall t z c d, digits t z -> digit c d -> digits (t ++ [c]) (10 * z + d).

Definition some_digits (t : str) : Prop := t <> [] /\ exists z, digits t z.

(** an integer part: no superfluous zero in front *)
Definition int_part (t : str) (z : Z) : Prop :=
  digits t z /\ (t = [48%N] \/ exists c t', t = c :: t' /\ c <> 48%N).

Definition frac_part (t : str) : Prop := exists d, t = 46%N :: d /\ some_digits d.

Definition exp_part (t : str) : Prop :=
  exists e sign d, t = e :: sign ++ d /\ In e [101; 69]%N
    /\ In sign [[]; [43%N]; [45%N]] /\ some_digits d.

(** Plain integers have a value; "-0" and numbers with a fraction or exponent are
    floats. *)
Inductive number_text : json -> str -> Prop :=
| num_pos : forall t z, int_part t z -> number_text (JInt z) t
| num_neg : forall t z, int_part t z -> z <> 0 -> number_text (JInt (- z)) (45%N :: t)
| num_float : forall sign t z f e,
    In sign [[]; [45%N]] -> int_part t z ->
    (f = [] \/ frac_part f) -> (e = [] \/ exp_part e) ->
    f ++ e <> [] \/ (sign = [45%N] /\ z = 0) ->
    number_text JFloat (sign ++ t ++ f ++ e).

Definition hex (c : char) (n : N) : Prop :=
  (exists d, (d <= 9)%N /\ c = (48 + d)%N /\ n = d)
  \/ (exists d, (d <= 5)%N /\ (c = (65 + d)%N \/ c = (97 + d)%N) /\ n = (10 + d)%N).

Definition hex4 (t : str) (n : N) : Prop :=
  exists a b c d x y z w, t = [a; b; c; d] /\ hex a x /\ hex b y /\ hex c z /\ hex d w
    /\ n = (4096 * x + 256 * y + 16 * z + w)%N.

(** letter behind the backslash, character meant *)
Definition escapes : list (char * char) :=
  [(34, 34); (92, 92); (47, 47); (98, 8); (102, 12); (110, 10); (114, 13); (116, 9)]%N.

(** [string_text s t]: [t], between quotes, means [s] *)
Inductive string_text : str -> str -> Prop :=
| st_end : string_text [] []
| st_plain : forall c s t, (32 <= c)%N -> c <> 34%N -> c <> 92%N ->
    string_text s t -> string_text (c :: s) (c :: t)
| st_escape : forall e c s t, In (e, c) escapes ->
    string_text s t -> string_text (c :: s) (92%N :: e :: t)
| st_unicode : forall u n s t, hex4 u n -> ~ (55296 <= n <= 57343)%N ->
    string_text s t -> string_text (n :: s) (92%N :: 117%N :: u ++ t)
| st_surrogates : forall u1 hi u2 lo s t, hex4 u1 hi -> hex4 u2 lo ->
    (55296 <= hi <= 56319)%N -> (56320 <= lo <= 57343)%N ->
    string_text s t ->
    string_text ((65536 + (hi - 55296) * 1024 + (lo - 56320))%N :: s)
                (92%N :: 117%N :: u1 ++ 92%N :: 117%N :: u2 ++ t).

(** [loose_text t]: the escapes in [t] have the right form, whatever they mean *)
Inductive loose_text : str -> Prop :=
| lt_end : loose_text []
| lt_plain : forall c t, (32 <= c)%N -> c <> 34%N -> c <> 92%N -> loose_text t -> loose_text (c :: t)
| lt_escape : forall e c t, In (e, c) escapes -> loose_text t -> loose_text (92%N :: e :: t)
| lt_unicode : forall u n t, hex4 u n -> loose_text t -> loose_text (92%N :: 117%N :: u ++ t).

(** a string without a meaning: an escape is half of a surrogate pair *)
Definition unreadable (t : str) : Prop := loose_text t /\ ~ exists s, string_text s t.

Definition key_text (k : option str) (t : str) : Prop :=
  match k with Some s => string_text s t | None => unreadable t end.

Definition quoted (t : str) : str := 34%N :: t ++ [34%N].

Inductive json_text : json -> str -> Prop :=
| jt_null : json_text JNull (lit "null")
| jt_true : json_text (JBool true) (lit "true")
| jt_false : json_text (JBool false) (lit "false")
| jt_number : forall v t, number_text v t -> json_text v t
| jt_string : forall s t, string_text s t -> json_text (JStr s) (quoted t)
| jt_bad_string : forall t, unreadable t -> json_text JBadStr (quoted t)
| jt_array_nil : forall w, white w -> json_text (JArr []) (lit "[" ++ w ++ lit "]")
| jt_array : forall l t, elements_text l t -> json_text (JArr l) (lit "[" ++ t ++ lit "]")
| jt_object_nil : forall w, white w -> json_text (JObj []) (lit "{" ++ w ++ lit "}")
| jt_object : forall m t, members_text m t -> json_text (JObj m) (lit "{" ++ t ++ lit "}")
with elements_text : list json -> str -> Prop :=
| et_one : forall v w1 t w2, white w1 -> white w2 -> json_text v t ->
    elements_text [v] (w1 ++ t ++ w2)
| et_more : forall v l w1 t w2 ts, white w1 -> white w2 -> json_text v t ->
    elements_text l ts ->
    elements_text (v :: l) (w1 ++ t ++ w2 ++ lit "," ++ ts)
with members_text : list (option str * json) -> str -> Prop :=
| mt_one : forall k kt v t w1 w2 w3 w4,
    white w1 -> white w2 -> white w3 -> white w4 -> key_text k kt -> json_text v t ->
    members_text [(k, v)] (w1 ++ quoted kt ++ w2 ++ lit ":" ++ w3 ++ t ++ w4)
| mt_more : forall k kt v m t ts w1 w2 w3 w4,
    white w1 -> white w2 -> white w3 -> white w4 -> key_text k kt -> json_text v t ->
    members_text m ts ->
    members_text ((k, v) :: m) (w1 ++ quoted kt ++ w2 ++ lit ":" ++ w3 ++ t ++ w4 ++ lit "," ++ ts).

Scheme json_text_mind := Minimality for json_text Sort Prop
  with elements_text_mind := Minimality for elements_text Sort Prop
  with members_text_mind := Minimality for members_text Sort Prop.
Combined Scheme texts_mind from json_text_mind, elements_text_mind, members_text_mind.

(** A whole document. *)
Definition document (v : json) (s : str) : Prop :=
  exists w1 t w2, white w1 /\ white w2 /\ json_text v t /\ s = w1 ++ t ++ w2.

(** ** Reading a source map from a value *)

(** The member [k] of an object, if there is at most one. *)
Definition object_field (m : list (option str * json)) (k : string) (o : option json) : Prop :=
  match o with
  | None => ~ In (Some (lit k)) (map fst m)
  | Some v => exists a b, m = a ++ (Some (lit k), v) :: b /\ ~ In (Some (lit k)) (map fst (a ++ b))
  end.

(** An object, all of whose keys can be read, by field names, or an array with one element per field. *)
Inductive fields (ks : list string) : json -> list (option json) -> Prop :=
| fields_object : forall m fs, Forall (fun kv => fst kv <> None) m ->
    Forall2 (object_field m) ks fs -> fields ks (JObj m) fs
| fields_array : forall l, List.length l = List.length ks -> fields ks (JArr l) (map Some l).

(** An optional field: absent, null, or a value. *)
Inductive optional {A} (R : json -> A -> Prop) : option json -> option A -> Prop :=
| opt_absent : optional R None None
| opt_null : optional R (Some JNull) None
| opt_value : forall v a, v <> JNull -> R v a -> optional R (Some v) (Some a).

Definition is_int (v : json) (z : Z) : Prop := v = JInt z /\ -2147483648 <= z <= 2147483647.
Definition is_str (v : json) (s : str) : Prop := v = JStr s.
(** the [nat] is the number of bracket levels that may be opened *)
Definition is_strs (d : nat) (v : json) (l : list str) : Prop := (1 <= d)%nat /\ v = JArr (map JStr l).

Inductive position_value : nat -> json -> Position -> Prop :=
| position_value_intro : forall d v l c lv cv,
    fields ["line"; "column"]%string v [Some lv; Some cv] ->
    is_int lv l -> is_int cv c -> position_value (S d) v (mkPos l c).

Inductive map_value : nat -> json -> SourceMapJson -> Prop :=
| map_value_intro : forall d v fversion fsources fnames fmappings ffile froot fcontent fsections
      version sources names mappings file root content sections,
    fields ["version"; "sources"; "names"; "mappings"; "file"; "sourceRoot";
            "sourcesContent"; "sections"]%string v
      [Some fversion; fsources; fnames; fmappings; ffile; froot; fcontent; fsections] ->
    is_int fversion version ->
    optional (is_strs d) fsources sources ->
    optional (is_strs d) fnames names ->
    optional is_str fmappings mappings ->
    optional is_str ffile file ->
    optional is_str froot root ->
    optional (is_strs d) fcontent content ->
    optional (sections_value d) fsections sections ->
    map_value (S d) v (mkSMJ version sources names mappings file root content sections)
with sections_value : nat -> json -> list JSection -> Prop :=
| sections_value_intro : forall d vs l, section_list d vs l -> sections_value (S d) (JArr vs) l
with section_list : nat -> list json -> list JSection -> Prop :=
| sl_nil : forall d, section_list d [] []
| sl_cons : forall d v vs s l, section_value d v s -> section_list d vs l ->
    section_list d (v :: vs) (s :: l)
with section_value : nat -> json -> JSection -> Prop :=
| section_value_intro : forall d v foffset fmap furl offset m url,
    fields ["offset"; "map"; "url"]%string v [Some foffset; Some fmap; furl] ->
    position_value d foffset offset ->
    map_value d fmap m ->
    optional is_str furl url ->
    section_value (S d) v (mkJSection offset m url).

(** serde_json opens at most 127 brackets. *)
Definition map_text (s : str) (m : SourceMapJson) : Prop :=
  exists v, document v s /\ map_value 127 v m.

(** ** Source map values *)

(** Numbers are i32, as the types of src/source_map.rs say. *)
Inductive i32_map : SourceMapJson -> Prop :=
| i32_map_intro : forall m, -2147483648 <= smj_version m <= 2147483647 ->
    (forall l, smj_sections m = Some l -> Forall i32_section l) -> i32_map m
with i32_section : JSection -> Prop :=
| i32_section_intro : forall s,
    -2147483648 <= p_line (js_offset s) <= 2147483647 ->
    -2147483648 <= p_column (js_offset s) <= 2147483647 ->
    i32_map (js_map s) -> i32_section s.

(** Bracket levels of the JSON form. *)
Definition levels_if {A} (o : option A) : nat := match o with Some _ => 1 | None => 0 end.

Fixpoint nesting (m : SourceMapJson) : nat :=
  match m with
  | mkSMJ _ sources names _ _ _ content sections =>
      S (list_max [levels_if sources; levels_if names; levels_if content;
                    match sections with
                    | Some l => S (list_max (map section_nesting l))
                    | None => O
                    end])
  end
with section_nesting (s : JSection) : nat :=
  match s with mkJSection _ m _ => S (Nat.max 1 (nesting m)) end.

(** ** Values that say the same *)

(** A member that is null says as much as no member. *)
Definition says (m : list (option str * json)) (k : string) (o : option json) : Prop :=
  match o with
  | Some v => v <> JNull /\ In (Some (lit k), v) m
  | None => forall v, In (Some (lit k), v) m -> v = JNull
  end.

(** Every key can be read and none of [ks] occurs twice. *)
Definition well_keyed (ks : list string) (m : list (option str * json)) : Prop :=
  Forall (fun kv => fst kv <> None) m
  /\ forall k a v b w c, In k ks -> m <> a ++ (Some (lit k), v) :: b ++ (Some (lit k), w) :: c.

Definition same_members (ks : list string) (m m' : list (option str * json)) : Prop :=
  forall k o, In k ks -> says m k o <-> says m' k o.

Inductive same_position : json -> json -> Prop :=
| sp_eq : forall v, same_position v v
| sp_object : forall m m', well_keyed ["line"; "column"]%string m -> well_keyed ["line"; "column"]%string m' ->
    same_members ["line"; "column"]%string m m' -> same_position (JObj m) (JObj m').

Definition map_keys : list string :=
  ["version"; "sources"; "names"; "mappings"; "file"; "sourceRoot"; "sourcesContent"]%string.

(** The same members but for their order, for nulls and for members that are not
    fields of a source map; so, too, in the sections. *)
Inductive same_map : json -> json -> Prop :=
| sm_eq : forall v, same_map v v
| sm_object : forall m m' o o',
    well_keyed ("sections"%string :: map_keys) m -> well_keyed ("sections"%string :: map_keys) m' ->
    same_members map_keys m m' ->
    says m "sections" o -> says m' "sections" o' ->
    o = o' \/ (exists l l', o = Some (JArr l) /\ o' = Some (JArr l') /\ same_sections l l') ->
    same_map (JObj m) (JObj m')
with same_sections : list json -> list json -> Prop :=
| ss_nil : same_sections [] []
| ss_cons : forall v v' l l', same_section v v' -> same_sections l l' -> same_sections (v :: l) (v' :: l')
with same_section : json -> json -> Prop :=
| se_eq : forall v, same_section v v
| se_object : forall m m' p p' v v',
    well_keyed ["offset"; "map"; "url"]%string m -> well_keyed ["offset"; "map"; "url"]%string m' ->
    same_members ["url"]%string m m' ->
    says m "offset" (Some p) -> says m' "offset" (Some p') -> same_position p p' ->
    says m "map" (Some v) -> says m' "map" (Some v') -> same_map v v' ->
    same_section (JObj m) (JObj m').
