(** * Model of the JSON (de)serialisation of src/source_map.rs

    [serde_json] (1.0) and the code generated by [#[derive(Serialize,
    Deserialize)]] are not in /repo; the rules they follow for the structs of
    src/source_map.rs are written out here.

    Simplifications: the text is first parsed to a JSON tree, then the tree is
    matched against the struct (serde_json does both in one pass; the result,
    Ok or Err, is the same).  Numbers that are not plain integers are kept only
    as [JFloat].  Strings and keys with lone surrogate escapes, which are errors
    except inside values that are ignored, are kept only as [JBadStr] and [None]. *)
From Verif Require Import Base M_Mapping M_SourceMap M_Util.

(** ** JSON trees; object members in textual order, duplicates kept.  [JBadStr] is
    a string that cannot be read, a [None] key too. *)
Inductive json :=
| JNull
| JBool (b : bool)
| JInt (z : Z)
| JFloat
| JStr (s : str)
| JBadStr
| JArr (l : list json)
| JObj (m : list (option str * json)).

(** ** Printer: serde_json::to_string (compact) *)

Definition hex_digit (n : N) : char :=
  if (n <? 10)%N then (48 + n)%N else (87 + n)%N.   (* lower case *)

(** serde_json's ESCAPE table: the quote, the backslash and control characters *)
Definition escape_char (c : char) : str :=
  if N.eqb c 34 then lit "\" ++ [34%N]
  else if N.eqb c 92 then lit "\\"
  else if N.eqb c 8 then lit "\b"
  else if N.eqb c 9 then lit "\t"
  else if N.eqb c 10 then lit "\n"
  else if N.eqb c 12 then lit "\f"
  else if N.eqb c 13 then lit "\r"
  else if (c <? 32)%N then lit "\u00" ++ [hex_digit (c / 16); hex_digit (c mod 16)]
  else [c].

Definition c_quote : char := 34%N.

Definition print_str (s : str) : str := [c_quote] ++ concat (map escape_char s) ++ [c_quote].

Definition print_key (k : option str) : str :=
  match k with Some k => print_str k | None => [] end.   (* None is never printed *)

(** Decimal printing of an integer *)
Definition print_int (z : Z) : str :=
  if z <? 0 then lit "-" ++ dec_str (Z.to_N (- z)) else dec_str (Z.to_N z).

Fixpoint print_json (v : json) : str :=
  match v with
  | JNull => lit "null"
  | JBool true => lit "true"
  | JBool false => lit "false"
  | JInt z => print_int z
  | JFloat => lit "0.5"        (* never printed: no float field exists *)
  | JStr s => print_str s
  | JBadStr => []              (* never printed *)
  | JArr l => lit "[" ++ join_str (lit ",") (map print_json l) ++ lit "]"
  | JObj m => lit "{" ++ join_str (lit ",")
                (map (fun kv => print_key (fst kv) ++ lit ":" ++ print_json (snd kv)) m) ++ lit "}"
  end.

(** ** Parser: serde_json::from_str *)

Definition is_ws (c : char) : bool :=
  N.eqb c 32 || N.eqb c 9 || N.eqb c 10 || N.eqb c 13.

Fixpoint skip_ws (s : str) : str :=
  match s with c :: s' => if is_ws c then skip_ws s' else s | [] => [] end.

Definition is_digit (c : char) : bool := ((48 <=? c) && (c <=? 57))%N.

Definition hex_val (c : char) : option N :=
  if is_digit c then Some (c - 48)%N
  else if ((65 <=? c) && (c <=? 70))%N then Some (c - 55)%N
  else if ((97 <=? c) && (c <=? 102))%N then Some (c - 87)%N
  else None.

(** four hexadecimal digits *)
Definition parse_hex4 (s : str) : option (N * str) :=
  match s with
  | a :: b :: c :: d :: s' =>
      match hex_val a, hex_val b, hex_val c, hex_val d with
      | Some a, Some b, Some c, Some d => Some ((((a * 16 + b) * 16 + c) * 16 + d)%N, s')
      | _, _, _, _ => None
      end
  | _ => None
  end.

(** The body of a string, after the opening quote; recursion on fuel because an
    escape consumes several characters. *)
Fixpoint parse_str_body (fuel : nat) (s : str) : option (str * str) :=
  match fuel with
  | O => None
  | S fuel' =>
      match s with
      | [] => None
      | c :: s1 =>
          if N.eqb c c_quote then Some ([], s1)
          else if N.eqb c 92 then
            match s1 with
            | [] => None
            | e :: s2 =>
                let simple (x : char) :=
                  match parse_str_body fuel' s2 with
                  | Some (r, rest) => Some (x :: r, rest)
                  | None => None
                  end in
                if N.eqb e 34 then simple 34%N
                else if N.eqb e 92 then simple 92%N
                else if N.eqb e 47 then simple 47%N
                else if N.eqb e 98 then simple 8%N
                else if N.eqb e 102 then simple 12%N
                else if N.eqb e 110 then simple 10%N
                else if N.eqb e 114 then simple 13%N
                else if N.eqb e 116 then simple 9%N
                else if N.eqb e 117 then
                  match parse_hex4 s2 with
                  | None => None
                  | Some (n, s3) =>
                      if ((55296 <=? n) && (n <=? 56319))%N then     (* high surrogate *)
                        match s3 with
                        | b :: u :: s4 =>
                            if N.eqb b 92 && N.eqb u 117 then
                              match parse_hex4 s4 with
                              | Some (n2, s5) =>
                                  if ((56320 <=? n2) && (n2 <=? 57343))%N then
                                    match parse_str_body fuel' s5 with
                                    | Some (r, rest) =>
                                        Some ((65536 + (n - 55296) * 1024 + (n2 - 56320))%N :: r, rest)
                                    | None => None
                                    end
                                  else None
                              | None => None
                              end
                            else None
                        | _ => None
                        end
                      else if ((56320 <=? n) && (n <=? 57343))%N then None
                      else match parse_str_body fuel' s3 with
                           | Some (r, rest) => Some (n :: r, rest)
                           | None => None
                           end
                  end
                else None
            end
          else if (c <? 32)%N then None
          else match parse_str_body fuel' s1 with
               | Some (r, rest) => Some (c :: r, rest)
               | None => None
               end
      end
  end.

Definition parse_string (s : str) : option (str * str) :=   (* after the quote *)
  parse_str_body (S (List.length s)) s.

(** serde_json's ignore_str: the text behind a string, whatever the code points of
    its escapes *)
Fixpoint skip_string (s : str) : option str :=
  match s with
  | [] => None
  | c :: s1 =>
      if N.eqb c c_quote then Some s1
      else if N.eqb c 92 then
        match s1 with
        | [] => None
        | e :: s2 =>
            if existsb (N.eqb e) [34; 92; 47; 98; 102; 110; 114; 116]%N then skip_string s2
            else if N.eqb e 117 then
              match s2 with
              | a :: b :: c :: d :: s3 =>
                  if is_some (hex_val a) && is_some (hex_val b) && is_some (hex_val c) && is_some (hex_val d)
                  then skip_string s3 else None
              | _ => None
              end
            else None
        end
      else if (c <? 32)%N then None
      else skip_string s1
  end.

(** a string or, with [None], one that can only be skipped *)
Definition parse_token (s : str) : option (option str * str) :=
  match parse_string s with
  | Some (x, r) => Some (Some x, r)
  | None => match skip_string s with Some r => Some (None, r) | None => None end
  end.

(** maximal run of digits *)
Fixpoint take_digits (s : str) : str * str :=
  match s with
  | c :: s' => if is_digit c then let '(d, r) := take_digits s' in (c :: d, r) else ([], s)
  | [] => ([], [])
  end.

Definition digits_val (d : str) : Z :=
  fold_left (fun acc c => acc * 10 + (Z.of_N c - 48)) d 0.

(** fraction and exponent: [Some (is_present, rest)] or a syntax error *)
Definition parse_frac (s : str) : option (bool * str) :=
  match s with
  | c :: s' =>
      if N.eqb c 46 then
        let '(d, r) := take_digits s' in
        match d with [] => None | _ => Some (true, r) end
      else Some (false, s)
  | [] => Some (false, s)
  end.

Definition parse_exp (s : str) : option (bool * str) :=
  match s with
  | c :: s' =>
      if N.eqb c 101 || N.eqb c 69 then
        let s'' := match s' with
                   | x :: t => if N.eqb x 43 || N.eqb x 45 then t else s'
                   | [] => s'
                   end in
        let '(d, r) := take_digits s'' in
        match d with [] => None | _ => Some (true, r) end
      else Some (false, s)
  | [] => Some (false, s)
  end.

(** a number without its sign *)
Definition parse_unsigned (neg : bool) (s : str) : option (json * str) :=
  let '(d, r) := take_digits s in
  match d with
  | [] => None
  | c :: d' =>
      if N.eqb c 48 && match d' with [] => false | _ => true end then None   (* leading zero *)
      else
        match parse_frac r with
        | None => None
        | Some (f, r) =>
            match parse_exp r with
            | None => None
            | Some (e, r) =>
                let z := digits_val d in
                if f || e || (neg && (z =? 0)) then Some (JFloat, r)
                else Some (JInt (if neg then - z else z), r)
            end
        end
  end.

Definition parse_number (s : str) : option (json * str) :=
  match s with
  | c :: s' => if N.eqb c 45 then parse_unsigned true s' else parse_unsigned false s
  | [] => None
  end.

Definition expect (p : str) (v : json) (s : str) : option (json * str) :=
  if is_prefix p s then Some (v, skipn (List.length p) s) else None.

(** A value, the elements of an array, the members of an object. *)
Fixpoint parse_value (fuel : nat) (s : str) : option (json * str) :=
  match fuel with
  | O => None
  | S fuel' =>
      match skip_ws s with
      | [] => None
      | c :: s' =>
          if N.eqb c c_quote then
            match parse_token s' with
            | Some (Some x, r) => Some (JStr x, r)
            | Some (None, r) => Some (JBadStr, r)
            | None => None
            end
          else if N.eqb c 91 then                                     (* [ *)
            match skip_ws s' with
            | [] => None
            | d :: s'' =>
                if N.eqb d 93 then Some (JArr [], s'')
                else match parse_elems fuel' s' with
                     | Some (l, r) => Some (JArr l, r)
                     | None => None
                     end
            end
          else if N.eqb c 123 then                                    (* { *)
            match skip_ws s' with
            | [] => None
            | d :: s'' =>
                if N.eqb d 125 then Some (JObj [], s'')
                else match parse_members fuel' s' with
                     | Some (l, r) => Some (JObj l, r)
                     | None => None
                     end
            end
          else if N.eqb c 110 then expect (lit "null") JNull (c :: s')
          else if N.eqb c 116 then expect (lit "true") (JBool true) (c :: s')
          else if N.eqb c 102 then expect (lit "false") (JBool false) (c :: s')
          else parse_number (c :: s')
      end
  end
with parse_elems (fuel : nat) (s : str) : option (list json * str) :=
  match fuel with
  | O => None
  | S fuel' =>
      match parse_value fuel' s with
      | None => None
      | Some (v, r) =>
          match skip_ws r with
          | c :: r' =>
              if N.eqb c 93 then Some ([v], r')
              else if N.eqb c 44 then
                match parse_elems fuel' r' with
                | Some (l, r'') => Some (v :: l, r'')
                | None => None
                end
              else None
          | [] => None
          end
      end
  end
with parse_members (fuel : nat) (s : str) : option (list (option str * json) * str) :=
  match fuel with
  | O => None
  | S fuel' =>
      match skip_ws s with
      | q :: s1 =>
          if N.eqb q c_quote then
            match parse_token s1 with
            | None => None
            | Some (k, r) =>
                match skip_ws r with
                | c :: r1 =>
                    if N.eqb c 58 then
                      match parse_value fuel' r1 with
                      | None => None
                      | Some (v, r2) =>
                          match skip_ws r2 with
                          | d :: r3 =>
                              if N.eqb d 125 then Some ([(k, v)], r3)
                              else if N.eqb d 44 then
                                match parse_members fuel' r3 with
                                | Some (l, r4) => Some ((k, v) :: l, r4)
                                | None => None
                                end
                              else None
                          | [] => None
                          end
                      end
                    else None
                | [] => None
                end
            end
          else None
      | [] => None
      end
  end.

(** Whole document: one value, then only white space. *)
Definition parse_json (s : str) : option json :=
  match parse_value (S (2 * List.length s)) s with
  | Some (v, r) => match skip_ws r with [] => Some v | _ => None end
  | None => None
  end.

(** ** derive(Serialize), src/source_map.rs:3-36 *)

Definition j_strs (l : list str) : json := JArr (map JStr l).

(** #[serde(skip_serializing_if = "Option::is_none")] *)
Definition field_opt {A} (k : string) (f : A -> json) (o : option A) : list (option str * json) :=
  match o with Some a => [(Some (lit k), f a)] | None => [] end.

(** an Option field without skip_serializing_if *)
Definition field_null {A} (k : string) (f : A -> json) (o : option A) : list (option str * json) :=
  [(Some (lit k), match o with Some a => f a | None => JNull end)].

(** src/source_map.rs:32-36 *)
Definition json_of_position (p : Position) : json :=
  JObj [(Some (lit "line"), JInt (p_line p)); (Some (lit "column"), JInt (p_column p))].

(** src/source_map.rs:3-30 *)
Fixpoint json_of_smj (m : SourceMapJson) : json :=
  match m with
  | mkSMJ version sources names mappings file source_root sources_content sections =>
      JObj ([(Some (lit "version"), JInt version)]
            ++ field_opt "sources" j_strs sources
            ++ field_opt "names" j_strs names
            ++ field_opt "mappings" JStr mappings
            ++ field_null "file" JStr file
            ++ field_opt "sourceRoot" JStr source_root
            ++ field_opt "sourcesContent" j_strs sources_content
            ++ field_opt "sections" (fun l => JArr (map json_of_section l)) sections)
  end
with json_of_section (s : JSection) : json :=
  match s with
  | mkJSection offset m url =>
      JObj ([(Some (lit "offset"), json_of_position offset); (Some (lit "map"), json_of_smj m)]
            ++ field_null "url" JStr url)
  end.

(** serde_json::to_string(&SourceMapJson) *)
Definition smj_to_string (m : SourceMapJson) : str := print_json (json_of_smj m).

(** ** derive(Deserialize) *)

(** A known field of an object: absent ([Some None]), present once
    ([Some (Some v)]), duplicated ([None], an error).  A key that cannot be read is
    an error, too. *)
Fixpoint member (k : str) (m : list (option str * json)) : option (option json) :=
  match m with
  | [] => Some None
  | (None, _) :: _ => None
  | (Some k', v) :: m' =>
      if str_eqb k k' then
        match member k m' with
        | Some None => Some (Some v)
        | _ => None
        end
      else member k m'
  end.

Definition de_i32 (v : json) : option Z :=
  match v with JInt z => if in_i32 z then Some z else None | _ => None end.

Definition de_str (v : json) : option str :=
  match v with JStr s => Some s | _ => None end.

Fixpoint omap {A B} (f : A -> option B) (l : list A) : option (list B) :=
  match l with
  | [] => Some []
  | x :: l' =>
      match f x with
      | None => None
      | Some y => match omap f l' with Some ys => Some (y :: ys) | None => None end
      end
  end.

(** Entering an array or object: serde_json's remaining_depth starts at 128 and
    may not reach 0. *)
Definition enter (depth : nat) : option nat :=
  match depth with S (S d) => Some (S d) | _ => None end.

Definition de_strs (depth : nat) (v : json) : option (list str) :=
  match v with
  | JArr l => match enter depth with Some _ => omap de_str l | None => None end
  | _ => None
  end.

(** Option<T>: null or absent is None *)
Definition de_option {A} (f : json -> option A) (v : json) : option (option A) :=
  match v with
  | JNull => Some None
  | _ => match f v with Some a => Some (Some a) | None => None end
  end.

Definition de_field_option {A} (f : json -> option A) (v : option json) : option (option A) :=
  match v with None => Some None | Some v => de_option f v end.

Definition de_field {A} (f : json -> option A) (v : option json) : option A :=
  match v with None => None | Some v => f v end.

(** The values of the known fields [ks], in order: from an object by name, or
    from an array (serde's visit_seq) by position, which then must have exactly
    as many elements. *)
Definition struct_fields (ks : list string) (v : json) : option (list (option json)) :=
  match v with
  | JObj m => omap (fun k => member (lit k) m) ks
  | JArr l => if Nat.eqb (List.length l) (List.length ks) then Some (map Some l) else None
  | _ => None
  end.

(** src/source_map.rs:32-36 *)
Definition position_of_json (depth : nat) (v : json) : option Position :=
  match enter depth with
  | None => None
  | Some _ =>
      match struct_fields ["line"; "column"]%string v with
      | Some [l; c] =>
          match de_field de_i32 l, de_field de_i32 c with
          | Some l, Some c => Some (mkPos l c)
          | _, _ => None
          end
      | _ => None
      end
  end.

(** src/source_map.rs:3-30.  [fuel] bounds the recursion and is a copy of
    [depth], which decreases at least as fast. *)
Fixpoint smj_of_json (fuel depth : nat) (v : json) : option SourceMapJson :=
  match fuel with
  | O => None
  | S fuel' =>
    match enter depth with
    | None => None
    | Some d =>
      match struct_fields ["version"; "sources"; "names"; "mappings"; "file"; "sourceRoot";
                           "sourcesContent"; "sections"]%string v with
      | Some [version; sources; names; mappings; file; source_root; sources_content; sections] =>
          match de_field de_i32 version,
                de_field_option (de_strs d) sources,
                de_field_option (de_strs d) names,
                de_field_option de_str mappings,
                de_field_option de_str file,
                de_field_option de_str source_root,
                de_field_option (de_strs d) sources_content,
                de_field_option (fun v =>
                    match v with
                    | JArr l =>
                        match enter d with
                        | None => None
                        | Some d' => omap (section_of_json fuel' d') l
                        end
                    | _ => None
                    end) sections
          with
          | Some version, Some sources, Some names, Some mappings, Some file, Some source_root,
            Some sources_content, Some sections =>
              Some (mkSMJ version sources names mappings file source_root sources_content sections)
          | _, _, _, _, _, _, _, _ => None
          end
      | _ => None
      end
    end
  end
with section_of_json (fuel depth : nat) (v : json) : option JSection :=
  match fuel with
  | O => None
  | S fuel' =>
    match enter depth with
    | None => None
    | Some d =>
      match struct_fields ["offset"; "map"; "url"]%string v with
      | Some [offset; m; url] =>
          match de_field (position_of_json d) offset,
                de_field (smj_of_json fuel' d) m,
                de_field_option de_str url
          with
          | Some offset, Some m, Some url => Some (mkJSection offset m url)
          | _, _, _ => None
          end
      | _ => None
      end
    end
  end.

(** serde_json::from_str::<SourceMapJson>, src/consumer.rs:21 ([None] for Err) *)
Definition smj_from_str (s : str) : option SourceMapJson :=
  match parse_json s with
  | Some v => smj_of_json 128 128 v
  | None => None
  end.
