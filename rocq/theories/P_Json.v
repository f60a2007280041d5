(** * C29-C30: source map JSON and create_consumer *)
From Verif Require Import Base M_ArraySet M_Mapping M_Util M_SourceMap M_Json M_MapLib M_Consumer M_Indexed
  S_Json F_JsonText F_Json F_Dispatch.

(** C29: printing a map and parsing the text gives the map, as long as at most
    127 brackets are open at once (serde_json's recursion limit); beyond that the
    printed text is refused. *)
Theorem C29_json_roundtrip : forall (m : SourceMapJson) (i32 : i32_map m),
  smj_from_str (smj_to_string m) = if (nesting m <=? 127)%nat then Some m else None.
Proof. exact json_roundtrip. Qed.
Print Assumptions C29_json_roundtrip.

(** C29: a text is read as a map exactly when the grammar of JSON and the field
    rules say so. *)
Theorem C29_json_grammar : forall (s : str) (m : SourceMapJson),
  smj_from_str s = Some m <-> map_text s m.
Proof. exact smj_from_str_iff. Qed.
Print Assumptions C29_json_grammar.

Definition C29_map : SourceMapJson :=
  mkSMJ 3 None None None (Some (lit "a""b\" ++ [10; 1; 128512]%N)) None None
    (Some [mkJSection (mkPos 0 (-5))
             (mkSMJ 3 (Some [lit "x.js"; []]) (Some []) (Some (lit "AAAA")) None (Some (lit "/r"))
                    (Some [lit "	"]) None)
             None;
           mkJSection (mkPos 2147483647 0) (mkSMJ (-1) None None None None None None (Some [])) (Some (lit "u"))]).

Example C29_case :
  smj_to_string C29_map
  = lit "{""version"":3,""file"":""a\""b\\\n\u0001" ++ [128512%N] ++ lit """,""sections"":["
    ++ lit "{""offset"":{""line"":0,""column"":-5},""map"":{""version"":3,""sources"":[""x.js"",""""],""names"":[],"
    ++ lit """mappings"":""AAAA"",""file"":null,""sourceRoot"":""/r"",""sourcesContent"":[""\t""]},""url"":null},"
    ++ lit "{""offset"":{""line"":2147483647,""column"":0},""map"":{""version"":-1,""file"":null,""sections"":[]},""url"":""u""}]}"
  /\ smj_from_str (smj_to_string C29_map) = Some C29_map
  /\ nesting C29_map = 5%nat
  /\ smj_from_str (lit " { ""x"" : [1.5e3, {}], ""file"" : ""\ud83d\uDE00"" , ""version"" : 3 } ")
     = Some (mkSMJ 3 None None None (Some [128512%N]) None None None)
  /\ smj_from_str (lit "{""version"":3,""version"":3}") = None
  /\ smj_from_str (lit "{""version"":3.0}") = None
  /\ smj_from_str (lit "[3,null,null,null,null,null,null,null]")
     = Some (mkSMJ 3 None None None None None None None).
Proof. vm_compute. repeat split; reflexivity. Qed.

(** Texts that are refused, each next to one that is not. *)
Example C29_refused_case :
  let read s := match smj_from_str (lit s) with Some m => Some (smj_version m, smj_file m) | None => None end in
  map read ["{""version"":2147483647}"; "{""version"":-2147483648}"; "{""version"":0}"; "{""version"":3}  ";
            "{""version"":3,""file"":""a\/b""}"; "{""version"":3,""file"":""\u00E9""}"; "{""version"":3,""file"":null}";
            "{""version"":3,""x"":""y"",""x"":{}}"]%string
  = [Some (2147483647, None); Some (-2147483648, None); Some (0, None); Some (3, None); Some (3, Some (lit "a/b"));
     Some (3, Some [233%N]); Some (3, None); Some (3, None)]
  /\ map read ["{""version"":2147483648}"; "{""version"":-2147483649}"; "{""version"":03}"; "{""version"":3} x";
               "{""version"":3,""file"":""a\xb""}"; "{""version"":3,""file"":""\u00G9""}"; "{""version"":null}";
               "{""version"":3,""file"":""y"",""file"":null}"; "{""version"":3,}"; "{}"; "3"; ""; "{""version"":3";
               "{""version"":3,""file"":""\ud83d""}"; "{""version"":3,""file"":1}"; "[3,null]"]%string
     = repeat None 16
  /\ smj_to_string (mkSMJ 3 None None None (Some [8; 9; 12; 13; 31; 32; 127]%N) None None None)
     = lit "{""version"":3,""file"":""\b\t\f\r\u001f " ++ [127%N] ++ lit """}"
  /\ smj_from_str (lit "{""version"":3,""file"":""" ++ [31%N] ++ lit """}") = None.
Proof. vm_compute. repeat split; reflexivity. Qed.

(** Members that are no fields are checked too. *)
Example C29_ignored_case :
  let read s := match smj_from_str s with Some m => Some (smj_version m) | None => None end in
  let with_x s := read (lit "{""version"":3,""x"":" ++ s ++ lit "}") in
  map (fun s => with_x (lit s)) ["""a\/b"""; """\u00e9"""; """\u00E9\n"""; "1e+5"; "1E5"; "-0"; "0.50"; "-1.5e-10"; "[1,{},[]]"; """\ud83d"""]%string
  = repeat (Some 3) 10
  /\ map (fun s => with_x (lit s)) ["""a\xb"""; """\u0g00"""; """\u000g"""; """\ug000"""; """\u00"""; "1e"; "1e+"; "1."; ".5"; "+1"; "-"; "01"; "[1,]"; "{,}"; "tru"]%string
     = repeat None 15
  /\ with_x (lit """" ++ [31%N] ++ lit """") = None /\ with_x (lit """" ++ [127%N] ++ lit """") = Some 3
  /\ map (fun s => read (lit s)) ["{""version"":3e0}"; "{""version"":-0}"; "{""version"":3.0}"]%string = [None; None; None].
Proof. vm_compute. repeat split; reflexivity. Qed.

(** maps nested [n] times *)
Fixpoint C29_nested (n : nat) : SourceMapJson :=
  mkSMJ 3 None None None None None None
    (match n with O => None | S n' => Some [mkJSection (mkPos 0 0) (C29_nested n') None] end).

Example C29_deep :
  nesting (C29_nested 42) = 127%nat
  /\ smj_from_str (smj_to_string (C29_nested 42)) = Some (C29_nested 42)
  /\ smj_from_str (smj_to_string (C29_nested 43)) = None
  (* one bracket too many *)
  /\ (let m := mkSMJ 3 (Some []) None None None None None (Some []) in
      let deep n := Nat.iter n (fun m => mkSMJ 3 None None None None None None (Some [mkJSection (mkPos 0 0) m None])) m in
      nesting (deep 42%nat) = 128%nat /\ smj_from_str (smj_to_string (deep 42%nat)) = None
      /\ smj_from_str (smj_to_string (deep 41%nat)) = Some (deep 41%nat))
  (* which does not matter in a field that is ignored *)
  /\ is_some (smj_from_str (lit "{""version"":3,""x"":" ++ repeat 91%N 200 ++ repeat 93%N 200 ++ lit "}")) = true.
Proof. vm_compute. repeat split; reflexivity. Qed.

(** C30: which consumer create_consumer builds, for every schedule of the
    sections. *)
Theorem C30_create_consumer : forall (md : mode) (L : MapLib) (U : UrlLib) (order : list nat)
    (s : str) (url : option str),
  (create_consumer md L U order s url = Ok None <-> ~ exists m, map_text s m)
  /\ (forall m, map_text s m ->
      (forall c, create_consumer md L U order s url = Ok (Some c) ->
         (smj_sections m = None /\ (exists b, c = CBasic b /\ bc_source_map b = m))
         \/ (smj_sections m <> None /\ (exists i, c = CIndexed i /\ ic_source_map i = m)))
      /\ (smj_sections m = None -> smj_sources m = None ->
          create_consumer md L U order s url = Panic PUnwrapNone)
      /\ (forall srcs, smj_sections m = None -> smj_sources m = Some srcs ->
          ((exists b, create_consumer md L U order s url = Ok (Some (CBasic b)))
           <-> Forall (fun x => exists u, compute_source_url md U (smj_source_root m) x url = Ok u) srcs))).
Proof. exact create_dispatch. Qed.
Print Assumptions C30_create_consumer.

Example C30_case : forall (md : mode) (L : MapLib) (U : UrlLib),
  create_consumer md L U [] (lit "{""version"":3") None = Ok None
  /\ create_consumer md L U [] (lit "{""version"":3}") None = Panic PUnwrapNone
  /\ create_consumer md L U [] (lit "{""version"":3,""sources"":[]}") None
     = Ok (Some (CBasic (mkBC (mkSMJ 3 (Some []) None None None None None None) [] as_new None None false)))
  /\ create_consumer md L U [] (lit "{""version"":3,""sections"":[]}") None
     = Ok (Some (CIndexed (mkIC (mkSMJ 3 None None None None None None (Some [])) (mkCell 0 [])))).
Proof. intros md L U. vm_compute. repeat split; reflexivity. Qed.
