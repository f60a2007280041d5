(** * C75: source maps written by other tools *)
From Verif Require Import Base M_ArraySet M_Mapping M_Util M_SourceMap M_Json M_MapLib M_Consumer M_Indexed
  S_Json F_JsonText F_Json F_JsonRead.

(** C75: white space, the order of members, members that are not fields of a
    source map and members that are null make no difference, also inside the
    sections. *)
Theorem C75_same_text : forall (md : mode) (L : MapLib) (U : UrlLib) (order : list nat)
    (s s' : str) (url : option str) (v v' : json)
    (text : document v s) (text' : document v' s') (same : same_map v v'),
  smj_from_str s = smj_from_str s'
  /\ create_consumer md L U order s url = create_consumer md L U order s' url.
Proof.
  intros md L U order s s' url v v' H H' HS.
  exact (conj (same_text s s' v v' H H' HS) (same_text_consumer md L U order s s' url v v' H H' HS)).
Qed.
Print Assumptions C75_same_text.

(** C75: one entry of sources, names or sourcesContent that is not a string, null
    for instance, and the text is refused. *)
Theorem C75_entry_not_a_string : forall (md : mode) (L : MapLib) (U : UrlLib) (order : list nat)
    (s : str) (url : option str) (m : list (option str * json)) (k : string) (l : list json) (x : json)
    (text : document (JObj m) s) (field : In k ["sources"; "names"; "sourcesContent"]%string)
    (value : In (Some (lit k), JArr l) m) (entry : In x l) (no_string : forall t, x <> JStr t),
  create_consumer md L U order s url = Ok None.
Proof.
  intros md L U order s url m k l x H1 H2 H3 H4 H5.
  exact (refused_consumer md L U order s url (refused_entry s m k l x H1 H2 H3 H4 H5)).
Qed.
Print Assumptions C75_entry_not_a_string.

(** C75: so is a version that is not an integer. *)
Theorem C75_version_not_an_integer : forall (md : mode) (L : MapLib) (U : UrlLib) (order : list nat)
    (s : str) (url : option str) (m : list (option str * json)) (v : json)
    (text : document (JObj m) s) (value : In (Some (lit "version"), v) m) (no_int : forall z, v <> JInt z),
  create_consumer md L U order s url = Ok None.
Proof.
  intros md L U order s url m v H1 H2 H3.
  exact (refused_consumer md L U order s url (refused_version s m v H1 H2 H3)).
Qed.
Print Assumptions C75_version_not_an_integer.

Definition C75_plain : str :=
  lit "{""version"":3,""sections"":[{""offset"":{""line"":0,""column"":4},""map"":{""version"":3,""sources"":[""a.js""],""names"":[],""mappings"":""AAAA""}}]}".

(** the same, otherwise written; the value that is ignored has a key with half a
    surrogate pair *)
Definition C75_other : str :=
  lit "{ ""x_tool"": {""\udc00"": [1.5]}, ""sections"":
  [ {""url"": null, ""map"": {""names"": [], ""mappings"": ""AAAA"", ""file"": null, ""sources"": [""a.js""],
      ""x_list"": [0], ""x_list"": null, ""version"": 3},
     ""offset"": {""column"": 4, ""line"": 0} } ], ""sourceRoot"": null, ""version"": 3 }
".

Example C75_case :
  smj_from_str C75_plain = smj_from_str C75_other
  /\ smj_from_str C75_plain
     = Some (mkSMJ 3 None None None None None None
         (Some [mkJSection (mkPos 0 4)
                  (mkSMJ 3 (Some [lit "a.js"]) (Some []) (Some (lit "AAAA")) None None None None) None]))
  (* a null entry, as the sourcesContent of other tools has *)
  /\ smj_from_str (lit "{""version"":3,""sources"":[""a.js"",""b.js""],""sourcesContent"":[""x"",""y""]}")
     = Some (mkSMJ 3 (Some [lit "a.js"; lit "b.js"]) None None None None (Some [lit "x"; lit "y"]) None)
  /\ smj_from_str (lit "{""version"":3,""sources"":[""a.js"",""b.js""],""sourcesContent"":[""x"",null]}") = None
  /\ smj_from_str (lit "{""version"":3,""sources"":[null]}") = None
  /\ smj_from_str (lit "{""version"":""3"",""sources"":[]}") = None
  (* nulls count when they are doubled *)
  /\ smj_from_str (lit "{""version"":3,""file"":""a"",""file"":null}") = None
  (* an unreadable string in a field, an unreadable key next to fields *)
  /\ smj_from_str (lit "{""version"":3,""file"":""\udc00""}") = None
  /\ smj_from_str (lit "{""version"":3,""\udc00"":1}") = None
  /\ smj_from_str (lit "{""version"":3,""x"":""\udc0""}") = None
  /\ smj_from_str (lit "{""version"":3,""x"":""\ud83dx""}") = Some (mkSMJ 3 None None None None None None None).
Proof. vm_compute. repeat split; reflexivity. Qed.

Example C75_instance : exists v v', document v C75_plain /\ document v' C75_other /\ same_map v v' /\ v <> v'.
Proof.
  destruct (parse_json C75_plain) as [v|] eqn:E; [|vm_compute in E; discriminate].
  destruct (parse_json C75_other) as [v'|] eqn:E'; [|vm_compute in E'; discriminate].
  exists v, v'. split; [apply parse_json_iff; exact E|]. split; [apply parse_json_iff; exact E'|].
  vm_compute in E, E'. injection E as <-. injection E' as <-.
  split; [|discriminate].
  eapply sm_object; [apply checked_keys; reflexivity|apply checked_keys; reflexivity
    |apply checked_members; reflexivity|apply checked_says; reflexivity|apply checked_says; reflexivity|].
  right. do 2 eexists. split; [reflexivity|]. split; [reflexivity|].
  constructor; [|constructor].
  eapply se_object; [apply checked_keys; reflexivity|apply checked_keys; reflexivity
    |apply checked_members; reflexivity|apply checked_says; reflexivity|apply checked_says; reflexivity| 
    |apply checked_says; reflexivity|apply checked_says; reflexivity| ].
  - apply sp_object; [apply checked_keys; reflexivity|apply checked_keys; reflexivity|apply checked_members; reflexivity].
  - eapply sm_object; [apply checked_keys; reflexivity|apply checked_keys; reflexivity
      |apply checked_members; reflexivity|apply checked_says; reflexivity|apply checked_says; reflexivity|].
    left. reflexivity.
Qed.
