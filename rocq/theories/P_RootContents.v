(** * C96: which contents a generator with a source root can keep, and under which names *)
From Verif Require Import Base M_Mapping M_Util M_SourceMap M_Generator S_List S_Mapping S_Generator S_Contents
  S_Url S_Refs S_RootContents F_UrlRef F_RootContents.

(** Of any two plain references, relative panics or gives the one name. *)
Theorem C96_relative_verdict : forall (md : mode) (U : UrlLib) (url_crate : UrlContract U) (root s : ref)
    (chars_r : plain_ref root) (chars_s : plain_ref s)
    (bound : len (ref_text root) + len (ref_text s) <= 2147483645),
  (at_odds root s -> relative md U (ref_text root) (ref_text s) = Panic PUnwrapErr)
  /\ (~ at_odds root s -> exists k, relative md U (ref_text root) (ref_text s) = Ok k
        /\ forall k', kept_as root s k' <-> k' = k).
Proof. exact relative_verdict. Qed.
Print Assumptions C96_relative_verdict.

(** [key] is any function that gives the files of the history their names. *)
Theorem C96_generates_exactly : forall (md : mode) (U : UrlLib) (url_crate : UrlContract U)
    (file : option str) (skip : bool) (root : ref) (chars_r : plain_ref root)
    (key : str -> str) (names : forall s x k, written_as root s x -> kept_as root x k -> key s = k)
    (ops : list gen_op)
    (valid : Forall encodable (added_mappings ops) /\ few_names 2147483648 (added_mappings ops))
    (files : named_history root ops),
  (harmless root key (ops ++ [GJson]) ->
   exists j, observe_json md U (gen_new file (Some (ref_text root)) skip) ops = Ok j
     /\ ((forall k, last_content k (renamed key ops) None = None) -> smj_sources_content j = None)
     /\ ((exists k, last_content k (renamed key ops) None <> None) ->
         smj_sources_content j
         = Some (present (map (fun s => last_content (key s) (renamed key ops) None)
                            (distinct (present (map m_source (added_mappings ops))))))))
  /\ (~ harmless root key (ops ++ [GJson]) ->
      observe_json md U (gen_new file (Some (ref_text root)) skip) ops = Panic PUnwrapErr).
Proof. exact keeps_exactly. Qed.
Print Assumptions C96_generates_exactly.

(** There always is one. *)
Theorem C96_names : forall (root : ref) (chars_r : plain_ref root),
  exists key : str -> str, forall s x k, written_as root s x -> kept_as root x k -> key s = k.
Proof. exact key_exists. Qed.
Print Assumptions C96_names.

(** The roots /the/root and http://hh/a/b, the files one.js, /two.js and http://hh/a/./c/d.js?q *)
Definition c96_abs : ref := RAbs (mkPath [lit "the"] (lit "root")) None None.
Definition c96_web : ref := RUrl (mkOrigin (lit "http") (lit "hh")) (mkPath [lit "a"] (lit "b")) None None.
Definition c96_one : str := lit "one.js".
Definition c96_two : str := lit "/two.js".
Definition c96_url : str := lit "http://hh/a/./c/d.js?q".
Definition c96_mapping (s : str) : Mapping := mkMapping (mkPos 1 0) (Some (mkPos 1 0)) (Some s) None None.
Definition c96_contents (root : ref) (ops : list gen_op) : res (option (list str)) :=
  let* j := observe_json Debug RefUrl (gen_new None (Some (ref_text root)) false) ops in Ok (smj_sources_content j).

Example C96_case :
  (* of another kind than the root *)
  c96_contents c96_abs [GAdd (c96_mapping c96_one); GContent c96_one (Some (lit "x"))] = Ok (Some [lit "x"])
  (* under another spelling of it *)
  /\ c96_contents c96_abs [GAdd (c96_mapping c96_one); GContent (lit "a/../one.js") (Some (lit "x"))] = Ok (Some [lit "x"])
  (* of the kind of the root *)
  /\ c96_contents c96_abs [GContent c96_two (Some (lit "x"))] = Panic PUnwrapErr
  /\ c96_contents c96_abs [GContent c96_two None] = Panic PUnwrapErr
  (* a source of the kind of the root: while there is some other content *)
  /\ c96_contents c96_abs [GAdd (c96_mapping c96_two); GContent c96_one (Some (lit "x"))] = Panic PUnwrapErr
  /\ c96_contents c96_abs [GAdd (c96_mapping c96_two); GContent c96_one (Some (lit "x")); GContent c96_one None] = Ok None
  /\ c96_contents c96_abs [GAdd (c96_mapping c96_two); GContent c96_one (Some (lit "x")); GJson; GContent c96_one None]
     = Panic PUnwrapErr
  (* a URL below a URL *)
  /\ c96_contents c96_web [GAdd (c96_mapping c96_url); GContent c96_url (Some (lit "x")); GContent c96_two (Some (lit "y"))]
     = Ok (Some [lit "x"])
  /\ relative Debug RefUrl (ref_text c96_web) c96_url = Ok (lit "../c/d.jsq")
  /\ c96_contents c96_web [GAdd (c96_mapping c96_url); GContent (lit "../c/d.jsq") (Some (lit "x"))] = Ok (Some [lit "x"]).
Proof. vm_compute. repeat split; reflexivity. Qed.

(** http://hh/a/./c/d.js?q *)
Definition c96_ref : ref :=
  RUrl (mkOrigin (lit "http") (lit "hh")) (mkPath [lit "a"; dot; lit "c"] (lit "d.js")) (Some (lit "q")) None.
Example C96_instance :
  written_as c96_web c96_url c96_ref /\ kept_as c96_web c96_ref (lit "../c/d.jsq")
  /\ at_odds c96_abs (RAbs (mkPath [] (lit "two.js")) None None)
  /\ kept_as c96_abs (RRel (mkPath [lit "a"; dotdot] (lit "one.js")) None None) c96_one.
Proof.
  split; [|split; [|split; [exact I|]]].
  - split; [reflexivity|]. split; [|discriminate]. split; [|discriminate].
    assert (H : plain_host (lit "hh")).
    { exists [lit "hh"]. split; [discriminate|]. split; [repeat constructor; discriminate|reflexivity]. }
    split; [left; left; split; [left; reflexivity|]; split; [exact H|]; split; [split; [constructor|exact I]|exact I]|].
    split; [split; repeat constructor; discriminate|]. split; [repeat constructor; discriminate|exact I].
  - split; [intros []|]. split; [|intros X; exfalso; apply X; reflexivity]. intros _.
    exists [dotdot; lit "c"; lit "d.js"]. split; [|reflexivity].
    exists [lit "a"], [lit "b"], [lit "c"; lit "d.js"]. repeat split; try reflexivity.
    intros x u d X Y. injection X as <- _. discriminate Y.
  - split; [intros []|]. reflexivity.
Qed.
