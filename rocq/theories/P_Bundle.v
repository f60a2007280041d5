(** * C73, C74: indexed maps whose sections are generator outputs

    A part is a section's offset and the history of calls on the generator that
    made the section's map; [qs] is any history of calls on the consumer that was
    opened on the indexed map. *)
From Verif Require Import Base M_ArraySet M_Mapping M_Util M_SourceMap M_Generator M_Json M_MapLib M_Consumer
  M_Indexed S_Vlq S_List S_Decode S_Mapping S_Generator S_Contents S_MapLib S_Consumer S_EndToEnd S_Indexed S_Bundle
  F_UrlRef F_MapLibRef F_GeneratorProps F_Bundle.

(** ** C73: original_position_for, get_sources and source_content_for *)
Theorem C73_original : forall (md : mode) (L : MapLib) (U : UrlLib) (contract : MapLibOk L)
    (parts : list part) (url : option str) (c0 : IndexedConsumer L) (qs : list iquery) (c : IndexedConsumer L)
    (g : Position) (b : option Bias)
    (good : Forall good_part parts) (few : len parts < 2147483647)
    (opens : opened_bundle md L U parts url c0) (history : iasked md L U c0 qs = Ok c)
    (position : position_ok (p_line g) (p_column g)),
  ((forall p, In p parts -> ~ starts_before (pt_offset p) g)
     /\ answer (ic_original_position_for md L c g b) = Ok None)
  \/ (exists p, part_for parts g p
        /\ let g' := relative_position (pt_offset p) g in
           let ends m last := (last = None \/ column_end (pt_mappings p) m last)
                              /\ (In ISpans qs -> column_end (pt_mappings p) m last) in
           exists found, nearest (by_generated (pt_mappings p)) (place g') (default_bias b) found
             /\ original_reply md U (pt_root p) url ends (p_line g') found
                  (answer (ic_original_position_for md L c g b))).
Proof. exact bundle_original. Qed.
Print Assumptions C73_original.

Theorem C73_sources : forall (md : mode) (L : MapLib) (U : UrlLib)
    (parts : list part) (url : option str) (c0 : IndexedConsumer L) (qs : list iquery) (c : IndexedConsumer L)
    (offsets : Forall small_part parts)
    (opens : opened_bundle md L U parts url c0) (history : iasked md L U c0 qs = Ok c),
  answer (ic_get_sources L c) = Ok (concat (map pt_sources parts)).
Proof. exact bundle_sources. Qed.
Print Assumptions C73_sources.

Theorem C73_contents : forall (md : mode) (L : MapLib) (U : UrlLib)
    (parts : list part) (url : option str) (c0 : IndexedConsumer L) (qs : list iquery) (c : IndexedConsumer L)
    (key : part -> str -> str) (src : str) (panic_on_missing : option bool)
    (offsets : Forall small_part parts)
    (few_sources : Forall (fun p => len (pt_sources p) < 2^31) parts)
    (opens : opened_bundle md L U parts url c0) (history : iasked md L U c0 qs = Ok c)
    (keys : forall p, In p parts -> keyed md U (pt_root p) (key p)),
  let panics := match panic_on_missing with Some b => b | None => true end in
  exists replies, Forall2 (fun p => part_content md U url (key p) src panics p) parts replies
    /\ answer (ic_source_content_for md L U c src panic_on_missing)
       = match first_answer replies with
         | Ok None => if panics then Panic PMissing else Ok None
         | r => r
         end.
Proof. exact bundle_contents. Qed.
Print Assumptions C73_contents.

(** two generators; the second section starts on line 10 of the bundle, column 4 *)
Definition c73_add (l c ol oc : Z) (s : string) : gen_op :=
  GAdd (mkMapping (mkPos l c) (Some (mkPos ol oc)) (Some (lit s)) None None).
Definition c73_text (s t : string) : gen_op := GContent (lit s) (Some (lit t)).
Definition c73_parts : list part :=
  [mkPart (mkPos 0 0) None (Some (lit "src")) false
     [c73_add 2 0 1 0 "a.js"; c73_add 3 7 2 5 "b.js"; GJson; c73_add 3 2 9 9 "a.js"];
   mkPart (mkPos 9 4) (Some (lit "out.js")) None false
     [c73_add 2 6 4 1 "c.js"; c73_text "c.js" "text of c"; c73_add 2 0 3 1 "d.js"; c73_text "d.js" "text of d"]].

Definition c73_section (p : part) : res JSection :=
  let* g := gen_run Debug RefUrl (gen_new (pt_file p) (pt_root p) (pt_skip p)) (pt_ops p) in
  let* r := gen_as_json Debug RefUrl g in
  Ok (mkJSection (pt_offset p) (fst r) None).
Definition c73_bundle (parts : list part) : res SourceMapJson :=
  let* l := mapM c73_section parts in Ok (mkSMJ 3 None None None None None None (Some l)).
Definition c73_open (parts : list part) : res (option (Consumer RefLib)) :=
  let* j := c73_bundle parts in
  create_consumer Debug RefLib RefUrl (seq 0 (length parts)) (smj_to_string j) None.
Definition c73_after {A} (parts : list part) (qs : list iquery)
    (f : IndexedConsumer RefLib -> res (A * IndexedConsumer RefLib)) : res A :=
  let* r := c73_open parts in
  match r with
  | Some (CIndexed c0) => let* c := iasked Debug RefLib RefUrl c0 qs in answer (f c)
  | _ => Panic PNotThatConsumer
  end.
Definition c73_original (qs : list iquery) (l c : Z) : res (option Mapping) :=
  c73_after c73_parts qs (fun x => ic_original_position_for Debug RefLib x (mkPos l c) (Some LeastUpperBound)).

Example C73_case :
  (* first section: line 2 is asked for, line 3 answered *)
  c73_original [] 2 1
  = Ok (Some (mkMapping (mkPos 3 2) (Some (mkPos 9 9)) (Some (lit "src/a.js")) None None))
  (* second section, on its first line: columns count from 4 *)
  /\ c73_original [ISources; ISpans] 10 7
     = Ok (Some (mkMapping (mkPos 2 0) (Some (mkPos 3 1)) (Some (lit "d.js")) None (Some 6)))
  (* its start still belongs to the first section *)
  /\ c73_original [] 10 4 = Ok None
  /\ c73_after c73_parts [ISpans] (ic_get_sources RefLib) = Ok [lit "a.js"; lit "b.js"; lit "c.js"; lit "d.js"].
Proof. vm_compute. repeat split; reflexivity. Qed.

Example C73_contents_case :
  let ask s p := c73_after c73_parts [] (fun x => ic_source_content_for Debug RefLib RefUrl x (lit s) p) in
  ask "d.js"%string None = Ok (Some (lit "text of d"))
  /\ ask "c.js"%string (Some false) = Ok (Some (lit "text of c"))
  /\ ask "src/a.js"%string (Some false) = Ok None
  /\ ask "src/a.js"%string None = Panic PMissing.
Proof. vm_compute. repeat split; reflexivity. Qed.

Example C73_instance : Forall good_part c73_parts
  /\ (exists j l, c73_bundle c73_parts = Ok j /\ smj_sections j = Some l /\ Forall2 (section_of Debug RefUrl) c73_parts l).
Proof.
  split.
  - repeat apply Forall_cons; try apply Forall_nil; (split; [split; vm_compute; split; congruence|]); unfold pt_mappings; cbn;
      (split; [repeat constructor; vm_compute; congruence|]);
      (split; [apply small_fit|]); repeat constructor; vm_compute; congruence.
  - destruct (c73_bundle c73_parts) as [j|p] eqn:E; [|vm_compute in E; discriminate].
    unfold c73_bundle in E. destruct (mapM c73_section c73_parts) as [l|p] eqn:El; [|discriminate].
    cbn in E. injection E as <-. exists (mkSMJ 3 None None None None None None (Some l)), l.
    split; [reflexivity|]. split; [reflexivity|]. revert l El. generalize c73_parts.
    induction l as [|p parts IH]; intros l El; cbn in El; [injection El as <-; constructor|].
    destruct (c73_section p) as [s|e] eqn:Es; [|discriminate]. cbn [bind] in El.
    destruct (mapM c73_section parts) as [l'|e]; [|discriminate]. cbn [bind] in El. injection El as <-.
    constructor; [|apply IH; reflexivity]. unfold c73_section in Es.
    destruct (gen_run _ _ _ _) as [g|e] eqn:Eg; [|discriminate]. cbn [bind] in Es.
    destruct (gen_as_json Debug RefUrl g) as [[j g']|e] eqn:Ej; [|discriminate]. cbn in Es. injection Es as <-.
    split; [reflexivity|]. exists g, g'. split; [exact Eg | exact Ej].
Qed.

(** ** C74: has_contents_of_all_sources *)
Theorem C74_has_contents : forall (md : mode) (L : MapLib) (U : UrlLib)
    (file root : option str) (skip : bool) (ops : list gen_op) (g : Generator) (url : option str)
    (c0 : BasicConsumer L) (lookup : option str) (qs : list query) (c : BasicConsumer L) (key : str -> str)
    (run : gen_run md U (gen_new file root skip) ops = Ok g)
    (opens : opened_on md L U g url c0 lookup) (history : asked md L U c0 qs = Ok c)
    (keys : keyed md U root key),
  exists b, bc_has_contents_of_all_sources L c = Ok b
    /\ (b = true <-> some_text key ops /\ forall s, In s (source_names ops) -> text_of key ops s <> None).
Proof. exact end_has_contents. Qed.
Print Assumptions C74_has_contents.

Theorem C74_bundle_has_contents : forall (md : mode) (L : MapLib) (U : UrlLib)
    (parts : list part) (url : option str) (c0 : IndexedConsumer L) (qs : list iquery) (c : IndexedConsumer L)
    (key : part -> str -> str)
    (offsets : Forall small_part parts)
    (few_sources : Forall (fun p => len (pt_sources p) < 2^31) parts)
    (opens : opened_bundle md L U parts url c0) (history : iasked md L U c0 qs = Ok c)
    (keys : forall p, In p parts -> keyed md U (pt_root p) (key p)),
  exists b, answer (ic_has_contents_of_all_sources L c) = Ok b
    /\ (b = true <-> forall p, In p parts -> some_text (key p) (pt_ops p)
          /\ forall s, In s (pt_sources p) -> text_of (key p) (pt_ops p) s <> None).
Proof. exact bundle_has_contents. Qed.
Print Assumptions C74_bundle_has_contents.

Definition c74_has (ops : list gen_op) : res bool :=
  let* g := gen_run Debug RefUrl (gen_new None (Some (lit "http://x.org/r/")) false) ops in
  let* r := bc_from_source_map Debug RefLib RefUrl g None in
  bc_has_contents_of_all_sources RefLib (fst r).
Example C74_case :
  let a := c73_add 1 0 1 0 "http://x.org/r/a.js" in
  let b := c73_add 2 0 1 0 "http://x.org/r/b.js" in
  let ta := c73_text "http://x.org/r/a.js" "A" in
  let tb := c73_text "http://x.org/r/b.js" "B" in
  c74_has [a; ta; b; tb] = Ok true /\ c74_has [a; ta; b] = Ok false
  /\ c74_has [a; ta; GJson; b; tb; GContent (lit "http://x.org/r/a.js") None] = Ok false
  (* no sources: a text of some other file decides *)
  /\ c74_has [] = Ok false /\ c74_has [tb] = Ok true.
Proof. vm_compute. repeat split; reflexivity. Qed.

Example C74_bundle_case :
  let has parts := c73_after parts [] (ic_has_contents_of_all_sources RefLib) in
  has c73_parts = Ok false /\ has (skipn 1 c73_parts) = Ok true /\ has [] = Ok true.
Proof. vm_compute. repeat split; reflexivity. Qed.
