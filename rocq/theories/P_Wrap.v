(** * C88: an indexed map with one section at the start *)
From Verif Require Import Base M_Mapping M_SourceMap M_Util M_Json M_MapLib M_Consumer M_Indexed
  S_Consumer S_Indexed S_Wrap F_UrlRef F_MapLibRef F_Wrap.

(** C88: both texts open, or both panic in the same way. *)
Theorem C88_opens_alike : forall (md : mode) (L : MapLib) (U : UrlLib) (order order' : list nat) (s t : str)
    (j m : SourceMapJson) (url : option str)
    (indexed : smj_from_str s = Some j) (plain : smj_from_str t = Some m)
    (not_nested : smj_sections m = None) (one : wraps j m) (run : schedule order 1),
  (exists c b, create_consumer md L U order s url = Ok (Some (CIndexed c))
               /\ create_consumer md L U order' t url = Ok (Some (CBasic b)))
  \/ (exists p, create_consumer md L U order s url = Panic p /\ create_consumer md L U order' t url = Panic p).
Proof. exact wrap_created. Qed.
Print Assumptions C88_opens_alike.

(** C88: [b] is the plain consumer after the corresponding calls. *)
Theorem C88_answers_alike : forall (md : mode) (L : MapLib) (U : UrlLib) (order order' : list nat) (s t : str)
    (j m : SourceMapJson) (url : option str) (qs : list iquery) (c0 c : IndexedConsumer L)
    (indexed : smj_from_str s = Some j) (plain : smj_from_str t = Some m)
    (not_nested : smj_sections m = None) (one : wraps j m) (run : schedule order 1)
    (range : Forall call_in_range qs)
    (opens : create_consumer md L U order s url = Ok (Some (CIndexed c0)))
    (history : iasked md L U c0 qs = Ok c),
  exists b0 b, create_consumer md L U order' t url = Ok (Some (CBasic b0))
    /\ asked md L U b0 (flat_map passed_on qs) = Ok b
    /\ (forall g bias, in_range g ->
          answer (ic_original_position_for md L c g bias)
          = if past_start g then answer (bc_original_position_for md L b g bias) else Ok None)
    /\ answer (ic_has_contents_of_all_sources L c) = bc_has_contents_of_all_sources L b
    /\ (forall src p, answer (ic_source_content_for md L U c src p)
          = match answer (bc_source_content_for md L U b src p), p with
            | Ok None, Some false => Ok None
            | Ok None, _ => Panic PMissing
            | a, _ => a
            end).
Proof. exact wrap_answers. Qed.
Print Assumptions C88_answers_alike.

(** Two lines: (1,2) comes from (1,0), (2,0) from (2,4), both in src/a.js. *)
Definition c88_plain : SourceMapJson :=
  mkSMJ 3 (Some [lit "a.js"]) (Some []) (Some (lit "EAAA;AACI")) None (Some (lit "src")) (Some [lit "text"]) None.
Definition c88_bare : SourceMapJson :=
  mkSMJ 3 (Some [lit "a.js"]) (Some []) (Some (lit "EAAA;AACI")) None (Some (lit "src")) None None.
Definition c88_indexed (m : SourceMapJson) : SourceMapJson :=
  mkSMJ 3 None None None (Some (lit "out.js")) None None (Some [mkJSection (mkPos 0 0) m None]).
Definition c88_history : list iquery :=
  [ISources; IOriginal (mkPos 1 1) None; ISpans; IOriginal (mkPos 0 0) None; IHasContents; IContent (lit "b.js") (Some false)].

(** Answers of the indexed and of the plain map, each opened from its text *)
Definition c88_on_indexed {A} (md : mode) (m : SourceMapJson) (qs : list iquery)
    (f : IndexedConsumer RefLib -> res (A * IndexedConsumer RefLib)) : res A :=
  let* o := create_consumer md RefLib RefUrl [0%nat] (smj_to_string (c88_indexed m)) None in
  match o with
  | Some (CIndexed c) => let* c := iasked md RefLib RefUrl c qs in answer (f c)
  | _ => Panic PMissing
  end.
Definition c88_on_plain {A} (md : mode) (m : SourceMapJson) (qs : list query)
    (f : BasicConsumer RefLib -> res (A * BasicConsumer RefLib)) : res A :=
  let* o := create_consumer md RefLib RefUrl [] (smj_to_string m) None in
  match o with
  | Some (CBasic c) => let* c := asked md RefLib RefUrl c qs in answer (f c)
  | _ => Panic PMissing
  end.

Example C88_case : forall md,
  let g := mkPos 1 3 in let b := Some LeastUpperBound in
  let a := mkMapping (mkPos 2 0) (Some (mkPos 2 4)) (Some (lit "src/a.js")) None None in
  wraps (c88_indexed c88_plain) c88_plain /\ Forall call_in_range c88_history
  /\ flat_map passed_on c88_history
     = [QOriginal (mkPos 1 1) None; QSpans; QContent (lit "b.js") (Some false)]
  (* the same answers *)
  /\ c88_on_indexed md c88_plain c88_history (fun c => ic_original_position_for md RefLib c g b) = Ok (Some a)
  /\ c88_on_plain md c88_plain (flat_map passed_on c88_history) (fun c => bc_original_position_for md RefLib c g b) = Ok (Some a)
  /\ c88_on_indexed md c88_plain [] (fun c => ic_source_content_for md RefLib RefUrl c (lit "src/a.js") None) = Ok (Some (lit "text"))
  /\ c88_on_plain md c88_plain [] (fun c => bc_source_content_for md RefLib RefUrl c (lit "src/a.js") None) = Ok (Some (lit "text"))
  (* line 0: nothing instead of a panic *)
  /\ c88_on_indexed md c88_plain [] (fun c => ic_original_position_for md RefLib c (mkPos 0 3) b) = Ok None
  /\ c88_on_plain md c88_plain [] (fun c => bc_original_position_for md RefLib c (mkPos 0 3) b) = Panic PLine
  (* no contents at all: a panic instead of nothing *)
  /\ c88_on_indexed md c88_bare [] (fun c => ic_source_content_for md RefLib RefUrl c (lit "src/a.js") None) = Panic PMissing
  /\ c88_on_plain md c88_bare [] (fun c => bc_source_content_for md RefLib RefUrl c (lit "src/a.js") None) = Ok None.
Proof.
  intros md. split; [split; reflexivity|].
  split; [repeat constructor; vm_compute; congruence|].
  split; [reflexivity|]. destruct md; vm_compute; repeat split; reflexivity.
Qed.
(** The very first position: the plain map answers, the indexed one does not. *)
Theorem C88_first_position_refuted : exists (m : SourceMapJson) (a : Mapping),
  c88_on_plain Debug m [] (fun c => bc_original_position_for Debug RefLib c (mkPos 1 0) (Some LeastUpperBound)) = Ok (Some a)
  /\ c88_on_indexed Debug m [] (fun c => ic_original_position_for Debug RefLib c (mkPos 1 0) (Some LeastUpperBound)) = Ok None.
Proof.
  exists (mkSMJ 3 (Some [lit "a.js"]) (Some []) (Some (lit ";AAAA")) None None None None),
    (mkMapping (mkPos 2 0) (Some (mkPos 1 0)) (Some (lit "a.js")) None None).
  vm_compute. split; reflexivity.
Qed.
