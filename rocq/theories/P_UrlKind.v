(** * C63: how a reference is classified (src/util.rs, get_url_type) *)
From Verif Require Import Base M_Util S_UrlKind F_UrlKind.

Theorem C63_url_kind : forall (s : str) (t : UrlType), get_url_type s = Ok t <-> kind_of s t.
Proof. exact url_kind. Qed.
Print Assumptions C63_url_kind.

(** The kinds are exclusive; every text of at least two characters has one, and
    shorter ones panic. *)
Theorem C63_one_kind : forall s : str,
  (2 <= len s -> exists t, kind_of s t)
  /\ (len s < 2 -> get_url_type s = Panic PUnwrapNone)
  /\ (forall t t', kind_of s t -> kind_of s t' -> t = t').
Proof. exact url_kind_total. Qed.
Print Assumptions C63_one_kind.

Example C63_case :
  map get_url_type (map lit ["http://h/x"; "webpack:///a"; "a+b-c.d:/x"; "9+:/"; "C:/x"; "//h/x"; "//"; "/x"; "/:/";
                             "a/b"; ".."; "data:text/plain,x"; ":/x"; "C:\x"; "a b:/x"; "a_b:/x"; "x/http://h"]%string)
  = map Ok [Absolute; Absolute; Absolute; Absolute; Absolute; SchemeRelative; SchemeRelative; PathAbsolute; PathAbsolute;
            PathRelative; PathRelative; PathRelative; PathRelative; PathRelative; PathRelative; PathRelative; PathRelative]
  /\ map get_url_type [[]; lit "/"; lit "a"] = [Panic PUnwrapNone; Panic PUnwrapNone; Panic PUnwrapNone].
Proof. vm_compute. split; reflexivity. Qed.

(** An instance of the description itself. *)
Example C63_kind_case : kind_of (lit "a+b:/x") Absolute /\ ~ kind_of (lit "a:b/x") Absolute.
Proof.
  split.
  - exists (lit "a+b"), (lit "x"). split; [reflexivity|]. split; [discriminate|].
    apply Forall_forall. intros c [<-|[<-|[<-|[]]]]; repeat (first [left; reflexivity|right]).
  - intros H. apply C63_url_kind in H. vm_compute in H. discriminate.
Qed.
