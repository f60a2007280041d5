(** * C93: file URLs *)
From Verif Require Import Base M_Util S_Url S_Refs S_Files F_UrlRef F_UrlProps F_Refs F_Files.

(** A file as a source is kept, without dot segments, below every root; ".." leads
    neither out of the host nor off the drive. *)
Theorem C93_source : forall md U (url_crate : UrlContract U) root o d p q f
    (roots : forall r, root = Some r -> any_root r) (place : file_place o d)
    (chars : plain_path p) (charsq : plain_opt q) (charsf : plain_opt f)
    (bound : len (url_text o (placed d p) q f) <= 2147483645),
  compute_source_url md U root (url_text o (placed d p) q f) None
  = Ok (url_text o (placed d (resolve_from [] p)) q f).
Proof. exact file_source. Qed.
Print Assumptions C93_source.

(** Neither does a map URL change it, if one can be used at all. *)
Theorem C93_source_with_map : forall md U (url_crate : UrlContract U) root o d p q f m
    (roots : forall r, root = Some r -> any_root r) (place : file_place o d)
    (chars : plain_path p) (charsq : plain_opt q) (charsf : plain_opt f)
    (bound : len (url_text o (placed d p) q f) <= 2147483645)
    (chars_m : plain_ref m) (not_relative : ~ is_relative m)
    (bound_m : len (ref_text m) <= 2147483644),
  compute_source_url md U root (url_text o (placed d p) q f) (Some (ref_text m))
  = if Z_lt_dec (len (ref_text (map_ref (in_order m)))) 2 then Panic PUnwrapNone
    else Ok (url_text o (placed d (resolve_from [] p)) q f).
Proof. exact file_map. Qed.
Print Assumptions C93_source_with_map.

(** Below a directory of files other sources are resolved in it, on the same host
    and drive. *)
Theorem C93_root : forall md U (url_crate : UrlContract U) o d r q f p (slash : bool)
    (place : file_place o d) (chars_r : plain_path r) (charsq : plain_opt q) (charsf : plain_opt f)
    (chars : plain_path p) (length : 2 <= len (path_text p) <= 2147483645)
    (left_over : 2 <= len (path_text (normal p))) (bound : len (url_text o (placed d r) q f) <= 2147483645),
  compute_source_url md U (Some (url_text o (placed d r) q f)) ((if slash then lit "/" else []) ++ path_text p) None
  = Ok (url_text o (placed d (resolve_from [] (below r p))) None None).
Proof. exact file_root_source. Qed.
Print Assumptions C93_root.

(** join: a file is returned as it is; in a directory of files a path is resolved. *)
Theorem C93_join_file : forall md U (url_crate : UrlContract U) root o d p q f
    (roots : any_root root) (place : file_place o d),
  url_join md U root (url_text o (placed d p) q f) = Ok (url_text o (placed d p) q f).
Proof. exact file_join. Qed.
Print Assumptions C93_join_file.

Theorem C93_join_path : forall md U (url_crate : UrlContract U) o d r q f p
    (place : file_place o d) (chars_r : plain_path r) (charsq : plain_opt q) (charsf : plain_opt f)
    (chars : plain_path p) (length : 2 <= len (path_text p)) (bound : len (url_text o (placed d r) q f) <= 2147483645),
  url_join md U (url_text o (placed d r) q f) (path_text p)
  = Ok (url_text o (placed d (resolve_from [] (below r p))) None None).
Proof. exact join_place. Qed.
Print Assumptions C93_join_path.

(** "//localhost/..." is a file without a host. *)
Theorem C93_localhost : forall md U (url_crate : UrlContract U) o r q f p q' f'
    (file : file_origin o) (chars_r : plain_ref (RUrl o r q f)) (chars : plain_ref (RNet (lit "localhost") p q' f'))
    (bound : len (url_text o r q f) + len (net_text (lit "localhost") p q' f') <= 2147483644),
  url_join md U (url_text o r q f) (net_text (lit "localhost") p q' f')
  = Ok (url_text file_root (resolve_from [] p) q' f').
Proof. exact file_localhost. Qed.
Print Assumptions C93_localhost.

(** A file for a map URL is right only up to one directory, like every map URL (C36). *)
Theorem C93_map_url_verdict : forall md U (url_crate : UrlContract U) sr src s o p q f
    (source : compute_source_url md U sr src None = Ok (path_text s)) (chars_s : plain_path s)
    (long_s : 2 <= len (path_text s)) (file : file_origin o) (chars : clean_path p)
    (charsq : plain_opt q) (charsf : plain_opt f) (bound : len (url_text o p q f) <= 2147483645),
  let right := url_text o (resolve_from [] (below (mkPath (dirs p) []) s)) None None in
  (len (dirs p) <= 1 -> compute_source_url md U sr src (Some (url_text o p q f)) = Ok right)
  /\ (2 <= len (dirs p) -> clean_path s ->
      exists t, compute_source_url md U sr src (Some (url_text o p q f)) = Ok t /\ t <> right).
Proof. exact file_map_verdict. Qed.
Print Assumptions C93_map_url_verdict.

Definition c93 (root : string) (source : string) :=
  compute_source_url Debug RefUrl (match root with EmptyString => None | _ => Some (lit root) end) (lit source) None.
Example C93_case :
  map (fun x => c93 (fst x) (snd x))
    [("", "file:///src/./a.js"); ("", "file://pc/../src/a.js?v"); ("", "file:///C:/src/../../a.js"); ("", "file:///c:/.");
     ("lib", "file:///C:/src/a.js"); ("http://h/x", "file:///src/a.js"); ("file:///C:/x", "file:///D:/a.js");
     ("file:///home/u", "src/a.js"); ("file:///home/u/", "/src/a.js"); ("file://pc/share", "../../../a.js");
     ("file:///C:/proj", "src/a.js"); ("file:///C:/proj", "../../../a.js"); ("file:///C:/", "a/../b.js"); ("file:///x", "//gg/a.js");
     ("file:///x", "//localhost/a.js")]%string
  = map (fun t => Ok (lit t))
    ["file:///src/a.js"; "file://pc/src/a.js?v"; "file:///C:/a.js"; "file:///c:/";
     "file:///C:/src/a.js"; "file:///src/a.js"; "file:///D:/a.js";
     "file:///home/u/src/a.js"; "file:///home/u/src/a.js"; "file://pc/a.js";
     "file:///C:/proj/src/a.js"; "file:///C:/a.js"; "file:///C:/b.js"; "file://gg/a.js"; "file:///a.js"]%string
  /\ compute_source_url Debug RefUrl None (lit "a.js") (Some (lit "file:///app/x.map")) = Ok (lit "file:///app/a.js")
  /\ compute_source_url Debug RefUrl None (lit "a.js") (Some (lit "file:///home/u/app/x.map")) = Ok (lit "file:///homeuapp/a.js")
  /\ compute_source_url Debug RefUrl None (lit "file:///C:/a.js") (Some (lit "file:///home/u/app/x.map")) = Ok (lit "file:///C:/a.js").
Proof. vm_compute. repeat split; reflexivity. Qed.

(** The theorems at work *)
Lemma c93_drive : drive (lit "C:").
Proof. exists (ch "C"). split; [left; split; discriminate|reflexivity]. Qed.

Example C93_instance : forall md U (url_crate : UrlContract U),
  compute_source_url md U (Some (lit "file:///C:/proj")) (lit "../../src/a.js") None = Ok (lit "file:///C:/src/a.js")
  /\ compute_source_url md U (Some (lit "file:///C:/proj")) (lit "file:///D:/../a.js") None = Ok (lit "file:///D:/a.js").
Proof.
  intros md U Cr. split.
  - apply (C93_root md U Cr file_root (Some (lit "C:")) (mkPath [] (lit "proj")) None None
             (mkPath [dotdot; dotdot; lit "src"] (lit "a.js")) false); try exact I; try (vm_compute; discriminate).
    + constructor. exact c93_drive.
    + split; repeat constructor.
    + split; repeat constructor; discriminate.
    + vm_compute. split; discriminate.
  - apply (C93_source md U Cr (Some (lit "file:///C:/proj")) file_root (Some (lit "D:")) (mkPath [dotdot] (lit "a.js")) None None).
    + intros r E. right. exists file_root, (Some (lit "C:")), (mkPath [] (lit "proj")), None, None.
      split; [constructor; exact c93_drive|]. split; [split; repeat constructor|].
      repeat (split; [exact I|]). injection E as <-. split; [reflexivity|]. vm_compute. discriminate.
    + constructor. exists (ch "D"). split; [left; split; discriminate|reflexivity].
    + split; repeat constructor; discriminate.
    + exact I.
    + exact I.
    + vm_compute. discriminate.
Qed.
