(** Citations (citation.py). [metaknowledge.FAST_CITES] is False, its default. *)
From Coq Require Import String.
From Verif Require Import Base PyStr PyInt Regex.
Set Implicit Arguments.

Definition comma : char := 44%N.
Definition digit09 : char -> bool := in_range 48 57.
Definition not_comma (x : char) : bool := negb (x =? comma)%N.

(** citation.py:61, wosCiteRegex *)
Definition wos_cite_regex : rx :=
  rseq [ ropt (RGrp 1 (RCat (RCls (fun x => negb (digit09 x) && not_comma x)) (rplus (RCls not_comma))));
         ropt (RGrp 2 (rtext $", "));
         ropt (RGrp 3 (RCat (ropt (rchar 45%N)) (RRep true 1 (Some 5) (RCls digit09))));
         ropt (RGrp 4 (rtext $", "));
         ropt (RGrp 5 (rplus (RCls not_comma)));
         ropt (RGrp 6 (RCat (rtext $", ") (RGrp 7 (RCat (rtext $"V") (rplus (RCls not_comma))))));
         ropt (RGrp 8 (RCat (rtext $", ") (RGrp 9 (RCat (rtext $"P") (rplus (RCls not_comma))))));
         RGrp 10 (ROr REol
           (ROr (RCat (rtext $", DOI ") (RGrp 11 (rplus rdot)))
                (RGrp 12 (RCat (RGrp 13 (rplus_lazy rdot)) (ropt (RGrp 14 (RCat (rtext $", DOI ") (RGrp 15 (rplus rdot))))))))) ].

Record citation := {
  c_author : option str; c_year : option Z; c_journal : option str;
  c_V : option str; c_P : option str; c_DOI : option str; c_misc : option str;
  c_bad : bool; c_id : str; c_original : str }.

(** a string or number that python takes for true *)
Definition given (s : option str) : list str := match s with Some (x :: s') => [x :: s'] | _ => [] end.
Definition given_year (y : option Z) : list str := match y with Some z => if Z.eqb z 0 then [] else [dec_Z z] | None => [] end.
(** citation.py:126-133, 138-145 *)
Definition part_id (a : option str) (y : option Z) (j : option str) : str := join $", " (given a ++ given_year y ++ given j).
Definition drop_dots (s : str) : str := filter (fun x => negb (x =? 46)%N) s.

Section Wos.
(** python's str.upper and str.title *)
Variable upper title : str -> str.
(** citation.py:105-152: Citation(cite) *)
Definition wos_citation (cite : str) : res citation :=
  match re_match wos_cite_regex (upper cite) with
  | None => Raise AttributeError (* regex.group(3) with regex None, :114 *)
  | Some g =>
    let author := match g 1 with Some a => Some (title (drop_dots a)) | None => None end in
    let* year := match g 3 with Some y => match py_int y with Some z => Ok (Some z) | None => Raise ValueError end | None => Ok None end in
    let journal := g 5 in
    let made doi misc bad i := {| c_author := author; c_year := year; c_journal := journal; c_V := g 7; c_P := g 9; c_DOI := doi; c_misc := misc; c_bad := bad; c_id := i; c_original := cite |} in
    match g 12 with
    | Some misc => Ok (made (g 15) (Some misc) true (part_id author year journal))
    | None =>
      match author, year, journal with
      | Some a, Some y, Some j => Ok (made (g 11) None false (a ++ $", " ++ dec_Z y ++ $", " ++ j)%list)
      | _, _, _ => Ok (made (g 11) None true (part_id author year journal))
      end
    end
  end.
End Wos.

(** citation.py:174-191: hash and equality, for python's hash of strings *)
Definition cite_hash (hash : str -> Z) (c : citation) : Z := hash (c_id c).
Definition cite_eq (hash : str -> Z) (c d : citation) : bool := Z.eqb (cite_hash hash c) (cite_hash hash d).
(** citation.py:193-206 *)
Definition is_anonymous (c : citation) : bool := match c_author c with Some a => eqb a $"[Anonymous]" | None => false end.

(** the string attributes an object has, each a string or None *)
Definition attributes := dict str (option str).
Definition wos_attributes (c : citation) : attributes :=
  [($"author", c_author c); ($"journal", c_journal c); ($"V", c_V c); ($"P", c_P c); ($"DOI", c_DOI c); ($"misc", c_misc c)].
(** citation.py:222-241 (allButDOI): getattr with the default False *)
Definition all_but_doi (id : str) (a : attributes) : str :=
  match flat_map (fun t => match dget t a with Some v => given v | None => [] end) [$"extraAuthors"; $"V"; $"issue"; $"P"; $"misc"] with
  | [] => id
  | extras => (id ++ $", " ++ join $", " extras)%list
  end.
(** citation.py:243-261 (Extra): getattr without a default *)
Fixpoint extra_loop (a : attributes) (tags : list str) (ret : str) : res str :=
  match tags with
  | [] => Ok ret
  | t :: tags' =>
    match dget t a with
    | None => Raise AttributeError
    | Some v => extra_loop a tags' (match given v with [s] => (ret ++ s ++ $", ")%list | _ => ret end)
    end
  end.
Definition extra (a : attributes) : res str :=
  let* ret := extra_loop a [$"V"; $"P"; $"DOI"; $"misc"] [] in
  Ok (if 2 <? length ret then firstn (length ret - 2) ret else ret).

(** ** Scopus citations *)
Section Scopus.
(** \w and \d of python's re, and int of such digits *)
Variable word num : char -> bool.
Variable int_of : str -> Z.
Variable upper : str -> str.
Definition one_of (l : str) (x : char) : bool := mem x l.
(** citation.py:63, scopusCiteRegex *)
Definition scopus_cite_regex : rx :=
  rseq [ RGrp 1 (rseq [rplus (RCls (fun x => word x || one_of $"- " x)); ropt (rchar comma); rchar sp; rplus (RCls (fun x => word x || one_of $".-" x)); rchar 46%N]);
         rtext $", ";
         ropt (RGrp 2 (rplus (RGrp 3 (rseq [rplus (RCls (fun x => word x || one_of $"- " x)); ropt (rchar comma); rchar sp; rplus (RCls (fun x => word x || one_of $"-." x)); rtext $"., "]))));
         ropt (RGrp 4 (RCat (rplus_lazy (RCls (fun x => negb (x =? 40)%N))) (rchar sp)));
         rchar 40%N; RGrp 5 (RRep true 2 (Some 5) (RCls num)); rtext $") ";
         RGrp 6 (rplus (RCls not_comma));
         ropt (RGrp 7 (rseq [rtext $", "; RGrp 8 (rplus (RCls (fun x => word x || one_of $"-" x)));
                             ropt (RGrp 9 (rseq [rtext $" ("; RGrp 10 (RRep true 0 None (RCls (fun x => word x || one_of $"-" x))); rchar 41%N]))]));
         ropt (RGrp 11 (rseq [rtext $", "; ropt (rchar 80%N); rtext $"P. "; RGrp 12 (RRep true 0 None (RCls (fun x => word x || one_of $"-" x)))]));
         RGrp 13 (RRep true 0 None rdot) ].
(** the attributes; [None] for those of a string that does not match (they do not exist then) *)
Record scitation := { s_author : option str; s_year : option Z; s_journal : option str; s_bad : bool; s_id : str; s_attributes : attributes }.
(** citation.py:74-104: Citation(cite, scopusMode = True) *)
Definition scopus_citation (cite : str) : scitation :=
  match re_match scopus_cite_regex (upper cite) with
  | None => {| s_author := None; s_year := None; s_journal := None; s_bad := true; s_id := cite; s_attributes := [] |}
  | Some g =>
    let year := match g 5 with Some y => int_of y | None => 0%Z end in
    let atts := [($"author", g 1); ($"extraAuthors", g 2); ($"name", g 4); ($"journal", g 6); ($"V", g 8); ($"issue", g 10); ($"P", g 12); ($"misc", g 13)] in
    match given (g 1), Z.eqb year 0, given (g 6) with
    | [a], false, [j] => {| s_author := g 1; s_year := Some year; s_journal := g 6; s_bad := false; s_id := (a ++ $", " ++ dec_Z year ++ $", " ++ j)%list; s_attributes := atts |}
    | _, _, _ => {| s_author := g 1; s_year := Some year; s_journal := g 6; s_bad := true; s_id := part_id (g 1) (Some year) (g 6); s_attributes := atts |}
    end
  end.
End Scopus.

Example scopus_regex_example :
  let word := fun x => in_range 65 90 x || digit09 x in
  let c := scopus_citation word digit09 (fun s => match py_int s with Some z => z | None => 0%Z end) (fun s => s)
    $"DOE J., ROE-X R.A., ON THINGS (2001) NATURE, 4 (2), PP. 12-15, X" in
  (s_author c, s_year c, s_journal c, s_bad c, s_id c) = (Some $"DOE J.", Some 2001%Z, Some $"NATURE", false, $"DOE J., 2001, NATURE").
Proof. vm_compute. reflexivity. Qed.
Example wos_regex_example :
  match wos_citation (fun s => s) (fun s => s) $"NUNEZ R., 1998, MATH COGNITION, V4, P85, DOI 10.1080/135467998387343" with
  | Ok c => (c_author c, c_year c, c_journal c, c_V c, c_P c, c_DOI c, c_misc c, c_bad c, c_id c) =
      (Some $"NUNEZ R", Some 1998%Z, Some $"MATH COGNITION", Some $"V4", Some $"P85", Some $"10.1080/135467998387343", None, false, $"NUNEZ R, 1998, MATH COGNITION")
  | Raise _ => False
  end.
Proof. vm_compute. reflexivity. Qed.
Example wos_regex_example2 :
  match wos_citation (fun s => s) (fun s => s) $"X, 1998, J, Z9, W" with
  | Ok c => (c_author c, c_year c, c_journal c, c_V c, c_P c, c_DOI c, c_misc c, c_bad c, c_id c) =
      (None, None, Some $"X", None, None, None, Some $",", true, $"X")
  | Raise _ => False
  end.
Proof. vm_compute. reflexivity. Qed.
