(** The pages of journal abbreviations and what the databases say of an abbreviation. *)
From Coq Require Import String.
From Verif Require Import Base PyStr Span.
Set Implicit Arguments.

(** a page lists journals: a name and its abbreviation each *)
Record page := { head : list str; anchor : str; rows : list (str * str); foot : list str }.
Definition quote : char := 34%N.
Definition name_lines (r : str * str) : list str := [($"</B><DT>" ++ fst r)%list; (9%N :: $"<B><DD>" ++ 9%N :: snd r)%list].
Definition page_lines (p : page) : list str :=
  match rows p with
  | [] => []
  | (n, a) :: rs =>
    head p ++ $"<DL>" :: ((anchor p ++ [quote] ++ $"></A><DT>" ++ n)%list) :: (9%N :: $"<B><DD>" ++ 9%N :: a)%list :: flat_map name_lines rs ++ foot p
  end.
Definition page_text (p : page) : str := join [10%N] (page_lines p).
Definition plain (s : str) : Prop := ~ In 60%N s /\ ~ In 10%N s. (* no markup and no newline *)
Definition page_ok (p : page) : Prop :=
  rows p <> [] /\
  (forall l, In l (head p) -> ~ In 10%N l /\ l <> $"<DL>") /\
  ~ In 62%N (anchor p) /\ ~ In 10%N (anchor p) /\
  (forall r, In r (rows p) -> plain (fst r) /\ plain (snd r)) /\
  (forall l, In l (foot p) -> ~ In 10%N l) /\ match foot p with l :: _ => contains $"</B><DT>" l = false | [] => True end.
(** the names listed for an abbreviation, in order *)
Definition names_for (a : str) (rs : list (str * str)) : list str := map fst (filter (fun r => eqb (snd r) a) rs).
(** those of the last page that lists it *)
Fixpoint last_listing (a : str) (ps : list page) : list str :=
  match ps with
  | [] => []
  | p :: ps' => match last_listing a ps' with [] => names_for a (rows p) | l => l end
  end.

(** what the two databases say: the manual one comes first *)
Definition said (wos : dict str str) (manual : option (dict str str)) (j : str) : option str :=
  match manual with
  | Some m => match dget j m with Some t => Some t | None => dget j wos end
  | None => dget j wos
  end.
(** the first of the names separated by bars *)
Definition first_name (t : str) : str := tw (fun x => negb (x =? 124)%N) t.
(** the full name of a journal; it is not a journal if that is empty *)
Definition journal_name (wos : dict str str) (manual : option (dict str str)) (j : option str) : option str :=
  match j with
  | Some (x :: t) => match said wos manual (x :: t) with
                     | Some text => match first_name text with [] => None | n => Some n end
                     | None => None
                     end
  | _ => None
  end.
Definition is_some {A} (o : option A) : bool := match o with Some _ => true | None => false end.
