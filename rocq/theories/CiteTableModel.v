(** Model of the tables of citations: metaknowledge/mkRecord.py 546-589 (Record.getCitations) and 792-832 (_pandasPrep),
    metaknowledge/recordCollection.py 900-940 (RecordCollection.getCitations). *)
From Coq Require Import List ZArith Lia Bool Arith.
From Coq Require Import String.
From Verif Require Import Base PyStr AnalysisModel.
Import ListNotations.
Local Open Scope list_scope.

(** ** Which citations *)
Section Pick.
Context {R V : Type} `{EqDec V}.
(** R.get('citations'): None if the record has no such field *)
Variable cites : R -> option (list cite).
(** a field to look for, as the attribute it reads; a value is None or something *)
Definition field : Type := option (cite -> attr V).
Definition attr_value {A} (a : attr A) : option (option A) :=
  match a with Lacks => None | Empty => Some None | Has x => Some (Some x) end.
(** mkRecord.py:578-584 for one citation; [values] is already a container (mkRecord.py:574-576) *)
Definition wanted (get : cite -> attr V) (values : option (list (option V))) (c : cite) : bool :=
  match attr_value (get c) with
  | None => false
  | Some v => match values with None => true | Some vs => mem v vs end
  end.
(** mkRecord.py:573-589 with pandasFriendly = False; without a field the values are not looked at *)
Definition rec_citations (fld : field) (values : option (list (option V))) (r : R) : list cite :=
  let cs := match cites r with Some cs => cs | None => [] end in
  match fld with
  | Some get => filter (wanted get values) cs
  | None => cs
  end.
(** recordCollection.py:931-936 *)
Fixpoint col_citations (fld : field) (values : option (list (option V))) (rs : list R) : list cite :=
  match rs with
  | [] => []
  | r :: rs' => rec_citations fld values r ++ col_citations fld values rs'
  end.
End Pick.

(** ** The set of citations *)
(** set(cites): of equal citations the one added first is kept *)
Fixpoint cite_set (seen cs : list cite) : list cite :=
  match cs with
  | [] => []
  | c :: cs' => if existsb (same_cite c) seen then cite_set seen cs' else c :: cite_set (c :: seen) cs'
  end.

(** ** The table *)
(** keys of countsDict: citations, by their ID, and years, which may be None *)
Inductive ckey := KCite (id : str) | KYear (y : option Z).
#[global] Instance EqDec_ckey : EqDec ckey.
Proof. intros x y; unfold EqDec; decide equality; apply eq_dec. Defined.
(** the columns; a fraction is the pair of its numerator and its denominator. Where the counts are off the last three stay empty *)
Record cols := {
  t_text : list str; t_year : list (option Z); t_journal : list (option str); t_author : list (option str);
  t_num : list nat; t_overall : list (nat * nat); t_in_year : list (option (nat * nat)) }.
Definition no_cols : cols := {| t_text := []; t_year := []; t_journal := []; t_author := []; t_num := []; t_overall := []; t_in_year := [] |}.
(** mkRecord.py:817-821: the value of an attribute, None if there is no such attribute *)
Definition shown {A} (a : attr A) : option A := match a with Has x => Some x | _ => None end.
(** mkRecord.py:798-812 *)
Fixpoint cite_counts (cs : list cite) (d : dict ckey nat) : dict ckey nat :=
  match cs with
  | [] => d
  | c :: cs' =>
    let d := dincr (KCite (q_id c)) d in
    match attr_value (q_year c) with
    | None => cite_counts cs' d
    | Some y => cite_counts cs' (dincr (KYear y) d)
    end
  end.
(** a / b *)
Definition divide (a b : nat) : res (nat * nat) := if b =? 0 then Raise ZeroDivisionError else Ok (a, b).
Definition look {K} `{EqDec K} (k : K) (d : dict K nat) : res nat := match dget k d with Some n => Ok n | None => Raise KeyError end.
Section Table.
(** str(c): the text it was made of *)
Variable counts : bool.
(** mkRecord.py:815-831: the rows of the citations of a set in the order in which it is walked *)
Fixpoint cite_rows (d : dict ckey nat) (tot : nat) (l : list cite) (t : cols) : res cols :=
  match l with
  | [] => Ok t
  | c :: l' =>
    let text := t_text t ++ [q_original c] in
    let year := t_year t ++ [shown (q_year c)] in
    let journal := t_journal t ++ [shown (q_journal c)] in
    let author := t_author t ++ [shown (q_author c)] in
    if counts then
      let* n := look (KCite (q_id c)) d in
      let* f := divide n tot in
      let* g := match attr_value (q_year c) with
                | None => Ok None
                | Some y => let* m := look (KYear y) d in let* q := divide n m in Ok (Some q)
                end in
      cite_rows d tot l' {| t_text := text; t_year := year; t_journal := journal; t_author := author;
                            t_num := t_num t ++ [n]; t_overall := t_overall t ++ [f]; t_in_year := t_in_year t ++ [g] |}
    else cite_rows d tot l' {| t_text := text; t_year := year; t_journal := journal; t_author := author;
                               t_num := t_num t; t_overall := t_overall t; t_in_year := t_in_year t |}
  end.
(** the order in which a set is walked *)
Variable order : list cite -> list cite.
(** mkRecord.py:792-832 *)
Definition pandas_prep (cs : list cite) : res cols :=
  cite_rows (if counts then cite_counts cs [] else []) (length cs) (order (cite_set [] cs)) no_cols.
End Table.
(** recordCollection.py:937-938 *)
Definition cite_table {R V} `{EqDec V} (cites : R -> option (list cite)) (counts : bool) (order : list cite -> list cite) (fld : field) (values : option (list (option V))) (rs : list R) : res cols :=
  pandas_prep counts order (col_citations cites fld values rs).
(** recordCollection.py:940 *)
Definition cite_list {R V} `{EqDec V} (cites : R -> option (list cite)) (order : list cite -> list cite) (fld : field) (values : option (list (option V))) (rs : list R) : list cite :=
  order (cite_set [] (col_citations cites fld values rs)).
(** mkRecord.py:588 *)
Definition rec_table {R V} `{EqDec V} (cites : R -> option (list cite)) (order : list cite -> list cite) (fld : field) (values : option (list (option V))) (r : R) : res cols :=
  pandas_prep false order (rec_citations cites fld values r).
