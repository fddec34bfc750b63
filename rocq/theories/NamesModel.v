(** The table of names and genders: metaknowledge/genders/nameGender.py:28-69 (downloadData, getMapping, nameStringGender, recordGenders), and the counts
    made of it by mkRecord.py:677-686 (authGenders) and recordCollection.py:885-892 (genderStats).

    Simplifications: the file of names is its text, decoded without error; what the archive on the server holds, and whether it can be had, is a parameter. *)
From Coq Require Import List ZArith Lia Bool Arith.
From Coq Require Import String.
From Verif Require Import Base PyStr CsvModel AnalysisModel.
Import ListNotations.
Local Open Scope list_scope.

(** a row without a fifth value has None there *)
Definition table := dict str (option str).
(** the file namesData.csv, None if there is none, and the global mappingDict *)
Record names := mkNames { n_file : option str; n_table : option table }.
(** nameGender.py:31-41: the server or the archive fails, or the file cannot be opened; the writing stops after a part of the text, which is then in the file;
    all is written *)
Inductive download := Fails (e : exn) | Stops (part : str) (e : exn) | Gets (text : str).
(** what nameStringGender gives: a gender, or an exception that is returned and not raised (line 63) *)
Inductive answer := Said (g : option str) | Returned (e : exn).

Section Names.
(** str.title *)
Variable title : str -> str.
(** nameGender.py:46-52; DictReader skips empty rows, and next raises StopIteration if there is no row *)
Definition read_names (text : str) : res table :=
  let* rows := csv_rows text in
  match filter (fun r => negb (eqb r [])) rows with
  | [] => Raise StopIteration
  | _ :: rs => Ok (fold_left (fun d r => dset (title (hd [] r)) (nth_error r 4) d) rs [])
  end.
(** nameGender.py:43-52; [net uk] is what downloadData(uk) would do *)
Definition get_mapping (net : bool -> download) (uk : bool) (w : names) : res table * names :=
  match n_file w with
  | Some t => (read_names t, w)
  | None =>
    match net uk with
    | Fails e => (Raise e, w)
    | Stops p e => (Raise e, mkNames (Some p) (n_table w))
    | Gets t => (read_names t, mkNames (Some t) (n_table w))
    end
  end.
Definition look_up (d : table) (given : str) : option str :=
  match dget (title (hd [] (split_char sp given))) d with Some g => g | None => Some $"Unknown" end.
(** nameGender.py:54-66 *)
Definition name_string_gender (net : bool -> download) (s : str) (no_except : bool) (w : names) : res answer * names :=
  match cut2 44%N sp s with
  | _ :: given :: _ =>
    match n_table w with
    | Some d => (Ok (Said (look_up d given)), w)
    | None =>
      match get_mapping net false w with
      | (Raise e, w') => (Raise e, w')
      | (Ok d, w') => (Ok (Said (look_up d given)), mkNames (n_file w') (Some d))
      end
    end
  | _ => (Ok (if no_except then Said (Some $"Unknown") else Returned GenderException), w)
  end.
(** nameGender.py:68-69 *)
Fixpoint record_names (net : bool -> download) (auths : list str) (d : dict str answer) (w : names) : res (dict str answer) * names :=
  match auths with
  | [] => (Ok d, w)
  | a :: auths' =>
    match name_string_gender net a true w with
    | (Raise e, w') => (Raise e, w')
    | (Ok g, w') => record_names net auths' (dset a g d) w'
    end
  end.
(** mkRecord.py:682-685: rawList.count(k) *)
Definition is_gender (k : str) (a : answer) : bool := match a with Said (Some s) => eqb s k | _ => false end.
Definition counts_of (d : dict str answer) : nat * nat * nat :=
  let n k := length (filter (is_gender k) (dvals d)) in (n $"Male", n $"Female", n $"Unknown").
(** recordCollection.py:885-892; each record is its authorsFull *)
Fixpoint stats_of (net : bool -> download) (rs : list (list str)) (c : nat * nat * nat) (w : names) : res (nat * nat * nat) * names :=
  match rs with
  | [] => (Ok c, w)
  | r :: rs' =>
    match record_names net r [] w with
    | (Raise e, w') => (Raise e, w')
    | (Ok d, w') => let '(m, f, u) := c in let '(m', f', u') := counts_of d in stats_of net rs' (m + m', f + f', u + u') w'
    end
  end.
(** What can happen one after the other: a question, with what a download would then do, somebody changes or removes the file, the interpreter is started anew. *)
Inductive event := Ask (net : bool -> download) (s : str) (no_except : bool) | Change (f : option str) | Restart.
(** the answers to the questions and what is left *)
Fixpoint run (es : list event) (w : names) : list (res answer) * names :=
  match es with
  | [] => ([], w)
  | Ask net s ne :: es' => let (a, w') := name_string_gender net s ne w in let (l, w'') := run es' w' in (a :: l, w'')
  | Change f :: es' => run es' (mkNames f (n_table w))
  | Restart :: es' => run es' (mkNames (n_file w) None)
  end.
End Names.
