(** C68: the csv file of a collection. *)
From Coq Require Import List ZArith Lia Bool Arith.
From Coq Require Import String.
From Verif Require Import Base PyStr Nx SeriesSpec JournalProofs CsvModel CsvProofs WriteCsvModel WriteCsvSpec WriteCsvProofs WriteCsvProofs2.
Import ListNotations.
Local Open Scope list_scope.

(** what must be so for the file to be read back: the columns are different and there is one at least, and no text has a carriage
    return or a zero byte or is longer than what the csv module reads *)
Definition readable {R} (get : R -> str -> option wval) (o : wopts) (rs : list R) (n : R -> nat) (g : R -> nat * nat * nat) (columns : list str) : Prop :=
  columns <> [] /\ NoDup columns /\ Forall clean columns /\ (forall r k, In r rs -> In k columns -> clean (cell_is get o r (n r) (g r) k)).
(** what the counts of a record are *)
Definition counts_of {R} (get : R -> str -> option wval) (genders : R -> res (nat * nat * nat)) (o : wopts) (rs : list R) (n : R -> nat) (g : R -> nat * nat * nat) : Prop :=
  forall r, In r rs ->
    (w_num o = true -> match get r $"authorsShort" with None => n r = 0 | Some (WMany l) => n r = length l | Some (WText s) => n r = length s | _ => False end) /\
    (w_gender o = true -> genders r = Ok (g r)).
Lemma counts_right {R} (get : R -> str -> option wval) genders o rs n g : counts_of get genders o rs n g -> forall r, In r rs -> right_counts get genders o r (n r) (g r).
Proof. intros C r I. destruct (C r I) as [A B]. split; [|exact B]. intros W. specialize (A W). unfold num_authors. destruct (get r $"authorsShort") as [[s|l| |s]|]; try contradiction; rewrite A; reflexivity. Qed.
(** the tags to be first are different; this is not needed when only some tags are asked for *)
Definition first_different (to_tag : dict str str) (o : wopts) : Prop :=
  w_only o = [] -> NoDup (map (tag_of to_tag) match w_first o with Some l => l | None => [$"id"; $"title"; $"authorsFull"; $"citations"; $"keywords"; $"DOI"] end).

(** A csv reader gets back one row for each record, in order, with the columns asked for: the fields, those to be first before the
    others, by their short or long names, the number of authors and the genders; each cell is the text of the value, the values of a list
    joined by the delimiter. *)
Theorem C68_file_partial : forall {R} to_tag to_full (keys : R -> list str) get genders o rs n g fields,
  first_different to_tag o -> (forall r, In r rs -> NoDup (keys r)) -> counts_of get genders o rs n g ->
  named to_full o (fields_shown to_tag keys o rs) fields -> readable get o rs n g (fields ++ extra_columns o) ->
  exists text p, write_csv to_tag to_full keys get genders o rs = Ok (text, p) /\
    dict_reader text = Ok (map (fun r => map (fun k => (k, VStr (cell_is get o r (n r) (g r) k))) (fields ++ extra_columns o)) rs).
Proof.
  intros R to_tag to_full keys get genders o rs n g fields FD KD C NM (NE & ND & CH & CC). apply write_ok; auto. apply counts_right, C.
Qed.
(** With long names a field that has none makes the function raise. *)
Theorem C68_long : forall {R} to_tag to_full (keys : R -> list str) get genders o rs t,
  first_different to_tag o -> (forall r, In r rs -> NoDup (keys r)) -> w_long o = true ->
  In t (fields_shown to_tag keys o rs) -> dget t to_full = None -> write_csv to_tag to_full keys get genders o rs = Raise KeyError.
Proof. intros R to_tag to_full keys get genders o rs t FD KD WL I N. unfold write_csv. rewrite (plan_bad to_tag to_full keys o rs FD KD t WL I N). reflexivity. Qed.
(** A list is got back from its cell if it has an element and none has the delimiter in it, ... *)
Theorem C68_list_partial : forall bar l, l <> [] -> (forall s, In s l -> ~ In bar s) -> split_char bar (text_of [bar] (Some (WMany l))) = l.
Proof. intros bar l NE N. cbn [text_of]. apply (@split_join bar l NE N). Qed.
(** ... otherwise two lists can have the same cell. *)
Theorem C68_list_refuted : ~ forall bar l m, text_of [bar] (Some (WMany l)) = text_of [bar] (Some (WMany m)) -> l = m.
Proof. intros H. specialize (H 124%N [$"a|b"] [$"a"; $"b"] eq_refl). vm_compute in H. discriminate. Qed.

(** Divided by a tag whose values are different in their first 200 characters: there is one file for each value, named after it, and
    reading it gives the rows of the records that have the value, as often as they have it, and of no other. *)
Theorem C68_split_partial : forall {R} to_tag to_full (keys : R -> list str) get genders split_val o base rs n g fields,
  first_different to_tag o -> (forall r, In r rs -> NoDup (keys r)) -> counts_of get genders o rs n g ->
  named to_full o (fields_shown to_tag keys o rs) fields -> readable get o rs n g (fields ++ extra_columns o) ->
  let values r := match split_val r with Some l => l | None => [] end in
  (forall u v, In u (flat_map values rs) -> In v (flat_map values rs) -> firstn 200 u = firstn 200 v -> u = v) ->
  exists disk p, write_split to_tag to_full keys get genders split_val o base rs = Ok (disk, p) /\
    dkeys disk = map (fun v => firstn 200 v ++ $"-" ++ base) (first_seen (flat_map values rs)) /\
    forall v, In v (flat_map values rs) -> exists text, dget (firstn 200 v ++ $"-" ++ base) disk = Some text /\
      dict_reader text = Ok (map (fun r => map (fun k => (k, VStr (cell_is get o r (n r) (g r) k))) (fields ++ extra_columns o))
                                 (flat_map (fun r => repeat r (count v (values r))) rs)).
Proof.
  intros R to_tag to_full keys get genders split_val o base rs n g fields FD KD C NM (NE & ND & CH & CC) values INJ.
  apply (split_ok to_tag to_full keys get genders o rs FD KD fields NM n g (counts_right _ _ _ _ _ _ C) NE ND CH CC split_val base INJ).
Qed.

(** What the lists of the caller are after the call: the names in them have become tags, and the list of tags to be first has got all the other fields
    if no tags are asked for, and also the columns of the genders if neither the number of authors nor long names are asked for. *)
Theorem C68_caller : forall {R} to_tag to_full (keys : R -> list str) get genders o rs text p,
  first_different to_tag o -> (forall r, In r rs -> NoDup (keys r)) -> write_csv to_tag to_full keys get genders o rs = Ok (text, p) ->
  p_only p = map (tag_of to_tag) (w_only o) /\
  (w_only o <> [] -> p_first p = map (tag_of to_tag) match w_first o with Some l => l | None => [$"id"; $"title"; $"authorsFull"; $"citations"; $"keywords"; $"DOI"] end) /\
  (w_only o = [] -> p_first p = fields_shown to_tag keys o rs ++
    (if w_gender o then if w_num o then [] else if w_long o then [] else [$"num-Male"; $"num-Female"; $"num-Unknown"] else [])).
Proof.
  intros R to_tag to_full keys get genders o rs text p FD KD E. unfold write_csv in E. destruct (write_plan to_tag to_full keys o rs) as [q|] eqn:W; [|discriminate]. cbn [bind] in E.
  assert (q = p) as ->. { destruct (rec_dicts _ _ _ _ _) as [ds|]; [|discriminate]. cbn [bind] in E. destruct (csv_file _ ds) as [tx|]; [|discriminate]. cbn [bind] in E. congruence. }
  clear E. unfold write_plan in W. rewrite (fields_spec to_tag keys o rs FD KD) in W. destruct (if w_long o then _ else _) as [long|]; [|discriminate]. cbn [bind] in W.
  destruct (w_num o); injection W as <-; cbn [p_only p_first]; (split; [reflexivity|]); split.
  - intros NE. destruct (w_only o); [congruence|]. reflexivity.
  - intros ->. destruct (w_gender o); rewrite app_nil_r; reflexivity.
  - intros NE. destruct (w_only o); [congruence|]. reflexivity.
  - intros ->. cbn [orb]. destruct (w_long o), (w_gender o); rewrite ?app_nil_r; reflexivity.
Qed.
Section Example.
Definition tags : dict str str := [($"id", $"UT"); ($"title", $"TI")].
Definition fulls : dict str str := [($"UT", $"id"); ($"TI", $"title"); ($"DE", $"keywords"); ($"authorsFull", $"authors"); ($"citations", $"citations"); ($"keywords", $"keys"); ($"DOI", $"DOI")].
Definition ex_keys (b : bool) : list str := if b then [$"UT"; $"TI"; $"DE"] else [$"UT"; $"DE"; $"PY"].
Definition ex_get (b : bool) (k : str) : option wval :=
  if eqb k $"UT" then Some (WText (if b then $"WOS:1" else $"WOS:2"))
  else if eqb k $"DE" then Some (WMany (if b then [$"x"; $"y ""z"""] else [$"x"]))
  else if b then (if eqb k $"TI" then Some (WText $"A, b") else None) else if eqb k $"PY" then Some (WOther $"1990") else None.
Definition ex_o : wopts := {| w_only := []; w_num := true; w_gender := true; w_long := false; w_first := Some [$"id"; $"title"]; w_bar := $"|" |}.
Definition ex_g (b : bool) : nat * nat * nat := (if b then 1 else 0, 2, 3).
Definition q : str := [quote].
Example C68_ex : write_csv tags fulls ex_keys ex_get (fun b => Ok (ex_g b)) ex_o [true; false] = Ok
  (join (q ++ [cr; nl] ++ q) [join (q ++ $"," ++ q) [q ++ $"UT"; $"TI"; $"DE"; $"PY"; $"num-Authors"; $"num-Male"; $"num-Female"; $"num-Unknown"];
         join (q ++ $"," ++ q) [$"WOS:1"; $"A, b"; $"x|y """"z"""""; $""; $"0"; $"1"; $"2"; $"3"];
         join (q ++ $"," ++ q) [$"WOS:2"; $""; $"x"; $"1990"; $"0"; $"0"; $"2"; $"3" ++ q] ++ [cr; nl]],
   {| p_retrieved := [$"UT"; $"TI"; $"DE"; $"PY"]; p_header := [$"UT"; $"TI"; $"DE"; $"PY"; $"num-Authors"; $"num-Male"; $"num-Female"; $"num-Unknown"];
      p_first := [$"UT"; $"TI"; $"DE"; $"PY"]; p_only := [] |}).
Proof. vm_compute. reflexivity. Qed.
Example C68_ex_hyps : first_different tags ex_o /\ (forall r, In r [true; false] -> NoDup (ex_keys r)) /\ counts_of ex_get (fun b => Ok (ex_g b)) ex_o [true; false] (fun _ => 0) ex_g
  /\ named fulls ex_o (fields_shown tags ex_keys ex_o [true; false]) [$"UT"; $"TI"; $"DE"; $"PY"]
  /\ readable ex_get ex_o [true; false] (fun _ => 0) ex_g ([$"UT"; $"TI"; $"DE"; $"PY"] ++ extra_columns ex_o).
Proof.
  assert (CL : forall s, forallb (fun c => negb (eqb c cr) && negb (eqb c 0%N)) s && (N.of_nat (length s) <=? field_limit)%N = true -> clean s).
  { intros s E. apply andb_true_iff in E. destruct E as [E L]. rewrite forallb_forall in E. split; [|split].
    - intros I. specialize (E _ I). rewrite eqb_refl in E. discriminate.
    - intros I. specialize (E _ I). rewrite (eqb_refl 0%N), andb_false_r in E. discriminate.
    - apply N.leb_le, L. }
  split; [|split; [|split; [|split]]].
  - intros _. apply nodupb_NoDup. reflexivity.
  - intros [|] _; apply nodupb_NoDup; reflexivity.
  - intros r _. split; [intros _; destruct r; reflexivity|reflexivity].
  - vm_compute. reflexivity.
  - split; [discriminate|]. split; [apply nodupb_NoDup; reflexivity|]. split.
    + apply Forall_forall. intros k I. apply CL. cbn in I. repeat destruct I as [<-|I]; try destruct I; reflexivity.
    + intros r k _ I. apply CL. cbn in I. destruct r; repeat destruct I as [<-|I]; try destruct I; vm_compute; reflexivity.
Qed.
(** by keyword: the record with two of them is in both files *)
Example C68_ex_split : exists disk p, write_split tags fulls ex_keys ex_get (fun b => Ok (ex_g b)) (fun b => Some (if b then [$"x"; $"y"] else [$"x"])) ex_o $"f.csv" [true; false] = Ok (disk, p) /\
  dkeys disk = [$"x-f.csv"; $"y-f.csv"].
Proof. eexists. eexists. split; vm_compute; reflexivity. Qed.
(** Values that are the same in their first 200 characters have the same file, and the rows of one of them are lost. *)
Definition long_value (b : bool) : str := repeat 97%N 200 ++ (if b then $"1" else $"2").
Theorem C68_split_refuted : exists (split_val : bool -> option (list str)) disk p, (forall r, split_val r = Some [long_value r]) /\ long_value true <> long_value false /\
  write_split tags fulls ex_keys ex_get (fun b => Ok (ex_g b)) split_val ex_o $"f.csv" [true; false] = Ok (disk, p) /\ length (dkeys disk) = 1 /\
  forall text rows, dget (firstn 200 (long_value true) ++ $"-f.csv") disk = Some text -> dict_reader text = Ok rows ->
    ~ exists row, In row rows /\ dget $"UT" row = Some (VStr $"WOS:1").
Proof.
  exists (fun r => Some [long_value r]). eexists. eexists. split; [reflexivity|]. split; [vm_compute; discriminate|]. split; [vm_compute; reflexivity|]. split; [reflexivity|].
  intros text rows E1 E2. vm_compute in E1. injection E1 as <-. vm_compute in E2. injection E2 as <-. intros (row & I & G). cbn in I. repeat destruct I as [<-|I]; try destruct I; vm_compute in G; discriminate.
Qed.
(** The lists of the caller are changed: names become tags, and unless only some tags are asked for all the other fields of the records are
    added to the tags to be first, so that a second call with the same list shows the fields of other records. *)
Theorem C68_caller_refuted : ~ forall o rs text p l, w_first o = Some l -> write_csv tags fulls ex_keys ex_get (fun b => Ok (ex_g b)) o rs = Ok (text, p) -> p_first p = l.
Proof. intros H. specialize (H ex_o [true; false] _ _ _ eq_refl eq_refl). vm_compute in H. discriminate. Qed.
End Example.
Print Assumptions C68_file_partial.
Print Assumptions C68_long.
Print Assumptions C68_list_partial.
Print Assumptions C68_list_refuted.
Print Assumptions C68_split_partial.
Print Assumptions C68_split_refuted.
Print Assumptions C68_caller.
Print Assumptions C68_caller_refuted.
