(** * C29, C50, C57: journal names. *)
From Coq Require Import String Permutation.
From Verif Require Import Base PyStr Span JournalModel JournalSpec JournalProofs.
Set Implicit Arguments.

Definition fresh (w : dict str str) (m : option (dict str str)) : session := {| wos_db := w; manual_db := m; abbrev := None |}.

(** C29: filtering keeps the citations of known journals, its inverse the others, both in order *)
Theorem C29_partition {C} pages (journal_of : C -> option str) (w : dict str str) (m : option (dict str str)) (cites : list C) :
  w <> [] -> NoDup (dkeys w) -> manual_ok m ->
  let a := filter (fun c => is_some (journal_name w m (journal_of c))) cites in
  let b := filter (fun c => negb (is_some (journal_name w m (journal_of c)))) cites in
  snd (filter_non_journals pages journal_of (fresh w m) cites false) = Ok a /\
  snd (filter_non_journals pages journal_of (fresh w m) cites true) = Ok b /\ Permutation (a ++ b) cites.
Proof.
  intros NE NW NM a b. destruct (@load_fresh pages w m NE NW NM) as [d [L G]]. unfold filter_non_journals.
  assert (H : forall c, In c cites -> exists r, is_journal_in d (journal_of c) = Ok r /\ is_some (journal_name w m (journal_of c)) = is_some r).
  { intros c _. rewrite (@is_journal_in_said w m d (journal_of c) G). eauto. }
  assert (R : forall invert, snd (filter_loop pages journal_of invert (fresh w m) cites []) = Ok (filter (fun c => xorb invert (is_some (journal_name w m (journal_of c)))) cites)).
  { intros invert. destruct cites as [|c l]; [reflexivity|]. rewrite (@filter_loop_load C pages journal_of invert (fresh w m) _ d L) by discriminate.
    rewrite (@filter_loop_ok C pages journal_of invert d {| wos_db := w; manual_db := m; abbrev := Some d |} eq_refl (c :: l) (fun c => is_some (journal_name w m (journal_of c))) H). reflexivity. }
  rewrite (R false), (R true). split; [|split].
  - f_equal. apply filter_ext. intros c. destruct (is_some _); reflexivity.
  - f_equal.
  - apply partition_permutation.
Qed.
Print Assumptions C29_partition.
Example partition_case :
  let w := [($"NATURE", $"Nature"); ($"J", $"Journal|Other")] in
  w <> [] /\ NoDup (dkeys w) /\ manual_ok (Some [($"J", $"")]) /\
  snd (filter_non_journals [] (fun j => Some j) (fresh w (Some [($"J", $"")])) [$"J"; $"NATURE"; $"X"] false) = Ok [$"NATURE"].
Proof.
  repeat split; try discriminate; try (vm_compute; reflexivity); try (cbn; repeat constructor; cbn; intuition discriminate).
Qed.
(** what is missing: after a citation's addToDB(invert = True) the check of that journal fails *)
Theorem C29_excluded_refuted : exists st st' : session,
  cite_add st $"J" None true = (st', None) /\ (exists w m, snd (load [] (fresh w m)) = Ok [($"J", Names [$"Journal"])] /\ st = fst (load [] (fresh w m))) /\
  snd (filter_non_journals [] (fun j => Some j) st' [$"J"] false) = Raise IndexError.
Proof.
  exists (fst (load [] (fresh [($"J", $"Journal")] None))). eexists. split; [vm_compute; reflexivity|]. split.
  - exists [($"J", $"Journal")], None. vm_compute. auto.
  - vm_compute. reflexivity.
Qed.
Print Assumptions C29_excluded_refuted.

(** C57: a new process sees what was added or excluded; the manual database comes first *)
Theorem C57_supersedes pages (w : dict str str) (m : option (dict str str)) (abbr : dict str str) (j : option str) :
  w <> [] -> NoDup (dkeys w) -> manual_ok m -> NoDup (dkeys abbr) ->
  snd (is_journal pages (fresh w (addToDB abbr m)) j) =
    Ok (match j with
        | Some (x :: t) => match dget (x :: t) abbr with
                           | Some text => match first_name text with [] => None | n => Some n end
                           | None => journal_name w m j
                           end
        | _ => None
        end).
Proof.
  intros NE NW NM NA. assert (NM' : manual_ok (addToDB abbr m)) by (unfold addToDB, manual_ok; apply NoDup_dupdate; destruct m; [exact NM|constructor]).
  destruct (@load_fresh pages w _ NE NW NM') as [d [L G]]. unfold is_journal. unfold fresh. rewrite L. cbn [snd].
  rewrite (@is_journal_in_said w _ d j G). f_equal. unfold journal_name. destruct j as [[|x t]|]; try reflexivity.
  unfold said, addToDB. rewrite (@dget_dupdate _ _ _ (x :: t) _ abbr NA). destruct (dget (x :: t) abbr); [reflexivity|].
  destruct m; reflexivity.
Qed.
Print Assumptions C57_supersedes.
Theorem C57_excluded pages (w : dict str str) (m : option (dict str str)) (l : list str) (j : str) :
  w <> [] -> NoDup (dkeys w) -> manual_ok m -> NoDup l ->
  snd (is_journal pages (fresh w (excludeFromDB l m)) (Some j)) = Ok (if mem j l then None else journal_name w m (Some j)).
Proof.
  intros NE NW NM NL. unfold excludeFromDB. rewrite C57_supersedes; [|exact NE|exact NW|exact NM|].
  - f_equal. assert (G : dget j (map (fun a : str => (a, @nil char)) l) = if mem j l then Some [] else None).
    { clear. unfold mem. induction l as [|a l IH]; cbn [map dget existsb]; [reflexivity|].
      destruct (eqb j a); [reflexivity|exact IH]. }
    destruct (mem j l); destruct j as [|x t]; try reflexivity; cbv iota beta.
    + match goal with |- context [dget ?k ?d] => replace (dget k d) with (Some (@nil char)) by (symmetry; exact G) end. reflexivity.
    + match goal with |- context [dget ?k (map ?f ?d)] => replace (dget k (map f d)) with (@None str) by (symmetry; exact G) end. reflexivity.
  - unfold dkeys. rewrite map_map. cbn [fst]. rewrite map_id. exact NL.
Qed.
Print Assumptions C57_excluded.
(** in the running process: a journal added with a non-empty name is one, and nothing changes for the others *)
Theorem C57_session_partial pages (st st' : session) (j : str) (name : option str) : j <> [] -> name <> Some [] ->
  cite_add st j name false = (st', None) ->
  (exists n, snd (is_journal pages st' (Some j)) = Ok (Some n)) /\
  (forall k, k <> Some j -> is_journal pages st' k = (st', snd (is_journal pages st k))).
Proof.
  intros NJ NN. unfold cite_add. destruct (abbrev st) as [d|] eqn:A; [|discriminate]. intros E. injection E as <-.
  split.
  - unfold is_journal, load. cbn [abbrev snd]. unfold is_journal_in. destruct j as [|x t]; [congruence|]. rewrite dget_dset_same.
    destruct name as [[|y u]|]; [exfalso; apply NN; reflexivity|eexists; reflexivity|eexists; reflexivity].
  - intros k NK. unfold is_journal, load. rewrite A. cbn [abbrev snd]. f_equal. unfold is_journal_in. destruct k as [[|x t]|]; try reflexivity.
    rewrite dget_dset_other by congruence. reflexivity.
Qed.
Print Assumptions C57_session_partial.
Example session_case : exists st', cite_add (fst (load [] (fresh [($"J", $"Journal")] None))) $"NEW" (Some $"New Things") false = (st', None).
Proof. eexists. vm_compute. reflexivity. Qed.
(** what is missing: the full name is then a single letter; and a citation cannot add its journal before the databases are read *)
Theorem C57_full_name_refuted : exists st st', cite_add st $"NEW" (Some $"New Things") false = (st', None) /\ snd (full_journal_name [] st' (Some $"NEW")) = Ok (Some $"N").
Proof. exists (fst (load [] (fresh [($"J", $"Journal")] None))). eexists. split; vm_compute; reflexivity. Qed.
Print Assumptions C57_full_name_refuted.
Theorem C57_first_refuted (w : dict str str) (m : option (dict str str)) (j : str) (name : option str) (invert : bool) :
  snd (cite_add (fresh w m) j name invert) = Some AttributeError.
Proof. reflexivity. Qed.
Print Assumptions C57_first_refuted.
(** but it is in the database all the same *)
Theorem C57_stored (st st' : session) (j : str) (name : option str) (invert : bool) (e : option exn) :
  cite_add st j name invert = (st', e) ->
  manual_db st' = addToDB [(j, if invert then [] else match name with Some n => n | None => j end)] (manual_db st) /\ wos_db st' = wos_db st.
Proof.
  unfold cite_add. destruct (abbrev st); intros E; injection E as <- _; cbn [manual_db wos_db]; destruct name; auto.
Qed.
Print Assumptions C57_stored.

(** C50: every abbreviation on the pages is in the database after the update and nothing that was there changes; a new
    abbreviation gets all names of the last page that lists it *)
Theorem C50_update_partial (ps : list page) (db : dict str str) : Forall page_ok ps ->
  exists db', updatej9DB (map (fun p => Ok (page_text p)) ps) db = Ok db' /\
    (forall a t, dget a db = Some t -> dget a db' = Some t) /\
    (forall a, dget a db = None -> dget a db' = match last_listing a ps with [] => None | names => Some (join [124%N] names) end).
Proof.
  intros F. destruct (@update_ok ps db F) as [db' [E G]]. exists db'. split; [exact E|]. split; intros a.
  - intros t H. rewrite G, H. reflexivity.
  - intros H. rewrite G, H. reflexivity.
Qed.
Print Assumptions C50_update_partial.
Definition a_page : page := {| head := [$"<HTML>"]; anchor := $"<A NAME=A"; rows := [($"Acta One", $"ACTA"); ($"Acta Two", $"ACTA"); ($"Bees", $"BEES")]; foot := [$"</DL>"; $"</HTML>"] |}.
Example a_page_ok : page_ok a_page.
Proof.
  unfold page_ok, a_page, plain. cbn [rows head anchor foot]. repeat split; try discriminate.
  all: try (vm_compute; reflexivity).
  all: try (intros l [<-|[]]; split; [apply (@mem_not_In char _); reflexivity|discriminate]).
  all: try (apply (@mem_not_In char _); reflexivity).
  all: try (intros l [<-|[<-|[]]]; apply (@mem_not_In char _); reflexivity).
  all: try (destruct H as [<-|[<-|[<-|[]]]]; apply (@mem_not_In char _); reflexivity).
  all: destruct H as [<-|[]]; try discriminate; apply (@mem_not_In char _); reflexivity.
Qed.
Example update_case : updatej9DB [Ok (page_text a_page)] [($"BEES", $"Old Bees")] = Ok [($"BEES", $"Old Bees"); ($"ACTA", $"Acta One|Acta Two")].
Proof. vm_compute. reflexivity. Qed.
(** what is missing: a new name of an abbreviation that is already there is never added, nor are the names of an earlier page *)
Theorem C50_new_name_refuted : exists (ps : list page) (db db' : dict str str), Forall page_ok ps /\
  updatej9DB (map (fun p => Ok (page_text p)) ps) db = Ok db' /\ In ($"Bees", $"BEES") (flat_map rows ps) /\ dget $"BEES" db' = Some $"Old Bees".
Proof.
  exists [a_page], [($"BEES", $"Old Bees")], [($"BEES", $"Old Bees"); ($"ACTA", $"Acta One|Acta Two")].
  split; [constructor; [exact a_page_ok|constructor]|]. split; [exact update_case|]. split; [vm_compute; auto|reflexivity].
Qed.
Print Assumptions C50_new_name_refuted.
