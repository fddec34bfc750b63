(** C26: ProQuest records. *)
From Coq Require Import List ZArith Lia Bool Arith.
From Coq Require Import String.
From Verif Require Import Base PyStr PyInt ProQuestModel ProQuestSpec ProQuestProofs.
Import ListNotations.
Local Open Scope list_scope.

(** Every tagged line is in the record under its tag, with the lines that continue it; of several with one tag the last; blank lines do not matter. *)
Theorem C26_reading : forall ls name xs rest, any_text name -> Forall said_ok xs ->
  filter (fun l => if eq_dec l [nl] then false else true) ls = map (fun s => s ++ [nl]) (name :: flat_map said_lines xs) ->
  exists d, proquest_parse (ls ++ (repeat 95%N 60 ++ [nl]) :: rest) = (Ok d, rest) /\ forall t, trimmed_list (last_entry t (entries name xs)) (dget t d).
Proof.
  intros ls name xs rest A F FL. destruct (read_doc ls name xs rest A F FL) as (d & P & G). exists d. split; [exact P|]. intros t. rewrite G. destruct (last_entry t (entries name xs)); cbn; [apply map_trimmed|exact Logic.I].
Qed.
(** A file whose records agree with its table of contents is read without error: the records in order, each with its fields. *)
Theorem C26_file : forall content head toc zts x y1 y2 y3 docs ids mores rest,
  lines (translate content) = head ++ flat_map toc_lines toc ++ [x; bib; y1; y2; y3] ++ flat_map (fun xm => doc_lines (fst xm) (snd xm)) (combine docs mores) ++ bib :: rest ->
  length head = 12 -> Forall2 toc_ok toc zts -> NoDup (map fst zts) -> length ids = length docs -> length mores = length docs -> NoDup ids ->
  (forall d id, In (d, id) (combine docs ids) -> doc_ok d /\ doc_value d $"ProQuest document ID" id /\ exists z t, doc_numbered d z /\ doc_value d $"Title" t /\ In (z, t) zts) ->
  exists rs, proquest_file content = Ok (rs, false) /\
    Forall2 (fun di r => pid r = $"PROQUEST:" ++ snd di /\ pbad r = false /\ perr r = None /\ doc_record (fst di) (snd di) (pdata r)) (combine docs ids) rs.
Proof. intros. eapply whole_file; eassumption. Qed.
(** Whatever the file, every record returned has a title that is in the table of contents. *)
Theorem C26_listed : forall content rs e r, proquest_file content = Ok (rs, e) -> In r rs ->
  exists t l, dget $"Title" (pdata r) = Some (t :: l) /\ (t = [] \/ exists n c, In (n ++ $". " ++ t ++ [c]) (lines (translate content))).
Proof.
  intros content rs e r E I1. destruct (file_listed content rs e E r I1) as (t & T & L). unfold title_of in T. destruct (dget $"Title" (pdata r)) as [[|v l]|] eqn:G; try discriminate. injection T as ->. exists t, l. split; [reflexivity|exact L].
Qed.

(** ** An example *)
Definition ex_said : list said :=
  [Author $"Doe, J" $"http://x.org/1"; Field $"Abstract" $"A: b" [$"more of it "]; Field $"Title" $"On: things" []; Field $"ProQuest document ID" $"77" []].
Definition ex_doc : doc := mkDoc $"1" $"1" (map (fun s => s ++ [nl]) [[]; $"On: things"; []; $"Author: Doe, J"; []; $"http://x.org/1"; []; $"Abstract: A: b"; []; $"more of it "; $"Title: On: things"; []; $"ProQuest document ID: 77"; []]) $"On: things" ex_said.
Lemma tag_ok (t : str) : contains $": " (t ++ $":") = false -> (forall c u, t = c :: u -> c <> 104%N) -> t <> [] -> good_ptag t.
Proof.
  intros C H NE. split.
  - intros a b E. assert (C1 : contains $": " (t ++ $":") = true) by (apply contains_spec; eauto). congruence.
  - intros v u E. destruct t as [|c t]; [congruence|]. injection E as E _. apply (H c t eq_refl). exact E.
Qed.
Lemma ex_doc_ok : doc_ok ex_doc.
Proof.
  assert (G : forall t, mem t [$"Abstract"; $"Title"; $"ProQuest document ID"] = true -> good_ptag t).
  { intros t M. apply mem_In in M. destruct M as [<-|[<-|[<-|[]]]]; (apply tag_ok; [reflexivity|intros c u E; injection E as <- _; discriminate|discriminate]). }
  split; [split; discriminate|]. split; [|reflexivity].
  constructor; [split; discriminate|]. constructor; [|constructor; [|constructor; [|constructor]]].
  - split; [discriminate|]. split; [apply G; reflexivity|]. constructor; [|constructor]. split; [discriminate|]. split; [discriminate|]. left. apply mem_not_In. reflexivity.
  - split; [discriminate|]. split; [apply G; reflexivity|constructor].
  - split; [discriminate|]. split; [apply G; reflexivity|constructor].
Qed.
Definition ex_head : list str := repeat ($"x" ++ [nl]) 12.
Definition ex_file : str := concat (ex_head ++ flat_map toc_lines [([nl], $"1", $"On: things")] ++ [[nl]; bib; [nl]; [nl]; [nl]] ++ flat_map (fun xm => doc_lines (fst xm) (snd xm)) [(ex_doc, [nl])] ++ bib :: []).
Example C26_file_example : doc_ok ex_doc /\ doc_numbered ex_doc 1 /\ (exists r, proquest_file ex_file = Ok ([r], false) /\ pid r = $"PROQUEST:77" /\ dget $"Abstract" (pdata r) = Some [$"A: b"; $"more of it"] /\ dget $"url" (pdata r) = Some [$"http://x.org/1"]).
Proof.
  split; [exact ex_doc_ok|]. split.
  - split; [|reflexivity]. intros a b E. assert (C : contains $" of " ($"1" ++ $" of") = true) by (apply contains_spec; eauto). vm_compute in C. discriminate.
  - eexists. split; [vm_compute; reflexivity|]. split; [reflexivity|]. split; reflexivity.
Qed.

(** ** Refutations *)
Definition rec_of (ls : list str) : res pfields := fst (proquest_parse (map (fun s => s ++ [nl]) (ls ++ [repeat 95%N 60]))).
(** A line that continues a field and has a colon begins another field. *)
Theorem C26_colon_refuted : exists d, rec_of [$"N"; $"Abstract: We ask"; $"one question: why"] = Ok d /\ dget $"Abstract" d = Some [$"We ask"] /\ dget $"one question" d = Some [$"why"].
Proof. eexists. split; vm_compute; auto. Qed.
(** Of two lines with one tag only the last is kept. *)
Theorem C26_twice_refuted : exists d, rec_of [$"N"; $"Advisor: A"; $"Advisor: B"] = Ok d /\ dget $"Advisor" d = Some [$"B"].
Proof. eexists. split; vm_compute; auto. Qed.
(** Without a link after the author the next field is taken for the link. *)
Theorem C26_no_link_refuted : exists d, rec_of [$"N"; $"Author: A"; $"Abstract: We ask"; $"Degree: PhD"] = Ok d /\ dget $"Abstract" d = None /\ dget $"url" d = Some [$"Abstract: We ask"].
Proof. eexists. split; vm_compute; auto. Qed.
(** A line after the link, or after the name, that is not tagged is a KeyError, which also leaves the reading of the whole file. *)
Theorem C26_key_refuted : rec_of [$"N"; $"a second line of the name"] = Raise KeyError /\
  proquest_file (concat (ex_head ++ [[nl]; $"1. T" ++ [nl]; [nl]; bib; [nl]; [nl]; [nl]; $"Document 1 of 1" ++ [nl]; $"T" ++ [nl]; $"U" ++ [nl]])) = Raise KeyError.
Proof. split; vm_compute; reflexivity. Qed.
(** A document number that is not in the table of contents likewise. *)
Theorem C26_number_refuted : proquest_file (concat (ex_head ++ flat_map toc_lines [([nl], $"2", $"On: things")] ++ [[nl]; bib; [nl]; [nl]; [nl]] ++ flat_map (fun xm => doc_lines (fst xm) (snd xm)) [(ex_doc, [nl])] ++ bib :: [])) = Raise KeyError.
Proof. vm_compute. reflexivity. Qed.

Print Assumptions C26_reading.
Print Assumptions C26_file.
Print Assumptions C26_listed.
Print Assumptions C26_colon_refuted.
Print Assumptions C26_twice_refuted.
Print Assumptions C26_no_link_refuted.
Print Assumptions C26_key_refuted.
Print Assumptions C26_number_refuted.
