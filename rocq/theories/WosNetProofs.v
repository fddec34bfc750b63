(** Proofs for C94. *)
From Coq Require Import List ZArith Lia Bool Arith.
From Coq Require Import String.
From Verif Require Import Base PyStr CitationModel CitationSpec TagNames RecordModel RecordProofs GrantModel ValuesModel PropertiesCitation PropertiesValues WosModel WosNetModel WosNetSpec.
Import ListNotations.
Local Open Scope list_scope.

(** the fields of a record read from a file, none of them named j9 *)
Definition plain (r : wrec) : Prop :=
  Forall (fun e : str * list str => length (fst e) = 2 /\ snd e <> []) (wfields r) /\ NoDup (dkeys (wfields r)) /\ ~ In $"j9" (dkeys (wfields r)).

Section Proofs.
Variables upper lower title : str -> str.
Variable all_digits : str -> bool.
Variable r : wrec.
Hypothesis P : plain r.
Notation cl := (kind_of upper lower title all_digits r).
Notation fd := (wfields r).
Notation val_of := (wos_value upper lower title all_digits).

Lemma field_two k v : dget k fd = Some v -> length k = 2 /\ v <> [] /\ k <> $"j9".
Proof.
  intros D. destruct P as (F & _ & NJ). pose proof (dget_In _ _ D) as I. pose proof (proj1 (Forall_forall _ _) F _ I) as (A & B). split; [exact A|]. split; [exact B|].
  intros ->. apply NJ. apply (in_map fst) in I. exact I.
Qed.
Lemma names_long : forallb (fun p : str * str => if length (fst p) =? 2 then negb (length (snd p) =? 2) || eqb (snd p) $"j9" || eqb (fst p) $"j9" else true) wos_names = true.
Proof. vm_compute. reflexivity. Qed.
Lemma fields_back : forall k a, dget k fd <> None -> alt cl k = Some a -> alt cl a = Some k /\ (dget a fd = None \/ a = k).
Proof.
  intros k a D A. cbn [alt kind_of wos_class] in *. split; [apply wos_back, A|]. left. destruct (dget k fd) as [v|] eqn:E; [|congruence]. destruct (field_two _ _ E) as (L & _ & NJ).
  destruct (dget a fd) as [w|] eqn:F; [|reflexivity]. exfalso. destruct (field_two _ _ F) as (L' & _ & NJ'). unfold wos_alt in A. apply dget_In in A.
  pose proof (proj1 (forallb_forall _ _) names_long _ A) as Q. cbn [fst snd] in Q. rewrite L, L' in Q. rewrite (neq_eqb NJ), (neq_eqb NJ') in Q. discriminate Q.
Qed.
Lemma special_alone : forall k, special cl k <> None -> alt cl k = None.
Proof.
  intros k. unfold kind_of, wos_class. cbn [special alt]. repeat (match goal with |- context [eqb k ?x] => destruct (eqb_spec k x) as [->|] end; [reflexivity|]). intros X. destruct (X eq_refl).
Qed.
Lemma value_named n key tag : wos_alt key = Some tag -> length key <> 2 \/ key = $"j9" -> special cl key = None -> dhas tag wos_tags = true ->
  value cl fd (S n) key = Some (match dget tag fd with Some raw => val_of tag raw | None => Raise KeyError end).
Proof.
  intros A L S T. cbn [value]. assert (N : dget key fd = None). { destruct (dget key fd) as [v|] eqn:E; [|reflexivity]. destruct (field_two _ _ E) as (X & _ & Y). destruct L; contradiction. }
  unfold resolve. rewrite N. change (alt cl key) with (wos_alt key). rewrite A. destruct (dget tag fd) as [raw|]; [|rewrite S; reflexivity].
  change (proc cl tag raw) with (if dhas tag wos_tags then val_of tag raw else Ok (FTexts raw)). rewrite T. reflexivity.
Qed.
Lemma get_named key tag : wos_alt key = Some tag -> length key <> 2 \/ key = $"j9" -> special cl key = None -> dhas tag wos_tags = true ->
  wos_get upper lower title all_digits r key = match dget tag fd with Some raw => match val_of tag raw with Ok v => Ok (Some v) | Raise KeyError => Ok None | Raise e => Raise e end | None => Ok None end.
Proof.
  intros A L S T. pose proof (value_named 1 key tag A L S T) as V. destruct (@getitem_ok _ _ cl fd fields_back special_alone 2 key [] _ (valid_nil _ _) V) as (c' & Q & _).
  unfold wos_get, get. rewrite Q. destruct (dget tag fd) as [raw|]; [|reflexivity]. destruct (val_of tag raw) as [v|e]; [reflexivity|]. destruct e; reflexivity.
Qed.
(** ** The parts of the record's own citation *)
Notation g := (value cl fd 1).
Definition contributes (k : str) (L : list str) : Prop :=
  exists x, g k = Some x /\ match x with
    | Raise KeyError => L = []
    | Raise _ => False
    | Ok v => if truthy v then exists s, piece k v = Ok s /\ L = [s] else L = []
    end.
Lemma part_orelse k L f e acc : contributes k L -> runp g (part truthy piece k f acc e) = match L with [] => runp g (e acc) | _ => runp g (f (acc ++ L)) end.
Proof.
  intros (x & G & H). unfold part, ask_get, ask. cbn [runp]. rewrite G. destruct x as [v|ex].
  - destruct (truthy v); [|subst L; reflexivity]. destruct H as (s & Q & ->). cbn [runp]. rewrite G. rewrite Q. reflexivity.
  - destruct ex; try contradiction H. subst L. reflexivity.
Qed.
Lemma part_same k L f acc : contributes k L -> runp g (part truthy piece k f acc f) = runp g (f (acc ++ L)).
Proof. intros C. rewrite (part_orelse k L _ _ _ C). destruct L; [rewrite app_nil_r|]; reflexivity. Qed.
Lemma own_runs A Y J T V B D : contributes $"authorsShort" A -> contributes $"year" Y -> contributes $"j9" J -> contributes $"title" T ->
  contributes $"volume" V -> contributes $"beginningPage" B -> contributes $"DOI" D ->
  runp g (create_citation truthy piece (cite upper title)) = Some (cite upper title (A ++ Y ++ (match J with [] => T | _ => J end) ++ V ++ B ++ D)).
Proof.
  intros HA HY HJ HT HV HB HD. unfold create_citation. cbn [parts]. rewrite (part_same _ _ _ _ HA), (part_same _ _ _ _ HY), (part_orelse _ _ _ _ _ HJ).
  destruct J as [|j J].
  - rewrite (part_same _ _ _ _ HT), (part_same _ _ _ _ HV), (part_same _ _ _ _ HB), (part_same _ _ _ _ HD). cbn [runp]. rewrite <- !app_assoc. reflexivity.
  - rewrite (part_same _ _ _ _ HV), (part_same _ _ _ _ HB), (part_same _ _ _ _ HD). cbn [runp]. rewrite <- !app_assoc. reflexivity.
Qed.
Lemma contributes_named key tag L : wos_alt key = Some tag -> length key <> 2 \/ key = $"j9" -> special cl key = None -> dhas tag wos_tags = true ->
  match dget tag fd with
  | None => L = []
  | Some raw => exists v, val_of tag raw = Ok v /\ if truthy v then exists s, piece key v = Ok s /\ L = [s] else L = []
  end -> contributes key L.
Proof.
  intros A LN S T H. unfold contributes. rewrite (value_named 0 key tag A LN S T). eexists. split; [reflexivity|]. destruct (dget tag fd) as [raw|]; [|exact H]. destruct H as (v & -> & H). exact H.
Qed.
Ltac named k t := apply (contributes_named k t); [vm_compute; reflexivity|first [right; reflexivity|left; vm_compute; discriminate]|vm_compute; reflexivity|vm_compute; reflexivity|].
Lemma some_lines tag raw : dget tag fd = Some raw -> exists v vs, raw = v :: vs.
Proof. intros E. destruct (field_two _ _ E) as (_ & N & _). destruct raw as [|v vs]; [congruence|eauto]. Qed.
Lemma text_part key tag before (f : str -> str) : wos_alt key = Some tag -> length key <> 2 \/ key = $"j9" -> special cl key = None -> dhas tag wos_tags = true ->
  (forall v vs, val_of tag (v :: vs) = Ok (FText (f v))) -> (forall s, piece key (FText s) = Ok (before ++ s)) -> f [] = [] -> contributes key (after before (f (first_line tag r))).
Proof.
  intros A L S T VO PO FN. apply (contributes_named key tag _ A L S T). unfold first_line, lines_of. destruct (dget tag fd) as [raw|] eqn:E; [|cbn [hd]; rewrite FN; reflexivity].
  destruct (some_lines _ _ E) as (v & vs & ->). exists (FText (f v)). split; [apply VO|]. cbn [hd]. destruct (f v) as [|c s]; [reflexivity|]. cbn [truthy]. exists (before ++ c :: s). split; [apply PO|reflexivity].
Qed.
Hypothesis Y : year_ok r.
Lemma four_nonzero y : (1000 <= y <= 9999)%Z -> negb (Z.eqb y 0) = true.
Proof. intros H. destruct (Z.eqb_spec y 0); [lia|reflexivity]. Qed.
Lemma year_value raw : dget $"PY" fd = Some raw -> exists y vs, (1000 <= y <= 9999)%Z /\ raw = dec_Z y :: vs /\ val_of $"PY" raw = Ok (FInt y).
Proof.
  intros E. destruct (some_lines _ _ E) as (v & vs & ->). unfold year_ok, first_line, lines_of in Y. rewrite E in Y. destruct Y as [Q|(y & B & Q)]; [discriminate|]. cbn [hd] in Q. subst v.
  exists y, vs. split; [exact B|]. split; [reflexivity|]. apply C71_year; [exact []|exact B].
Qed.
Lemma dec_some y : (1000 <= y <= 9999)%Z -> exists c s, dec_Z y = c :: s.
Proof. intros B. pose proof (ValuesProofs.four_digits y B) as L. destruct (dec_Z y); [discriminate L|eauto]. Qed.
Theorem own_is : exists c, wos_own upper lower title all_digits r = Ok c /\ wos_citation upper title (reference_text r) = Ok c.
Proof.
  destruct (C28_parse upper title (reference_text r)) as (c & C & _). exists c. split; [|exact C].
  assert (HA : contributes $"authorsShort" (match lines_of $"AU" r with [] => [] | a :: _ => [no_comma a] end)).
  { named $"authorsShort" $"AU". unfold lines_of. destruct (dget $"AU" fd) as [raw|] eqn:E; [|reflexivity]. destruct (some_lines _ _ E) as (v & vs & ->). exists (FTexts (v :: vs)). split; [reflexivity|].
    exists (no_comma v). split; [|reflexivity]. transitivity (Ok (no_commas v)); [reflexivity|]. rewrite no_commas_eq. reflexivity. }
  assert (HY : contributes $"year" (after [] (first_line $"PY" r))).
  { named $"year" $"PY". unfold first_line, lines_of. destruct (dget $"PY" fd) as [raw|] eqn:E; [|reflexivity]. destruct (year_value _ E) as (y & vs & B & -> & Q). exists (FInt y). split; [exact Q|].
    cbn [truthy hd]. rewrite four_nonzero by exact B. exists (dec_Z y). split; [reflexivity|]. destruct (dec_some y B) as (x & s & ->). reflexivity. }
  assert (HJ : contributes $"j9" (after [] (first_line $"J9" r))).
  { apply (text_part $"j9" $"J9" [] (fun s => s)); [vm_compute; reflexivity|right; reflexivity|vm_compute; reflexivity|vm_compute; reflexivity|reflexivity|reflexivity|reflexivity]. }
  assert (HT : contributes $"title" (after [] (join $" " (lines_of $"TI" r)))).
  { named $"title" $"TI". unfold lines_of. destruct (dget $"TI" fd) as [raw|] eqn:E; [|reflexivity]. exists (FText (join $" " raw)). split; [reflexivity|]. destruct (join $" " raw) as [|x s]; [reflexivity|]. cbn [truthy]. eexists. split; reflexivity. }
  assert (HV : contributes $"volume" (after $"V" (strip (first_line $"VL" r)))).
  { apply (text_part $"volume" $"VL" $"V" strip); [vm_compute; reflexivity|left; vm_compute; discriminate|vm_compute; reflexivity|vm_compute; reflexivity|reflexivity|reflexivity|reflexivity]. }
  assert (HB : contributes $"beginningPage" (after $"P" (strip (first_line $"BP" r)))).
  { apply (text_part $"beginningPage" $"BP" $"P" strip); [vm_compute; reflexivity|left; vm_compute; discriminate|vm_compute; reflexivity|vm_compute; reflexivity|reflexivity|reflexivity|reflexivity]. }
  assert (HD : contributes $"DOI" (after $"DOI " (first_line $"DI" r))).
  { apply (text_part $"DOI" $"DI" $"DOI " (fun s => s)); [vm_compute; reflexivity|left; vm_compute; discriminate|vm_compute; reflexivity|vm_compute; reflexivity|reflexivity|reflexivity|reflexivity]. }
  pose proof (own_runs _ _ _ _ _ _ _ HA HY HJ HT HV HB HD) as R.
  destruct (@run_ok _ _ cl fd (getitem cl fd 1) g _ (@getitem_ok _ _ cl fd fields_back special_alone 1) [] _ (valid_nil _ _) R) as (c' & Q & _).
  unfold wos_own. rewrite Q. unfold cite. 
  assert (E : join $", " (match lines_of $"AU" r with [] => [] | a :: _ => [no_comma a] end ++ after [] (first_line $"PY" r)
     ++ match after [] (first_line $"J9" r) with [] => after [] (join $" " (lines_of $"TI" r)) | _ :: _ => after [] (first_line $"J9" r) end
     ++ after $"V" (strip (first_line $"VL" r)) ++ after $"P" (strip (first_line $"BP" r)) ++ after $"DOI " (first_line $"DI" r)) = reference_text r).
  { unfold reference_text. destruct (first_line $"J9" r) as [|x s]; reflexivity. }
  rewrite E, C. reflexivity.
Qed.
Lemma cites_are : exists cs, wos_cites upper lower title all_digits r = Ok cs /\ Forall2 (fun s c => wos_citation upper title s = Ok c) (lines_of $"CR" r) cs.
Proof.
  destruct (C71_citations upper lower title all_digits (lines_of $"CR" r)) as (cs & E & F). unfold wos_cites.
  rewrite (get_named $"citations" $"CR"); [|vm_compute; reflexivity|left; vm_compute; discriminate|vm_compute; reflexivity|vm_compute; reflexivity].
  unfold lines_of in *. destruct (dget $"CR" fd) as [raw|]; [rewrite E; cbn [bind]; eauto|]. cbn [bind]. exists []. split; [reflexivity|constructor].
Qed.
Lemma authors_are short : wos_authors upper lower title all_digits short r = Ok (lines_of (if short then $"AU" else $"AF") r).
Proof.
  unfold wos_authors, lines_of. destruct short.
  - rewrite (get_named $"authorsShort" $"AU"); [|vm_compute; reflexivity|left; vm_compute; discriminate|vm_compute; reflexivity|vm_compute; reflexivity]. destruct (dget $"AU" fd); reflexivity.
  - rewrite (get_named $"authorsFull" $"AF"); [|vm_compute; reflexivity|left; vm_compute; discriminate|vm_compute; reflexivity|vm_compute; reflexivity]. destruct (dget $"AF" fd); reflexivity.
Qed.
(** none of the fields that nodes show is an empty list *)
Lemma shown_some t : In t [$"id"; $"authorsFull"; $"year"; $"title"; $"journal"; $"volume"; $"beginningPage"] ->
  exists o, wos_get upper lower title all_digits r t = Ok o /\ o <> Some (FTexts []).
Proof.
  assert (K : forall key tag, wos_alt key = Some tag -> length key <> 2 \/ key = $"j9" -> special cl key = None -> dhas tag wos_tags = true ->
    (forall raw, dget tag fd = Some raw -> exists v, val_of tag raw = Ok v /\ v <> FTexts []) -> exists o, wos_get upper lower title all_digits r key = Ok o /\ o <> Some (FTexts [])).
  { intros key tag A L S T H. rewrite (get_named key tag A L S T). destruct (dget tag fd) as [raw|]; [|eexists; split; [reflexivity|discriminate]]. destruct (H raw eq_refl) as (v & -> & N). eexists. split; [reflexivity|congruence]. }
  Ltac byk K k t := apply (K k t); [vm_compute; reflexivity|left; vm_compute; discriminate|vm_compute; reflexivity|vm_compute; reflexivity|].
  intros [<-|[<-|[<-|[<-|[<-|[<-|[<-|[]]]]]]]].
  - destruct (dget $"id" fd) as [raw|] eqn:E.
    + assert (V : value cl fd 2 $"id" = Some (Ok (FTexts raw))) by (cbn [value]; unfold resolve; rewrite E; reflexivity). destruct (@getitem_ok _ _ cl fd fields_back special_alone 2 _ [] _ (valid_nil _ _) V) as (c' & Q & _).
      unfold wos_get, get. rewrite Q. destruct (some_lines _ _ E) as (v & vs & ->). eexists. split; [reflexivity|discriminate].
    + assert (V : value cl fd 2 $"id" = Some (Ok (FText (wid r)))) by (cbn [value]; unfold resolve; rewrite E; reflexivity). destruct (@getitem_ok _ _ cl fd fields_back special_alone 2 _ [] _ (valid_nil _ _) V) as (c' & Q & _).
      unfold wos_get, get. rewrite Q. eexists. split; [reflexivity|discriminate].
  - byk K $"authorsFull" $"AF". intros raw E. destruct (some_lines _ _ E) as (v & vs & ->). eexists. split; [reflexivity|discriminate].
  - byk K $"year" $"PY". intros raw E. destruct (year_value _ E) as (y & vs & B & -> & Q). eexists. split; [exact Q|discriminate].
  - byk K $"title" $"TI". intros raw E. eexists. split; [reflexivity|discriminate].
  - byk K $"journal" $"SO". intros raw E. eexists. split; [reflexivity|discriminate].
  - byk K $"volume" $"VL". intros raw E. destruct (some_lines _ _ E) as (v & vs & ->). eexists. split; [reflexivity|discriminate].
  - byk K $"beginningPage" $"BP". intros raw E. destruct (some_lines _ _ E) as (v & vs & ->). eexists. split; [reflexivity|discriminate].
Qed.
End Proofs.
