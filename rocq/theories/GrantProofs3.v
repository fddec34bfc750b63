(** Proofs about NSF files and about Medline and Scopus grants. *)
From Coq Require Import List ZArith Lia Bool Arith.
From Coq Require Import String.
From Verif Require Import Base PyStr JournalModel JournalProofs TextModel TextProofs MedlineProofs NetModel NetFacts GrantModel GrantSpec GrantProofs2.
Import ListNotations.
Local Open Scope list_scope.

(** ** NSF: a tree as a list of steps *)
Inductive step := Gather (tag s : str) | Leaf (tag : str) (v : gval).
Definition take (o : step) (d : gfields) : res gfields := match o with Gather t s => append_to t s d | Leaf t v => Ok (dset t v d) end.
Definition gat (f : str) (os : list step) : list str := flat_map (fun o => match o with Gather t s => if eqb f t then [s] else [] | Leaf _ _ => [] end) os.
Definition lea (f : str) (os : list step) : option gval := fold_left (fun a o => match o with Leaf t v => if eqb f t then Some v else a | Gather _ _ => a end) os None.
Definition val_ (f : str) (os : list step) : option gval := match lea f os with Some v => Some v | None => match gat f os with [] => None | l => Some (GTexts l) end end.
Lemma gat_app f a b : gat f (a ++ b) = gat f a ++ gat f b.
Proof. apply flat_map_app. Qed.
Lemma lea_app f a o : lea f (a ++ [o]) = match o with Leaf t v => if eqb f t then Some v else lea f a | Gather _ _ => lea f a end.
Proof. unfold lea. rewrite fold_left_app. reflexivity. Qed.
Lemma take_all : forall os, (forall f, lea f os = None \/ gat f os = []) -> exists d, iter take os [] = Ok d /\ forall f, dget f d = val_ f os.
Proof.
  induction os as [|o os IH] using rev_ind; intros ONE; [exists []; split; [reflexivity|]; reflexivity|].
  assert (ONE' : forall f, lea f os = None \/ gat f os = []).
  { intros f. destruct (ONE f) as [E|E].
    - left. rewrite lea_app in E. destruct o as [t s|t v]; [exact E|]. destruct (eqb f t); [discriminate|exact E].
    - right. rewrite gat_app in E. apply app_eq_nil in E. tauto. }
  destruct (IH ONE') as (d & E & V). rewrite iter_app, E. cbn [bind iter]. destruct o as [t s|t v]; cbn [take].
  - pose proof (ONE t) as Ot. rewrite gat_app, lea_app in Ot. cbn [gat flat_map app] in Ot. rewrite eqb_refl in Ot. destruct Ot as [Ot|Ot]; [|destruct (gat t os); discriminate]. pose proof (V t) as Vt. unfold val_ in Vt. rewrite Ot in Vt. unfold append_to.
    assert (FIN : exists d', Ok (dset t (GTexts (gat t os ++ [s])) d) = Ok d' /\ forall f, dget f d' = val_ f (os ++ [Gather t s])).
    { eexists. split; [reflexivity|]. intros f. unfold val_. rewrite lea_app, gat_app. cbn [gat flat_map app]. destruct (eqb_spec f t) as [->|NE].
      - rewrite dget_dset_same, Ot. destruct (gat t os); reflexivity.
      - rewrite dget_dset_other by exact NE. rewrite !app_nil_r. exact (V f). }
    destruct (gat t os) as [|x l] eqn:G; rewrite Vt; destruct FIN as (d' & E' & V'); injection E' as <-; exists (dset t (GTexts (gat t os ++ [s])) d); rewrite G; split; try reflexivity; exact V'.
  - eexists. split; [reflexivity|]. intros f. unfold val_. rewrite lea_app, gat_app. cbn [gat flat_map app]. destruct (eqb_spec f t) as [->|NE]; [rewrite dget_dset_same; reflexivity|]. rewrite dget_dset_other by exact NE. rewrite app_nil_r. exact (V f).
Qed.
Definition org_steps (o : element) : list step := map (Gather $"Directorate") (part_texts $"Directorate" o) ++ map (Gather $"Division") (part_texts $"Division" o).
Definition other_steps (e : element) : list step :=
  if grouped e then [] else if is_leaf e then [Leaf (e_tag e) (match e_text e with Some t => GText t | None => GNone end)] else [Gather (e_tag e) (join $"; " (child_texts e))].
Definition top_steps (top : element) : list step :=
  flat_map org_steps (filter (named $"Organization") (e_children top)) ++ map (fun i => Gather $"Investigator" (investigator_text i)) (filter (named $"Investigator") (e_children top)) ++ flat_map other_steps (e_children top).
Lemma inner_child e : inner_texts e = child_texts e.
Proof. reflexivity. Qed.
Lemma part_steps p o d : nsf_part p o d = iter take (map (Gather p) (part_texts p o)) d.
Proof.
  unfold nsf_part, part_texts, findall. change (fun c => eqb (e_tag c) p) with (named p). destruct (filter (named p) (e_children o)) as [|x l]; [reflexivity|]. change (inner_texts x) with (child_texts x). destruct (child_texts x) as [|t ts]; [reflexivity|]. cbn [map iter take]. destruct (append_to p (join $"; " (t :: ts)) d); reflexivity.
Qed.
Lemma org_take o d : nsf_org o d = iter take (org_steps o) d.
Proof. unfold nsf_org, org_steps. rewrite iter_app, part_steps. destruct (iter take (map (Gather $"Directorate") (part_texts $"Directorate" o)) d); [|reflexivity]. cbn [bind]. apply part_steps. Qed.
Lemma other_take e d : nsf_other e d = iter take (other_steps e) d.
Proof.
  unfold nsf_other, other_steps, grouped, named, is_leaf. destruct (eqb (e_tag e) $"Organization" || eqb (e_tag e) $"Investigator"); [reflexivity|]. destruct (e_children e) eqn:E; [reflexivity|]. cbn [iter take]. destruct (append_to (e_tag e) (join $"; " (child_texts e)) d); reflexivity.
Qed.
Lemma name_text i : nsf_name i = investigator_text i.
Proof.
  unfold nsf_name, investigator_text, texts_named. destruct i as [t x cs]. cbn [e_children].
  assert (G : forall n o, fold_left (fun no c => match e_text c with None => no | Some t => if eqb (e_tag c) $"FirstName" then (t :: fst no, snd no) else if eqb (e_tag c) $"LastName" then (fst no ++ [t], snd no) else (fst no, snd no ++ [t]) end) cs (n, o) =
    (rev (flat_map (fun c => if eqb $"FirstName" (e_tag c) then match e_text c with Some t => [t] | None => [] end else []) cs) ++ n ++ flat_map (fun c => if eqb $"LastName" (e_tag c) then match e_text c with Some t => [t] | None => [] end else []) cs,
     o ++ flat_map (fun c => if negb (eqb $"FirstName" (e_tag c) || eqb $"LastName" (e_tag c)) then match e_text c with Some t => [t] | None => [] end else []) cs)).
  { induction cs as [|c cs IH]; intros n o; [cbn; rewrite !app_nil_r; reflexivity|]. cbn [fold_left flat_map]. rewrite (eqb_sym $"FirstName"), (eqb_sym $"LastName"). destruct (e_text c) as [s|].
    - destruct (eqb_spec (e_tag c) $"FirstName") as [EF|NF].
      + rewrite EF. change (eqb $"FirstName" $"LastName") with false. cbn [orb negb fst snd app]. rewrite IH. cbn [app]. f_equal. cbn [rev]. rewrite <- app_assoc. reflexivity.
      + destruct (eqb (e_tag c) $"LastName"); cbn [orb negb fst snd app]; rewrite IH; f_equal; rewrite <- !app_assoc; reflexivity.
    - rewrite IH. destruct (eqb (e_tag c) $"FirstName"), (eqb (e_tag c) $"LastName"); reflexivity. }
  rewrite (G [] []). reflexivity.
Qed.
Lemma fields_take top : nsf_fields top = iter take (top_steps top) [].
Proof.
  unfold nsf_fields, top_steps, findall. change (fun c => eqb (e_tag c) $"Organization") with (named $"Organization"). change (fun c => eqb (e_tag c) $"Investigator") with (named $"Investigator").
  rewrite !iter_app, iter_flat. rewrite (iter_ext nsf_org (fun o => iter take (org_steps o)) _ org_take). destruct (iter (fun o => iter take (org_steps o)) (filter (named $"Organization") (e_children top)) []) as [d1|]; [|reflexivity]. cbn [bind].
  rewrite iter_app, iter_map. rewrite (iter_ext (fun inv d => append_to $"Investigator" (nsf_name inv) d) (fun i => take (Gather $"Investigator" (investigator_text i))) _) by (intros i d; cbn [take]; rewrite name_text; reflexivity).
  destruct (iter (fun i => take (Gather $"Investigator" (investigator_text i))) (filter (named $"Investigator") (e_children top)) d1) as [d2|]; [|reflexivity]. cbn [bind]. rewrite iter_flat. apply iter_ext. exact other_take.
Qed.
Lemma gat_map f t l : gat f (map (Gather t) l) = if eqb f t then l else [].
Proof. induction l as [|x l IH]; [destruct (eqb f t); reflexivity|]. unfold gat in *. cbn [map flat_map]. rewrite IH. destruct (eqb f t); reflexivity. Qed.
Lemma gat_flat {B} f (h : B -> list step) l : gat f (flat_map h l) = flat_map (fun b => gat f (h b)) l.
Proof. induction l as [|x l IH]; [reflexivity|]. cbn [flat_map]. rewrite gat_app, IH. reflexivity. Qed.
Lemma gat_top f top : gat f (top_steps top) = gathered f top.
Proof.
  unfold top_steps, gathered. rewrite !gat_app. f_equal; [|f_equal].
  - rewrite gat_flat. induction (filter (named $"Organization") (e_children top)) as [|o l IH]; [destruct (eqb f $"Directorate" || eqb f $"Division"); reflexivity|]. cbn [flat_map]. rewrite IH. unfold org_steps. rewrite gat_app, !gat_map.
    destruct (eqb_spec f $"Directorate") as [->|N1]; [change (eqb $"Directorate" $"Division") with false; cbn [orb]; rewrite app_nil_r; reflexivity|]. destruct (eqb_spec f $"Division") as [->|N2]; reflexivity.
  - rewrite <- (map_map investigator_text (Gather $"Investigator")). apply gat_map.
  - rewrite gat_flat. induction (e_children top) as [|c l IH]; [reflexivity|]. cbn [flat_map filter]. rewrite IH. unfold other_steps, named. destruct (grouped c); [rewrite andb_false_r; reflexivity|]. rewrite (eqb_sym (e_tag c) f). destruct (is_leaf c); [rewrite andb_false_r; reflexivity|].
    unfold gat. cbn [flat_map app negb]. destruct (eqb f (e_tag c)); reflexivity.
Qed.
Lemma lea_none f a : (forall o, In o a -> match o with Leaf _ _ => False | Gather _ _ => True end) -> lea f a = None.
Proof.
  intros F. unfold lea. induction a as [|o a IH]; [reflexivity|]. cbn [fold_left]. pose proof (F o (or_introl eq_refl)) as Fo. destruct o; [|destruct Fo]. apply IH. intros; apply F; now right.
Qed.
Lemma lea_skip f a b : (forall o, In o a -> match o with Leaf _ _ => False | Gather _ _ => True end) -> lea f (a ++ b) = lea f b.
Proof. intros F. unfold lea at 1. rewrite fold_left_app. fold (lea f a). rewrite (lea_none f a F). reflexivity. Qed.
Lemma last_app_one {A} (c x : A) l : last (l ++ [x]) c = x.
Proof. induction l as [|y l IH]; [reflexivity|]. cbn [app last]. destruct (l ++ [x]) eqn:E; [destruct l; discriminate|]. exact IH. Qed.
Lemma lea_top f top : lea f (top_steps top) = leaf_value f top.
Proof.
  unfold top_steps. rewrite !lea_skip.
  - unfold leaf_value. set (p := fun c => named f c && is_leaf c && negb (grouped c)). induction (e_children top) as [|c l IH] using rev_ind; [reflexivity|]. rewrite flat_map_app, filter_app. cbn [flat_map filter]. rewrite app_nil_r.
    assert (S1 : lea f (flat_map other_steps l ++ other_steps c) = if p c then Some (match e_text c with Some t => GText t | None => GNone end) else lea f (flat_map other_steps l)).
    { unfold other_steps, p, named. destruct (grouped c); [rewrite app_nil_r, andb_false_r; reflexivity|]. rewrite (eqb_sym (e_tag c) f). destruct (is_leaf c); rewrite lea_app.
      - rewrite !andb_true_r. reflexivity.
      - rewrite andb_false_r. reflexivity. }
    rewrite S1. destruct (p c); [|rewrite app_nil_r; exact IH]. destruct (filter p l) as [|y m]; [reflexivity|]. cbn [app]. rewrite last_app_one. reflexivity.
  - intros o I1. apply in_map_iff in I1 as (i & <- & _). exact Logic.I.
  - intros o I1. apply in_flat_map in I1 as (x & _ & I1). unfold org_steps in I1. apply in_app_iff in I1 as [I1|I1]; apply in_map_iff in I1 as (i & <- & _); exact Logic.I.
Qed.
Lemma nsf_spec top : one_way top -> exists d, nsf_fields top = Ok d /\ forall f, dget f d = match leaf_value f top with Some v => Some v | None => match gathered f top with [] => None | l => Some (GTexts l) end end.
Proof.
  intros ONE. rewrite fields_take. destruct (take_all (top_steps top)) as (d & E & V).
  - intros f. rewrite lea_top, gat_top. apply ONE.
  - exists d. split; [exact E|]. intros f. rewrite V. unfold val_. rewrite lea_top, gat_top. reflexivity.
Qed.

(** ** Medline and Scopus *)
Lemma no_comma a : contains $", " a = false -> contains $", " (a ++ $",") = false.
Proof.
  intros N. destruct (contains $", " (a ++ $",")) eqn:E; [|reflexivity]. apply contains_spec in E as (x & y & E). exfalso. destruct (@exists_last _ y) as (y' & c & ->).
  - intros ->. rewrite app_nil_r in E. change $", " with ($"," ++ $" ") in E. rewrite app_assoc in E. apply app_inj_tail in E as [_ E]. discriminate.
  - change ($", " ++ y' ++ [c]) with (($", " ++ y') ++ [c]) in E. rewrite app_assoc in E. apply app_inj_tail in E as [E _]. assert (C : contains $", " a = true) by (apply contains_spec; exists x, y'; exact E). congruence.
Qed.
Lemma split_parts : forall ps fuel, ps <> [] -> Forall (fun p => contains $", " p = false) ps -> length ps <= S fuel -> split_on fuel $", " (join $", " ps) = ps.
Proof.
  induction ps as [|p ps IH]; intros fuel NE F L; [congruence|]. inversion F as [|? ? Fp F']; subst. destruct ps as [|q ps].
  - cbn [join]. destruct fuel; cbn [split_on]; rewrite (cut_none _ _ Fp); reflexivity.
  - change (join $", " (p :: q :: ps)) with (p ++ $", " ++ join $", " (q :: ps)). destruct fuel as [|fuel]; [cbn in L; lia|]. cbn [split_on]. rewrite (cut_first $", " p); [|discriminate|apply no_comma; exact Fp]. rewrite IH; [reflexivity|discriminate|exact F'|cbn in *; lia].
Qed.
Lemma join_long (ps : list str) : length ps <= S (length (join $", " ps)).
Proof. induction ps as [|p [|q ps] IH]; [cbn; lia|cbn; lia|]. change (join $", " (p :: q :: ps)) with (p ++ $", " ++ join $", " (q :: ps)). rewrite !app_length. cbn [length] in *. change (length $", ") with 2. lia. Qed.
Lemma scopus_parts ps : ps <> [] -> Forall (fun p => contains $", " p = false) ps -> split_on (length (join $", " ps)) $", " (join $", " ps) = ps.
Proof. intros NE F. apply split_parts; [exact NE|exact F|apply join_long]. Qed.
Lemma slash_parts (ps : list str) : ps <> [] -> Forall (fun p => ~ In 47%N p) ps -> split_char 47%N (join $"/" ps) = ps.
Proof. intros NE F. rewrite Forall_forall in F. exact (@split_join 47%N ps NE F). Qed.
Lemma medline_shape ps agency country : Forall (fun p => ~ In 47%N p) (ps ++ [agency; country]) ->
  medline_fields (join $"/" (ps ++ [agency; country])) =
  (let base := [($"country", GText country); ($"agency", GText agency)] in
   match rev ps with
   | [x] => if length x =? 2 then base ++ [($"code", GText x)] else base ++ [($"number", GText x)]
   | [x; y] => if length x =? 2 then base ++ [($"code", GText x); ($"number", GText y)] else base ++ [($"number", GText (y ++ $"/" ++ x))]
   | r => base ++ [($"number", GText (join $"/" (rev r)))]
   end, None).
Proof.
  intros F. unfold medline_fields. rewrite slash_parts; [|destruct ps; discriminate|exact F]. rewrite rev_app_distr. cbn [rev app]. destruct (rev ps) as [|x [|y [|z r]]]; reflexivity.
Qed.
Lemma join_join sep (m : list str) : m <> [] -> forall l, l <> [] -> join sep (join sep l :: m) = join sep (l ++ m).
Proof.
  intros NM. assert (NE : forall x (l : list str), l <> [] -> join sep (x :: l) = x ++ sep ++ join sep l) by (intros x [|y k] N; [congruence|reflexivity]).
  induction l as [|x l IH]; intros NL; [congruence|]. destruct l as [|y l]; [reflexivity|]. rewrite (NE (join sep (x :: y :: l)) m NM), (NE x (y :: l)) by discriminate. cbn [app]. rewrite (NE x) by discriminate. cbn [app] in IH. rewrite <- IH by discriminate. rewrite (NE _ m NM), <- !app_assoc. reflexivity.
Qed.
Lemma whole_number x agency country : x <> [] -> whole [($"country", GText country); ($"agency", GText agency); ($"number", GText x)] = join $"/" [x; agency; country].
Proof. intros NE. destruct x as [|c x]; [congruence|]. reflexivity. Qed.
