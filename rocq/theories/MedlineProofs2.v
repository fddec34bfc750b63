(** Proofs about Medline records: what the parser gives, and files. *)
From Coq Require Import List Lia Bool Arith.
From Coq Require Import String.
From Verif Require Import Base PyStr CollectionProofs JournalModel JournalProofs WosProofs TextSpec TextProofs MedlineModel MedlineSpec MedlineProofs.
Import ListNotations.
Local Open Scope list_scope.

Section Inv.
Variable alpha : char -> bool.
Variable P : str -> option str -> mfields -> Prop.
Hypothesis P_put : forall tag au d t c, P tag au d -> good_tag alpha t ->
  let au' := if eqb t $"AU" then Some c else au in
  P t au' (put t (if mem t author_tags then (match au' with Some a => a | None => $"None" end) ++ $" : " ++ c else c) d).
Hypothesis P_more : forall tag au d w d', P tag au d -> more tag w d = Ok d' -> P tag au d'.
Lemma mparse_inv : forall ls tag au d d' rest, P tag au d -> mparse alpha ls tag au d = (Ok d', rest) -> exists tag' au', P tag' au' d'.
Proof.
  induction ls as [|l ls IH]; intros tag au d d' rest I1 E; [injection E as <- <-; eauto|]. cbn [mparse] in E.
  assert (OT : (if eqb (firstn 6 l) six then match more tag (init_ (skipn 6 l)) d with Ok d' => mparse alpha ls tag au d' | Raise e => (Raise e, ls) end else if eqb l [nl] then (Ok d, ls) else (Raise BadPubmedRecord, ls)) = (Ok d', rest) -> exists tag' au', P tag' au' d').
  { destruct (eqb (firstn 6 l) six).
    - destruct (more tag (init_ (skipn 6 l)) d) as [d1|] eqn:M; [|discriminate]. apply IH. eapply P_more; eassumption.
    - destruct (eqb l [nl]); [|discriminate]. intros [= <- <-]. eauto. }
  destruct (isalpha alpha (rstrip (firstn 4 l))) eqn:A; [|apply OT, E]. destruct (nth_error l 4) as [c|]; [|discriminate]. destruct (eqb c 45%N); [|apply OT, E].
  assert (GT : good_tag alpha (rstrip (firstn 4 l))).
  { unfold isalpha in A. destruct (rstrip (firstn 4 l)) as [|x t] eqn:R; [discriminate|]. rewrite <- R in *. repeat split.
    - congruence.
    - destruct (rstrip_split (firstn 4 l)) as (w & W & _). pose proof (f_equal (@length _) W) as L. rewrite app_length, firstn_length in L. lia.
    - apply forallb_forall. exact A. }
  apply IH in E; [exact E|]. apply (P_put tag au d _ _ I1 GT).
Qed.
End Inv.

Lemma values_put t v d t' : values t' (put t v d) = if eqb t t' then values t d ++ [v] else values t' d.
Proof. unfold values at 1. rewrite put_get. destruct (eqb t t'); reflexivity. Qed.
Lemma values_more t w d d' t' : more t w d = Ok d' -> values t' d' = if eqb t t' then removelast (values t d) ++ [last (values t d) [] ++ nl :: w] else values t' d.
Proof.
  unfold more. destruct (dget t d) as [[|v vs]|] eqn:G; [discriminate| |discriminate]. intros [= <-]. unfold values at 1. destruct (@eqb_spec str _ t t') as [<-|N].
  - rewrite dget_dset_same. unfold values. rewrite G. reflexivity.
  - rewrite dget_dset_other by congruence. reflexivity.
Qed.
Lemma fields_good_put alpha t v d : good_tag alpha t -> fields_good alpha d -> fields_good alpha (put t v d).
Proof.
  intros GT [ND G]. unfold put. split; [apply NoDup_dset; exact ND|]. intros t' vs I1.
  assert (C : (t' = t /\ vs <> []) \/ In (t', vs) d).
  { assert (ND' : NoDup (dkeys (put t v d))) by (apply NoDup_dset; exact ND). unfold put in ND'. pose proof (In_dget _ _ _ ND' I1) as GG. destruct (@eqb_spec str _ t t') as [<-|N].
    - rewrite dget_dset_same in GG. injection GG as <-. left. split; [reflexivity|]. destruct (dget t d) as [l|]; [destruct l|]; discriminate.
    - rewrite dget_dset_other in GG by congruence. right. apply dget_In, GG. }
  destruct C as [[-> N]|C]; [auto|apply G, C].
Qed.
Lemma fields_good_more alpha t w d d' : more t w d = Ok d' -> fields_good alpha d -> fields_good alpha d'.
Proof.
  unfold more. destruct (dget t d) as [[|v vs]|] eqn:GT; [discriminate| |discriminate]. intros [= <-] [ND G]. pose proof GT as IT; apply dget_In in IT. split; [apply NoDup_dset; exact ND|]. intros t' l I1.
  assert (ND' : NoDup (dkeys (dset t (removelast (v :: vs) ++ [last (v :: vs) [] ++ [nl] ++ w]) d))) by (apply NoDup_dset; exact ND). pose proof (In_dget _ _ _ ND' I1) as GG. destruct (@eqb_spec str _ t t') as [<-|N].
  - rewrite dget_dset_same in GG. injection GG as <-. split; [apply (G t _ IT)|]. intros E; apply app_eq_nil in E as [_ E]; discriminate.
  - rewrite dget_dset_other in GG by congruence. apply G, dget_In, GG.
Qed.
Lemma parse_fields_good alpha ls d rest : medline_parse alpha ls = (Ok d, rest) -> fields_good alpha d.
Proof.
  intros E. apply (mparse_inv alpha (fun _ _ d => fields_good alpha d)) in E as (tag & au & G); [exact G| | |].
  - intros tag au d0 t c G GT. cbn. apply fields_good_put; assumption.
  - intros tag au d0 w d' G M. eapply fields_good_more; eassumption.
  - split; [constructor|]. intros t vs [].
Qed.

(** the fields about authors *)
Definition spoilt (d : mfields) : Prop :=
  (exists a, In a (authors d) /\ In nl a) \/ ~ NoDup (authors d) \/ exists t v, In t author_tags /\ In v (values t d) /\ starts_with $"None : " v = true.
Definition current (tag : str) (au : option str) (d : mfields) (g : str -> str -> list str) : Prop :=
  match au with
  | None => authors d = [] /\ ~ In tag author_tags
  | Some a => (exists l, authors d = l ++ [a]) /\ (In tag author_tags -> g tag a <> [])
  end.
Definition grouped (g : str -> str -> list str) (d : mfields) : Prop := forall t, In t author_tags -> values t d = flat_map (fun a => map (mark a) (g t a)) (authors d).
Definition Minv (tag : str) (au : option str) (d : mfields) : Prop :=
  spoilt d \/ NoDup (authors d) /\ exists g, grouped g d /\ current tag au d g.
Lemma In_removelast_last {A} (l : list A) x y : In x l -> In x (removelast l) \/ x = last l y.
Proof. intros I1. destruct l as [|z l]; [destruct I1|]. rewrite (@app_removelast_last _ (z :: l) y) in I1 by discriminate. apply in_app_or in I1 as [I1|[<-|[]]]; auto. Qed.
Lemma authors_AU t : In t author_tags -> eqb $"AU" t = false /\ eqb t $"AU" = false.
Proof. intros [<-|[<-|[]]]; split; reflexivity. Qed.
Lemma spoilt_put t v d : spoilt d -> spoilt (put t v d).
Proof.
  unfold spoilt, authors. intros [(a & IA & N)|[ND|(t' & x & IT & IX & W)]].
  - left. exists a. rewrite values_put. split; [|exact N]. destruct (@eqb_spec str _ t $"AU") as [->|]; [apply in_or_app; left|]; exact IA.
  - right. left. rewrite values_put. destruct (@eqb_spec str _ t $"AU") as [->|]; [|exact ND]. intros N. apply ND. revert N. clear. induction (values $"AU" d) as [|x l IH]; intros N; [constructor|]. cbn in N. inversion N as [|? ? NI N']; subst. constructor; [|apply IH, N']. intros I1. apply NI, in_or_app. auto.
  - right. right. exists t', x. rewrite values_put. split; [exact IT|]. split; [|exact W]. destruct (@eqb_spec str _ t t') as [->|]; [apply in_or_app; left|]; exact IX.
Qed.
Lemma spoilt_more t w d d' : more t w d = Ok d' -> spoilt d -> spoilt d'.
Proof.
  intros M. assert (AU : t = $"AU" -> spoilt d').
  { intros ->. left. unfold authors. rewrite (values_more _ _ _ _ _ M), eqb_refl. exists (last (values $"AU" d) [] ++ nl :: w). split; [apply in_or_app; right; left; reflexivity|apply in_or_app; right; left; reflexivity]. }
  destruct (@eqb_spec str _ t $"AU") as [->|N]; [intros _; apply AU; reflexivity|]. assert (SA : authors d' = authors d) by (unfold authors; rewrite (values_more _ _ _ _ _ M), (neq_eqb N); reflexivity).
  unfold spoilt. rewrite SA. intros [A|[B|(t' & x & IT & IX & W)]]; [auto|auto|]. right. right. destruct (@eqb_spec str _ t t') as [->|N'].
  - destruct (In_removelast_last _ _ [] IX) as [I1| ->].
    + exists t', x. rewrite (values_more _ _ _ _ _ M), eqb_refl. split; [exact IT|]. split; [apply in_or_app; left; exact I1|exact W].
    + exists t', (last (values t' d) [] ++ nl :: w). rewrite (values_more _ _ _ _ _ M), eqb_refl. split; [exact IT|]. split; [apply in_or_app; right; left; reflexivity|]. apply starts_with_spec in W as [y E]. apply starts_with_spec. exists (y ++ nl :: w). rewrite app_assoc. f_equal. exact E.
  - exists t', x. rewrite (values_more _ _ _ _ _ M), (neq_eqb N'). auto.
Qed.
Lemma flat_map_ext_in {A B} (f h : A -> list B) l : (forall a, In a l -> f a = h a) -> flat_map f l = flat_map h l.
Proof. induction l as [|x l IH]; intros E; [reflexivity|]. cbn. rewrite (E x (or_introl eq_refl)), IH; [reflexivity|]. intros a I1. apply E. right. exact I1. Qed.
(** change what is about the last author *)
Definition upd (g : str -> str -> list str) (t a : str) (l : list str) : str -> str -> list str := fun t' a' => if eqb t' t && eqb a' a then l else g t' a'.
Lemma upd_same g t a l : upd g t a l t a = l.
Proof. unfold upd. rewrite !eqb_refl. reflexivity. Qed.
Lemma upd_other g t a l t' a' : a' <> a -> upd g t a l t' a' = g t' a'.
Proof. intros N. unfold upd. rewrite (neq_eqb N), andb_false_r. reflexivity. Qed.
Lemma upd_tag g t a l t' a' : t' <> t -> upd g t a l t' a' = g t' a'.
Proof. intros N. unfold upd. rewrite (neq_eqb N). reflexivity. Qed.
Lemma flat_upd g t a l as_ : ~ In a as_ -> flat_map (fun a => map (mark a) (upd g t a l t a)) [] = [] -> forall t', flat_map (fun x => map (mark x) (upd g t a l t' x)) as_ = flat_map (fun x => map (mark x) (g t' x)) as_.
Proof. intros NI _ t'. apply flat_map_ext_in. intros x I1. rewrite upd_other; [reflexivity|]. intros ->. contradiction. Qed.
Lemma NoDup_snoc {A} (l : list A) a : NoDup (l ++ [a]) -> ~ In a l /\ NoDup l.
Proof. intros N. apply NoDup_remove in N as [N1 N2]. rewrite app_nil_r in *. auto. Qed.
Lemma Minv_put alpha tag au d t c : Minv tag au d -> good_tag alpha t ->
  let au' := if eqb t $"AU" then Some c else au in
  Minv t au' (put t (if mem t author_tags then (match au' with Some a => a | None => $"None" end) ++ $" : " ++ c else c) d).
Proof.
  intros [S1|(ND & g & G & C)] _; cbv zeta; [left; apply spoilt_put, S1|]. destruct (@eqb_spec str _ t $"AU") as [->|NAU].
  - change (mem $"AU" author_tags) with false. cbv iota. assert (EA : authors (put $"AU" c d) = authors d ++ [c]) by (unfold authors; rewrite values_put, eqb_refl; reflexivity).
    destruct (in_dec eq_dec c (authors d)) as [IC|NC].
    + left. right. left. rewrite EA. intros N. apply NoDup_snoc in N as [N _]. contradiction.
    + right. rewrite EA. split; [apply NoDup_app_disj; [exact ND|repeat constructor; intros []|intros x I1 [<-|[]]; contradiction]|].
      exists (fun t a => if eqb a c then [] else g t a). split.
      * intros t IT. rewrite EA, values_put, (proj1 (authors_AU t IT)), (G t IT), flat_map_app. cbn [flat_map]. rewrite eqb_refl. cbn [map app]. rewrite app_nil_r. apply flat_map_ext_in. intros a I1. replace (eqb a c) with false; [reflexivity|]. symmetry. apply neq_eqb. intros ->. contradiction.
      * cbn [current]. split; [exists (authors d); exact EA|]. intros IT. vm_compute in IT. repeat destruct IT as [IT|IT]; try discriminate. destruct IT.
  - destruct (mem t author_tags) eqn:M.
    + apply mem_In in M. destruct au as [a|].
      * destruct C as [[l EL] CG]. assert (SA : authors (put t (a ++ $" : " ++ c) d) = authors d) by (unfold authors; rewrite values_put, (neq_eqb NAU); reflexivity). right. rewrite SA. split; [exact ND|].
        exists (upd g t a (g t a ++ [c])). rewrite EL in ND. apply NoDup_snoc in ND as [NI ND]. split.
        -- intros t' IT. rewrite SA, values_put, EL, flat_map_app. cbn [flat_map]. rewrite app_nil_r. rewrite (flat_upd g t a _ l NI eq_refl t'). destruct (@eqb_spec str _ t t') as [<-|N].
           ++ rewrite upd_same, (G t M), EL, flat_map_app, map_app. cbn [flat_map map]. rewrite app_nil_r, <- app_assoc. reflexivity.
           ++ rewrite upd_tag by congruence. rewrite (G t' IT), EL, flat_map_app. cbn [flat_map]. rewrite app_nil_r. reflexivity.
        -- cbn [current]. rewrite SA. split; [exists l; exact EL|]. intros _. rewrite upd_same. destruct (g t a); discriminate.
      * left. right. right. exists t, ($"None" ++ $" : " ++ c). rewrite values_put, eqb_refl. split; [exact M|]. split; [apply in_or_app; right; left; reflexivity|]. apply starts_with_spec. exists c. reflexivity.
    + right. assert (SA : authors (put t c d) = authors d) by (unfold authors; rewrite values_put, (neq_eqb NAU); reflexivity). rewrite SA. split; [exact ND|]. exists g. apply mem_not_In in M. split.
      * intros t' IT. rewrite SA, values_put. replace (eqb t t') with false; [apply G, IT|]. symmetry. apply neq_eqb. intros ->. contradiction.
      * destruct au as [a|]; cbn [current] in *; rewrite SA; [split; [apply C|intros IT; contradiction]|split; [apply C|exact M]].
Qed.
Lemma Minv_more tag au d w d' : Minv tag au d -> more tag w d = Ok d' -> Minv tag au d'.
Proof.
  intros [S1|(ND & g & G & C)] M; [left; eapply spoilt_more; eassumption|]. destruct (@eqb_spec str _ tag $"AU") as [->|NAU].
  - left. left. unfold authors. rewrite (values_more _ _ _ _ _ M), eqb_refl. exists (last (values $"AU" d) [] ++ nl :: w). split; [apply in_or_app; right; left; reflexivity|apply in_or_app; right; left; reflexivity].
  - right. assert (SA : authors d' = authors d) by (unfold authors; rewrite (values_more _ _ _ _ _ M), (neq_eqb NAU); reflexivity). rewrite SA. split; [exact ND|]. destruct (mem tag author_tags) eqn:MT.
    + apply mem_In in MT. destruct au as [a|]; [|destruct C as [_ C]; contradiction]. destruct C as [[l EL] CG]. specialize (CG MT). exists (upd g tag a (removelast (g tag a) ++ [last (g tag a) [] ++ nl :: w])). rewrite EL in ND. apply NoDup_snoc in ND as [NI ND]. split.
      * intros t' IT. rewrite SA, (values_more _ _ _ _ _ M), EL, flat_map_app. cbn [flat_map]. rewrite app_nil_r. rewrite (flat_upd g tag a _ l NI eq_refl t'). destruct (@eqb_spec str _ tag t') as [<-|N].
        -- rewrite upd_same, (G tag MT), EL, flat_map_app, map_app. cbn [flat_map map]. rewrite app_nil_r. set (X := flat_map _ l). rewrite (@app_removelast_last _ (g tag a) []) at 1 2 by exact CG. rewrite map_app. cbn [map]. rewrite !app_assoc, removelast_last, last_last. rewrite <- !app_assoc. f_equal. f_equal. f_equal. unfold mark. rewrite <- !app_assoc. reflexivity.
        -- rewrite upd_tag by congruence. rewrite (G t' IT), EL, flat_map_app. cbn [flat_map]. rewrite app_nil_r. reflexivity.
      * cbn [current]. rewrite SA. split; [exists l; exact EL|]. intros _. rewrite upd_same. intros E; apply app_eq_nil in E as [_ E]; discriminate.
    + apply mem_not_In in MT. exists g. split.
      * intros t' IT. rewrite SA, (values_more _ _ _ _ _ M). replace (eqb tag t') with false; [apply G, IT|]. symmetry. apply neq_eqb. intros ->. contradiction.
      * destruct au as [a|]; cbn [current] in *; rewrite SA; [split; [apply C|intros IT; contradiction]|split; [apply C|exact MT]].
Qed.
Lemma parse_by_author alpha ls d rest : medline_parse alpha ls = (Ok d, rest) -> NoDup (authors d) -> (forall a, In a (authors d) -> ~ In nl a /\ contains $" : " (a ++ $" :") = false) ->
  (forall t v, In t [$"AD"; $"AUID"] -> In v (values t d) -> starts_with $"None : " v = false) -> by_author d.
Proof.
  intros E ND NN NO. apply (mparse_inv alpha Minv) in E as (tag & au & I1).
  - destruct I1 as [[(a & IA & N)|[N|(t & v & IT & IV & W)]]|(_ & g & G & _)].
    + apply NN in IA as [IA _]. contradiction.
    + contradiction.
    + rewrite (NO t v IT IV) in W. discriminate.
    + split; [exact ND|]. exists g. intros t IT. split; [apply G, IT|]. intros a IA _. apply NN, IA.
  - intros tag au d0 t c I1 GT. exact (Minv_put alpha tag au d0 t c I1 GT).
  - intros. eapply Minv_more; eassumption.
  - right. split; [constructor|]. exists (fun _ _ => []). split; [intros t _; reflexivity|]. split; [reflexivity|]. intros IT. vm_compute in IT. repeat destruct IT as [IT|IT]; try discriminate. destruct IT.
Qed.

(** ** Files *)
Lemma head_pmid x l ls : $"PMID- " ++ x = concat (l :: ls) -> full_line l -> starts_with $"PMID- " l = true.
Proof.
  intros E (b & -> & N). cbn [concat] in E. rewrite <- app_assoc in E. cbn [app] in E. change $"PMID- " with [80;77;73;68;45;32]%N in *. cbn [app] in E.
  destruct b as [|b1 b]; cbn [app] in E; [discriminate|]. injection E as E1 E. destruct b as [|b2 b]; cbn [app] in E; [discriminate|]. injection E as E2 E. destruct b as [|b3 b]; cbn [app] in E; [discriminate|]. injection E as E3 E.
  destruct b as [|b4 b]; cbn [app] in E; [discriminate|]. injection E as E4 E. destruct b as [|b5 b]; cbn [app] in E; [discriminate|]. injection E as E5 E. destruct b as [|b6 b]; cbn [app] in E; [discriminate|]. injection E as E6 E. subst.
  apply starts_with_spec. eexists. reflexivity.
Qed.
Lemma record_lines alpha r : letters alpha -> writable alpha r ->
  exists ls r', write_mrec r = Ok (concat ls) /\ Forall full_line ls /\ (forall l, In l ls -> ~ In cr l) /\ (exists l ls', ls = l :: ls' /\ starts_with $"PMID- " l = true) /\
    same_record r' r /\ forall rest, medline_record alpha (ls ++ [nl] :: rest) = (Ok r', rest).
Proof.
  intros AL (B & ER & FG & BA & NR & number & others & fs & ED & EI). destruct (written_lines alpha (mdata r) AL FG BA) as (ls & W & FL & CH & d' & SF & tag & au & P).
  exists ls, (mkMrec (mid r) d' false None). split; [unfold write_mrec; rewrite B, W; reflexivity|]. split; [exact FL|]. split; [|split; [|split]].
  - intros l IL IC. destruct (CH l cr IL IC) as [E|[E|[E|[(t & vs & IT & [IC'|(v & IV & IC')])|E]]]]; try discriminate.
    + destruct FG as [_ G]. destruct (G t vs IT) as [(_ & _ & A) _]. apply A in IC'. apply AL in IC'. discriminate.
    + apply (NR t vs v IT IV IC').
    + apply AL in E. discriminate.
  - destruct ls as [|l ls].
    + exfalso. rewrite ED in W. discriminate.
    + exists l, ls. split; [reflexivity|]. inversion FL; subst. eapply (head_pmid _ l ls); [|assumption]. rewrite <- W, ED. unfold write_medline. cbn [map concat]. change (mem $"PMID" author_tags) with false. cbv iota. cbn [map concat]. unfold entry at 1. rewrite <- !app_assoc. reflexivity.
  - repeat split; cbn; auto.
  - intros rest. unfold medline_record. rewrite P. cbn [mparse]. change (isalpha alpha (rstrip (firstn 4 [nl]))) with false. cbv iota. change (eqb (firstn 6 [nl]) six) with false. cbv iota. rewrite eqb_refl. unfold mrec_of. rewrite (SF $"PMID"), ED. cbn [dget]. rewrite eqb_refl. rewrite EI. reflexivity.
Qed.
Lemma records_lines alpha : letters alpha -> forall rs, Forall (writable alpha) rs -> NoDup (map mid rs) ->
  exists L rs', write_mrecs rs = Ok (concat L) /\ Forall full_line L /\ (forall l, In l L -> ~ In cr l) /\ (rs <> [] -> exists l L', L = l :: L' /\ starts_with $"PMID- " l = true) /\ Forall2 same_record rs' rs /\
    forall fuel recs err, length L <= fuel -> (forall r, In r rs -> ~ In (MGood (mid r)) (map mkey_of recs)) -> med_loop alpha fuel L recs err = Ok (recs ++ rs', err).
Proof.
  intros AL. induction rs as [|r rs IH]; intros F ND.
  - exists [], []. split; [reflexivity|]. split; [constructor|]. split; [intros l []|]. split; [congruence|]. split; [constructor|]. intros fuel recs err _ _. rewrite app_nil_r. destruct fuel; reflexivity.
  - inversion F as [|? ? W F']; subst. cbn [map] in ND. inversion ND as [|? ? NI ND']; subst. destruct (IH F' ND') as (L & rs' & E1 & E2 & E3 & _ & E5 & E6). clear IH.
    destruct (record_lines alpha r AL W) as (ls & r' & W1 & W2 & W3 & (l & ls' & EL & SW) & W5 & W6). exists (ls ++ [nl] :: L), (r' :: rs'). split; [|split; [|split; [|split; [|split]]]].
    + cbn [write_mrecs]. rewrite W1. cbn [bind]. rewrite E1. cbn [bind]. rewrite concat_app. reflexivity.
    + apply Forall_app. split; [exact W2|]. constructor; [exists []; split; [reflexivity|intros []]|exact E2].
    + intros x I1. apply in_app_or in I1 as [I1|[<-|I1]]; [apply W3, I1|intros [E|[]]; discriminate|apply E3, I1].
    + intros _. exists l, (ls' ++ [nl] :: L). rewrite EL. split; [reflexivity|exact SW].
    + constructor; assumption.
    + intros fuel recs err LE NK. specialize (W6 L). rewrite EL in W6. cbn [app] in W6. rewrite EL in LE |- *. cbn [app] in LE |- *. destruct fuel as [|fuel]; [cbn in LE; lia|]. cbn [med_loop]. rewrite SW, W6.
      assert (MK : mkey_of r' = MGood (mid r)).
      { destruct W5 as (A & B & _). unfold mkey_of. rewrite B, A. destruct W as [-> _]. reflexivity. }
      replace (madd r' recs) with (recs ++ [r']).
      * rewrite E6.
        -- rewrite <- app_assoc. reflexivity.
        -- cbn [length] in LE. rewrite app_length in LE. cbn [length] in LE. lia.
        -- intros x I1. rewrite map_app, in_app_iff. cbn [map In]. intros [C|[C|[]]]; [apply (NK x (or_intror I1) C)|]. rewrite MK in C. injection C as C. apply NI. rewrite C. apply in_map. exact I1.
      * unfold madd. replace (mem (mkey_of r') (map mkey_of recs)) with false; [reflexivity|]. symmetry. apply mem_not_In. rewrite MK. apply NK. left. reflexivity.
Qed.
Lemma file_back alpha rs : letters alpha -> rs <> [] -> Forall (writable alpha) rs -> NoDup (map mid rs) ->
  exists txt rs', write_mfile rs = Ok txt /\ is_medline_file txt = true /\ medline_file alpha txt = Ok (rs', false) /\ Forall2 same_record rs' rs.
Proof.
  intros AL NE F ND. destruct (records_lines alpha AL rs F ND) as (L & rs' & E1 & E2 & E3 & E4 & E5 & E6). destruct (E4 NE) as (l & L' & -> & SW).
  exists (concat ([nl] :: l :: L')), rs'. assert (LN : lines (translate (concat ([nl] :: l :: L'))) = [nl] :: l :: L').
  { rewrite translate_id.
    - assert (FL : Forall full_line ([nl] :: l :: L')) by (constructor; [exists []; split; [reflexivity|intros []]|exact E2]). pose proof (@lines_app_full ([nl] :: l :: L') [] FL) as LA. rewrite app_nil_r in LA. rewrite LA. cbn [lines]. apply app_nil_r.
    - intros IC. apply in_concat in IC as (x & IX & IC). destruct IX as [<-|IX]; [destruct IC as [C|[]]; discriminate|apply (E3 x IX IC)]. }
  split; [|split; [|split]].
  - unfold write_mfile. destruct rs; [congruence|]. rewrite E1. reflexivity.
  - unfold is_medline_file. rewrite LN. cbn [firstn existsb]. rewrite SW. apply orb_true_r.
  - unfold medline_file. rewrite LN. remember (l :: L') as LL eqn:EL. cbn [length med_loop]. change (starts_with $"PMID- " [nl]) with false. cbv iota. rewrite eqb_refl. rewrite E6; [reflexivity|apply le_n|]. intros r _ [].
  - exact E5.
Qed.

(** ** What a text says *)
Definition ev_of (i : item) : str * str := (fst i, item_text i).
Lemma first_item f ws : ~ In nl f -> first_line (f ++ concat (map (fun w => nl :: w) ws)) = (f, match ws with [] => None | w :: ws' => Some (w ++ concat (map (fun w => nl :: w) ws')) end).
Proof.
  induction f as [|c f IH]; intros N.
  - destruct ws as [|w ws]; reflexivity.
  - cbn [app first_line]. destruct (@eqb_spec char _ c nl) as [->|NE]; [exfalso; apply N; left; reflexivity|]. rewrite IH by (intros I1; apply N; right; exact I1). reflexivity.
Qed.
Lemma conts_item ws : forall f, ~ In nl f -> (forall w, In w ws -> ~ In nl w) -> conts (f ++ concat (map (fun w => nl :: w) ws)) = ws.
Proof.
  induction ws as [|w ws IH]; intros f NF NW; (induction f as [|c f IHf]; [|cbn [app conts]; destruct (@eqb_spec char _ c nl) as [->|NE]; [exfalso; apply NF; left; reflexivity|apply IHf; intros I1; apply NF; right; exact I1]]).
  - reflexivity.
  - cbn [app map concat conts]. rewrite eqb_refl. rewrite first_item by (apply NW; left; reflexivity). cbn [fst]. f_equal. apply IH; [apply NW; left; reflexivity|]. intros x I1. apply NW. right. exact I1.
Qed.
Lemma item_entry alpha i : item_ok alpha i -> item_lines i = entry_lines (fst i) (item_text i).
Proof.
  destruct i as [t [f ws]]. intros [_ N]. unfold entry_lines, item_text. cbn [fst snd] in *. rewrite first_item by (apply N; left; reflexivity). rewrite conts_item; [reflexivity|apply N; left; reflexivity|]. intros w I1. apply N. right. exact I1.
Qed.
Lemma said_contribs alpha t : forall is au, Forall (item_ok alpha) is -> said t au is = contribs t au (map ev_of is).
Proof.
  induction is as [|i is IH]; intros au F; [reflexivity|]. inversion F as [|? ? [_ O] F']; subst. cbn [said map contribs].
  assert (FI : fst (first_line (item_text i)) = fst (snd i)) by (unfold item_text; rewrite first_item; [reflexivity|apply O; left; reflexivity]).
  change (ev_of i) with (fst i, item_text i). cbv beta iota. unfold next_author, full_value. rewrite FI.
  assert (E : (if eq_dec (fst i) $"AU" then Some (fst (snd i)) else au) = (if eqb (fst i) $"AU" then Some (fst (snd i)) else au)) by (destruct (@eqb_spec str _ (fst i) $"AU"), (eq_dec (fst i) $"AU"); congruence).
  rewrite E, IH by exact F'. destruct (in_dec eq_dec (fst i) [$"AD"; $"AUID"]) as [I1|NI].
  - replace (mem (fst i) author_tags) with true by (symmetry; apply mem_In; exact I1). destruct (eq_dec (fst i) t), (@eqb_spec str _ (fst i) t); try contradiction; reflexivity.
  - replace (mem (fst i) author_tags) with false by (symmetry; apply mem_not_In; exact NI). destruct (eq_dec (fst i) t), (@eqb_spec str _ (fst i) t); try contradiction; reflexivity.
Qed.
Lemma reads alpha is rest : letters alpha -> Forall (item_ok alpha) is ->
  exists d, medline_parse alpha (flat_map item_lines is ++ [nl] :: rest) = (Ok d, rest) /\ medline_parse alpha (flat_map item_lines is) = (Ok d, []) /\ forall t, dget t d = match said t None is with [] => None | vs => Some vs end.
Proof.
  intros AL F. assert (E : flat_map item_lines is = ev_lines (map ev_of is)).
  { clear AL. induction F as [|i is O F IH]; [reflexivity|]. cbn [flat_map map]. unfold ev_lines. cbn [flat_map]. fold (ev_lines (map ev_of is)). rewrite <- IH, (item_entry alpha) by exact O. reflexivity. }
  rewrite E. assert (G : forall t v, In (t, v) (map ev_of is) -> good_tag alpha t).
  { intros t v I1. apply in_map_iff in I1 as (i & EI & I1). injection EI as <- <-. apply (proj1 (Forall_forall _ _) F i I1). }
  exists (snd (run (map ev_of is) $"PMID" None [])). unfold medline_parse. split; [|split].
  - rewrite mparse_events by assumption. destruct (run (map ev_of is) $"PMID" None []) as [[tag au] d]. reflexivity.
  - rewrite <- (app_nil_r (ev_lines _)). rewrite mparse_events by assumption. destruct (run (map ev_of is) $"PMID" None []) as [[tag au] d]. reflexivity.
  - intros t. rewrite run_get, (said_contribs alpha) by exact F. reflexivity.
Qed.
