(** C88: copies of records and grants. *)
From Coq Require Import List ZArith Lia Bool Arith.
From Coq Require Import String.
From Verif Require Import Base TagNames CopyModel CopySpec CopyProofs.
From Verif Require RecordProofs PropertiesRecord.
Import ListNotations.
Local Open Scope list_scope.

Section Wos.
Context {V : Type}.
Variables (f : str -> V -> V) (cite : dict str V -> option V) (own_id no_grants : V).
Notation K := (wos_kind f cite own_id no_grants).
Lemma wos_lone x : special K x <> None -> altname K x = None.
Proof.
  cbn [special altname wos_kind]. destruct (eqb_spec x $"selfCitation") as [->|]; [intros _; vm_compute; reflexivity|]. destruct (eqb_spec x $"id") as [->|]; [intros _; vm_compute; reflexivity|]. destruct (eqb_spec x $"grants") as [->|]; [intros _; vm_compute; reflexivity|congruence].
Qed.
Lemma same_tags : forallb (fun p : str * str => Bool.eqb (mem (snd p) wos_same) (mem (fst p) [$"AF"; $"BE"; $"AU"; $"BA"; $"BF"; $"ED"])) wos_tags = true.
Proof. vm_compute. reflexivity. Qed.
Lemma tags_nodup : NoDup (dkeys wos_tags).
Proof. apply nodupb_NoDup. vm_compute. reflexivity. Qed.
Lemma func_raw t : func K t = None <-> unprocessed t.
Proof.
  cbn [func wos_kind]. unfold unprocessed. destruct (dget t wos_tags) as [m|] eqn:D.
  - pose proof D as I1. apply dget_In in I1. pose proof same_tags as S1. rewrite forallb_forall in S1. specialize (S1 _ I1). cbn [fst snd] in S1. apply Bool.eqb_prop in S1. rewrite S1. destruct (mem t _) eqn:M.
    + apply mem_In in M. split; auto.
    + apply mem_not_In in M. split; [discriminate|]. intros [H|H]; [destruct (H m I1)|contradiction].
  - split; [|auto]. intros _. left. intros m I1. apply (In_dget _ _ _ tags_nodup) in I1. congruence.
Qed.
Lemma func_new t g : func K t = Some g -> g = f t /\ ~ unprocessed t.
Proof.
  intros H. split; [|rewrite <- func_raw; congruence]. cbn [func wos_kind] in H. destruct (dget t wos_tags) as [m|]; [|discriminate]. destruct (mem m wos_same); [discriminate|congruence].
Qed.
Lemma field_meant (fd : dict str V) key : match field_of K fd key with Some (t, v) => meant fd key t /\ dget t fd = Some v | None => forall t, ~ meant fd key t end.
Proof.
  unfold field_of, meant. cbn [altname wos_kind]. destruct (dget key fd) as [v|] eqn:D; [split; [split; [eapply dget_Some_key; exact D|left; reflexivity]|exact D]|]. pose proof (proj1 (dget_None _ _) D) as NI.
  destruct (wos_alt key) as [a|] eqn:A; [destruct (dget a fd) as [v|] eqn:DA|].
  - split; [split; [eapply dget_Some_key; exact DA|right; auto]|exact DA].
  - intros t [I1 [<-|[_ E]]]; [contradiction|]. injection E as <-. apply dget_None in DA. contradiction.
  - intros t [I1 [<-|[_ E]]]; [contradiction|discriminate].
Qed.
Lemma value_wos (fd : dict str V) key : wos_value f cite own_id no_grants fd key (value K fd key).
Proof.
  unfold value. pose proof (field_meant fd key) as FM. destruct (field_of K fd key) as [[t v]|].
  - destruct FM as [M D]. destruct (func K t) as [g|] eqn:F; [destruct (func_new _ _ F) as [-> NU]; eapply VNew; eassumption|]. apply func_raw in F. eapply VRaw; eassumption.
  - cbn [special wos_kind]. destruct (eqb_spec key $"selfCitation") as [->|N1]; [apply VCite; auto|]. destruct (eqb_spec key $"id") as [->|N2]; [apply VId; auto|]. destruct (eqb_spec key $"grants") as [->|N3]; [apply VGrants; auto|]. apply VNone; [exact FM|]. intros [H|[H|[H|[]]]]; congruence.
Qed.
Lemma meant_one (fd : dict str V) key t t' : PropertiesRecord.one_name_each wos_alt fd -> meant fd key t -> meant fd key t' -> t = t'.
Proof. intros O1 [I1 [E1|[N1 A1]]] [I2 [E2|[N2 A2]]]; subst; try congruence; contradiction. Qed.
Lemma new_processed (fd : dict str V) key : PropertiesRecord.one_name_each wos_alt fd -> processed fd key -> is_new K fd key = true.
Proof.
  intros O1. unfold is_new. pose proof (field_meant fd key) as FM. destruct (field_of K fd key) as [[t v]|]; [|auto]. destruct FM as [M _]. intros [(t' & M' & NU)|H]; [|destruct (H t M)]. rewrite (meant_one fd key t t' O1 M M'). destruct (func K t') eqn:F; [reflexivity|]. apply func_raw in F. contradiction.
Qed.
End Wos.
(** The value is the only one: the words of the specification leave no choice. *)
Lemma wos_value_one (V : Type) f cite (own_id no_grants : V) (fd : dict str V) key x y : PropertiesRecord.one_name_each wos_alt fd ->
  wos_value f cite own_id no_grants fd key x -> wos_value f cite own_id no_grants fd key y -> x = y.
Proof.
  intros O1 A B. inversion A; inversion B; subst; try (exfalso; match goal with H : forall t, ~ meant _ _ t, M : meant _ _ _ |- _ => exact (H _ M) end); try (match goal with M : meant _ _ ?t, M' : meant _ _ ?t' |- _ => pose proof (meant_one _ _ _ _ O1 M M'); subst end); try congruence; try contradiction; try reflexivity; try discriminate;
    exfalso; match goal with N : ~ In _ _ |- _ => apply N; cbn; auto end.
Qed.

(** Whatever is looked up and copied, and however the processed values that lookups in other records returned are changed: a record, original or copy, has all the
    fields of the original and shows the values that they mean. *)
Theorem C88_wos_partial : forall (V : Type) f cite (own_id no_grants : V) fd cs r,
  PropertiesRecord.one_name_each wos_alt fd -> leaves_alone fd r cs ->
  let w := run (wos_kind f cite own_id no_grants) cs (fresh fd) in
  r < length (objs w) -> raw_fields w r = Some fd /\ forall key, wos_value f cite own_id no_grants fd key (shown (wos_kind f cite own_id no_grants) w r key).
Proof.
  intros V f cite own_id no_grants fd cs r O1 LA w LT. set (k := wos_kind f cite own_id no_grants) in *.
  assert (B : forall x a, altname k x = Some a -> altname k a = Some x) by (intros x a; apply RecordProofs.wos_back).
  assert (L : forall x, special k x <> None -> altname k x = None) by (intros x; apply wos_lone).
  assert (O2 : forall x y, In x (dkeys fd) -> In y (dkeys fd) -> altname k x = Some y -> x = y) by exact O1.
  destruct (run_inv k eq_refl B L fd O2 r cs [] (fun _ => 0) (fresh fd) (fresh_inv k fd r)) as (own & I1).
  { intros i c N. cbn [app]. pose proof (LA c (nth_error_In _ _ N)) as Q. destruct c; try exact Q. intros LI. destruct Q as (q & key & G & NR & P). exists q, key. split; [|split; [exact NR|apply new_processed; assumption]].
    rewrite <- (firstn_skipn i cs) in G. rewrite nth_error_app1 in G by exact LI. exact G. }
  cbn [app] in I1. split; [eapply raw_all; eassumption|]. intros key. rewrite (shown_value k eq_refl B L fd O2 r own w cs I1 LT). apply value_wos.
Qed.
(** A copy is one more record. *)
Theorem C88_one_more : forall (V : Type) (k : kind V) w r, r < length (objs w) ->
  length (objs (step k w (Copy r))) = S (length (objs w)) /\ (forall q, q < length (objs w) -> raw_fields (step k w (Copy r)) q = raw_fields w q /\ forall key, shown k (step k w (Copy r)) q key = shown k w q key) /\
  raw_fields (step k w (Copy r)) (length (objs w)) = raw_fields w r.
Proof.
  intros V k w r LT. cbn [step]. destruct (nth_error (objs w) r) as [o|] eqn:N; [|apply nth_error_Some in LT; congruence]. unfold returns. cbn [fst snd objs heap given]. split; [rewrite app_length; cbn; lia|]. split.
  - intros q LQ. split; [unfold raw_fields; cbn [objs]; rewrite nth_error_app1 by exact LQ; reflexivity|]. intros key. unfold shown, getitem. cbn [objs heap]. rewrite nth_error_app1 by exact LQ. destruct (nth_error (objs w) q) as [p|]; [|reflexivity].
    destruct (if remembers k then dget key (computed p) else None); [reflexivity|]. destruct (stands_for k p key) as [[t l]|].
    + destruct (func k t); [|reflexivity]. destruct (nth_error (heap w) l); reflexivity.
    + destruct (special k key) as [g|]; [|reflexivity]. change (contents (mkWorld (heap w) (objs w ++ [mkObj (fields o) []]) (given w ++ [None])) p) with (contents w p). destruct (g (contents w p)); reflexivity.
  - unfold raw_fields. cbn [objs]. rewrite nth_app_new, N. reflexivity.
Qed.
(** With the values that are not processed it is otherwise: what a lookup in a copy has returned is the list of the original. Changing it changes the original. *)
Lemma get_contents {V} (h : list V) t : forall d : dict str nat, (forall e, In e d -> nth_error h (snd e) <> None) ->
  dget t (flat_map (fun e : str * nat => match nth_error h (snd e) with Some v => [(fst e, v)] | None => [] end) d) = match dget t d with Some l => nth_error h l | None => None end.
Proof.
  induction d as [|[u l] d IH]; intros H; [reflexivity|]. cbn [flat_map dget fst snd]. destruct (nth_error h l) as [v|] eqn:N; [|destruct (H (u, l) (or_introl eq_refl)); exact N]. cbn [app dget]. destruct (eqb t u); [symmetry; exact N|]. apply IH. intros e I1. apply H. right. exact I1.
Qed.
Lemma numbered_below {V} (fd : dict str V) : forall m e, In e (numbered m fd) -> snd e < m + length fd.
Proof. induction fd as [|[t v] fd IH]; intros m e; cbn [numbered]; [intros []|]. intros [<-|I1]; cbn [snd length]; [lia|]. specialize (IH (S m) e I1). lia. Qed.
Theorem C88_refuted : forall (V : Type) f cite (own_id no_grants : V) fd t v0 v, dget t fd = Some v0 -> unprocessed t ->
  let w := run (wos_kind f cite own_id no_grants) [Copy 0; Get 1 t; Change 1 v] (fresh fd) in
  shown (wos_kind f cite own_id no_grants) w 0 t = Some v /\ exists fd', raw_fields w 0 = Some fd' /\ dget t fd' = Some v.
Proof.
  intros V f cite own_id no_grants fd t v0 v D U w. apply (func_raw f cite own_id no_grants) in U. pose proof (numbered_get t fd 0) as G. destruct (dget t (numbered 0 fd)) as [l|] eqn:DN; [|congruence]. destruct G as (x & _ & _ & HX). rewrite Nat.sub_0_r in HX.
  set (k := wos_kind f cite own_id no_grants) in *. set (o := mkObj (numbered 0 fd) []). assert (ST : stands_for k o t = Some (t, l)) by (unfold stands_for, o; cbn [fields]; rewrite DN; reflexivity).
  assert (W : w = mkWorld (put l v (map snd fd)) [o; remember k t l o] [None; Some l; None]).
  { unfold w, run, fresh. fold o. cbn [fold_left step nth_error objs heap given app fields]. unfold returns. cbn [fst snd heap objs given app]. change (mkObj (fields o) []) with o.
    assert (GT : forall h g, getitem k (mkWorld h [o; o] g) 1 t = (mkWorld h [o; remember k t l o] g, Some l)) by (intros h g; unfold getitem; cbn [nth_error objs heap given put]; replace (if remembers k then dget t (computed o) else None) with (@None nat) by reflexivity; rewrite ST, U; reflexivity).
    rewrite GT. cbn [fst snd heap objs given app nth_error]. reflexivity. }
  assert (HV : nth_error (put l v (map snd fd)) l = Some v) by (eapply put_same; exact HX). rewrite W. split.
  - unfold shown, getitem. cbn [nth_error objs heap given]. replace (if remembers k then dget t (computed o) else None) with (@None nat) by reflexivity. rewrite ST, U. cbn [heap]. exact HV.
  - eexists. split; [reflexivity|]. unfold contents. cbn [heap fields]. unfold o. cbn [fields]. rewrite get_contents.
    + rewrite DN. exact HV.
    + intros e I1. apply numbered_below in I1. apply nth_error_Some. rewrite put_length, map_length. exact I1.
Qed.
(** ** Grants: a copy has its own fields, and setting, deleting and updating those of one grant changes no other. *)
Definition sees {V} (h : list V) (d : dict str nat) (e : dict str V) : Prop := Forall2 (fun a b => fst a = fst b /\ nth_error h (snd a) = Some (snd b)) d e.
Lemma sees_contents {V} (h : list V) d e : sees h d e -> flat_map (fun x : str * nat => match nth_error h (snd x) with Some v => [(fst x, v)] | None => [] end) d = e.
Proof. induction 1 as [|[t l] [u v] d e [A B] _ IH]; [reflexivity|]. cbn [flat_map fst snd] in *. rewrite B, IH. subst u. reflexivity. Qed.
Lemma sees_exists {V} (h : list V) d : (forall e, In e d -> snd e < length h) -> sees h d (flat_map (fun x : str * nat => match nth_error h (snd x) with Some v => [(fst x, v)] | None => [] end) d).
Proof.
  induction d as [|[t l] d IH]; intros H; [constructor|]. cbn [flat_map fst snd]. destruct (nth_error h l) as [v|] eqn:N; [|apply nth_error_None in N; specialize (H (t, l) (or_introl eq_refl)); cbn in H; lia]. constructor; [cbn; auto|]. apply IH. intros e I1. apply H. right. exact I1.
Qed.
Lemma sees_set {V} (h : list V) d e t l v : sees h d e -> nth_error h l = Some v -> sees h (dset t l d) (dset t v e).
Proof.
  intros S1 N. induction S1 as [|[u m] [u' x] d e [A B] S2 IH]; cbn [dset]; [constructor; [cbn; auto|constructor]|]. cbn [fst] in A. subst u'. destruct (eqb t u); constructor; cbn; auto.
Qed.
Lemma sees_del {V} (h : list V) d e t : sees h d e -> sees h (ddel t d) (ddel t e).
Proof.
  intros S1. induction S1 as [|[u m] [u' x] d e [A B] S2 IH]; cbn [ddel]; [constructor|]. cbn [fst] in A. subst u'. destruct (eqb t u); [exact S2|]. constructor; cbn; auto.
Qed.
Lemma sees_update {V} (h : list V) d e d' e' : sees h d e -> sees h d' e' -> sees h (dupdate d d') (dupdate e e').
Proof.
  intros S1 S2. revert d e S1. induction S2 as [|[u m] [u' x] d' e' [A B] S2 IH]; intros d e S1; [exact S1|]. cbn [fst snd] in *. subst u'. unfold dupdate. cbn [fold_left fst snd]. apply IH. apply sees_set; assumption.
Qed.
Lemma sees_more {V} (h : list V) d e x : sees h d e -> sees (h ++ [x]) d e.
Proof. induction 1 as [|a b d e [A B] _ IH]; constructor; [|exact IH]. split; [exact A|]. apply nth_app_old, B. Qed.
Definition valid {V} (w : world V) : Prop := forall q o, nth_error (objs w) q = Some o -> forall e, In e (fields o) -> snd e < length (heap w).
Lemma valid_sees {V} (w : world V) q o : valid w -> nth_error (objs w) q = Some o -> sees (heap w) (fields o) (contents w o).
Proof. intros VA N. apply sees_exists. apply (VA q o N). Qed.
(** what a call does to the fields of the grants, each having a dict of its own *)
Definition on_fields {V} (c : call V) (gs : list (dict str V)) : list (dict str V) :=
  match c with
  | Copy r => match nth_error gs r with Some g => gs ++ [g] | None => gs end
  | Store r key v => match nth_error gs r with Some g => put r (dset key v g) gs | None => gs end
  | Delete r key => match nth_error gs r with Some g => put r (ddel key g) gs | None => gs end
  | Update r q => match nth_error gs r, nth_error gs q with Some g, Some h => put r (dupdate g h) gs | _, _ => gs end
  | Get _ _ | Raw _ _ | Change _ _ => gs
  end.
Lemma map_put {A B} (g : A -> B) x : forall l n, map g (put n x l) = put n (g x) (map g l).
Proof. induction l as [|y l IH]; intros [|n]; cbn; auto. f_equal. apply IH. Qed.
Lemma map_same {A B} (g h : A -> B) l : (forall n x, nth_error l n = Some x -> g x = h x) -> map g l = map h l.
Proof. intros H. apply map_ext_in. intros x I1. apply In_nth_error in I1 as (m & N). eapply H. exact N. Qed.
Lemma in_put {A} (x : A) : forall l n y q, nth_error (put n x l) q = Some y -> y = x \/ nth_error l q = Some y.
Proof. induction l as [|z l IH]; intros [|n] y [|q] H; cbn in *; try (right; exact H); try discriminate; [injection H as <-; auto|apply (IH n y q H)]. Qed.
Lemma put_twice {A} (y : A) : forall l n, nth_error l n = Some y -> put n y l = l.
Proof. induction l as [|z l IH]; intros [|n] H; cbn in *; try discriminate; [congruence|]. f_equal. auto. Qed.
Lemma grant_step {V} (w : world V) c : valid w -> (forall i v, c <> Change i v) -> valid (step grant_kind w c) /\ map (contents (step grant_kind w c)) (objs (step grant_kind w c)) = on_fields c (map (contents w) (objs w)).
Proof.
  intros VA NC. assert (NT : forall r, nth_error (map (contents w) (objs w)) r = option_map (contents w) (nth_error (objs w) r)) by (intros; apply nth_error_map).
  destruct c as [r|r key|r key|i v|r key v|r key|r q]; cbn [step on_fields]; try rewrite NT.
  - destruct (nth_error (objs w) r) as [o|] eqn:N; cbn [option_map]; [|split; [exact VA|reflexivity]]. split.
    + intros p o' NP e I1. unfold returns in *. cbn [fst objs heap] in *. destruct (Nat.lt_ge_cases p (length (objs w))) as [LT|GE]; [rewrite nth_error_app1 in NP by exact LT; eapply VA; eassumption|]. rewrite nth_error_app2 in NP by exact GE. destruct (p - length (objs w)) as [|m]; [|destruct m; discriminate]. cbn in NP. injection NP as <-. cbn [fields] in I1. eapply VA; eassumption.
    + unfold returns. cbn [fst objs]. rewrite map_app. reflexivity.
  - unfold getitem. cbn [remembers grant_kind]. destruct (nth_error (objs w) r) as [o|] eqn:N; [|split; [exact VA|reflexivity]]. cbn [func special grant_kind]. destruct (stands_for grant_kind o key) as [[t l]|]; [|split; [exact VA|reflexivity]].
    unfold remember. cbn [remembers grant_kind]. rewrite (put_twice o) by exact N. split; [exact VA|reflexivity].
  - split; [exact VA|reflexivity].
  - destruct (NC i v eq_refl).
  - destruct (nth_error (objs w) r) as [o|] eqn:N; cbn [option_map]; [|split; [exact VA|reflexivity]]. unfold returns. cbn [fst objs heap given].
    assert (S1 : sees (heap w ++ [v]) (dset key (length (heap w)) (fields o)) (dset key v (contents w o))) by (apply sees_set; [apply sees_more; eapply valid_sees; eassumption|apply nth_app_new]). split.
    + intros p o' NP e I1. cbn [objs heap] in *. rewrite app_length. cbn [length]. apply in_put in NP as [->|NP]; [|pose proof (VA _ _ NP e I1); lia]. cbn [fields] in I1. clear - S1 I1. unfold sees in S1. induction S1 as [|a b d1 d2 [_ B] _ IH]; [destruct I1|]. destruct I1 as [<-|I1]; [|apply IH, I1]. apply nth_lt in B. rewrite app_length in B. exact B.
    + rewrite map_put. f_equal; [apply sees_contents; exact S1|]. apply map_same. intros p o' NP. apply sees_contents. cbn [heap]. apply sees_more. eapply valid_sees; eassumption.
  - destruct (nth_error (objs w) r) as [o|] eqn:N; cbn [option_map]; [|split; [exact VA|reflexivity]]. unfold returns. cbn [fst objs heap given].
    assert (S1 : sees (heap w) (ddel key (fields o)) (ddel key (contents w o))) by (apply sees_del; eapply valid_sees; eassumption). split.
    + intros p o' NP e I1. cbn [objs heap] in *. apply in_put in NP as [->|NP]; [|exact (VA _ _ NP e I1)]. cbn [fields] in I1. clear - S1 I1. unfold sees in S1. induction S1 as [|a b d1 d2 [_ B] _ IH]; [destruct I1|]. destruct I1 as [<-|I1]; [eapply nth_lt; exact B|apply IH, I1].
    + rewrite map_put. f_equal. apply sees_contents. exact S1.
  - rewrite NT. destruct (nth_error (objs w) r) as [o|] eqn:N; cbn [option_map]; [|split; [exact VA|reflexivity]]. destruct (nth_error (objs w) q) as [p|] eqn:NQ; cbn [option_map]; [|split; [exact VA|reflexivity]]. unfold returns. cbn [fst objs heap given].
    assert (S1 : sees (heap w) (dupdate (fields o) (fields p)) (dupdate (contents w o) (contents w p))) by (apply sees_update; eapply valid_sees; eassumption). split.
    + intros p' o' NP e I1. cbn [objs heap] in *. apply in_put in NP as [->|NP]; [|exact (VA _ _ NP e I1)]. cbn [fields] in I1. clear - S1 I1. unfold sees in S1. induction S1 as [|a b d1 d2 [_ B] _ IH]; [destruct I1|]. destruct I1 as [<-|I1]; [eapply nth_lt; exact B|apply IH, I1].
    + rewrite map_put. f_equal. apply sees_contents. exact S1.
Qed.
Lemma fresh_valid {V} (fd : dict str V) : valid (fresh fd).
Proof. intros [|q] o N; [|destruct q; discriminate]. cbn in N. injection N as <-. intros e I1. cbn [fresh heap fields] in *. apply numbered_below in I1. rewrite map_length. exact I1. Qed.
(** Grants behave as if each had a dict of its own, which a copy gets the entries of: for every history of copying, looking up, setting, deleting and updating, in which no
    value is changed in place, the grants have the fields that these operations give to separate dicts. *)
Theorem C88_grants_partial : forall (V : Type) (fd : dict str V) cs, (forall i v, ~ In (Change i v) cs) ->
  let w := run grant_kind cs (fresh fd) in
  forall r, raw_fields w r = nth_error (fold_left (fun gs c => on_fields c gs) cs [fd]) r.
Proof.
  intros V fd cs NC w r. unfold raw_fields. rewrite <- nth_error_map. f_equal. unfold w, run.
  assert (G : forall (cs : list (call V)) (w : world V) gs, (forall i v, ~ In (Change i v) cs) -> valid w -> map (contents w) (objs w) = gs -> map (contents (fold_left (step grant_kind) cs w)) (objs (fold_left (step grant_kind) cs w)) = fold_left (fun gs c => on_fields c gs) cs gs).
  { clear. induction cs as [|c cs IH]; intros w gs NC VA E; [exact E|]. cbn [fold_left]. destruct (grant_step w c VA) as [V2 E2]; [intros i v ->; apply (NC i v); left; reflexivity|]. apply IH; [intros i v I1; apply (NC i v); right; exact I1|exact V2|rewrite E2, E; reflexivity]. }
  apply G; [exact NC|apply fresh_valid|]. cbn [fresh objs map]. f_equal. unfold contents. cbn [fields heap]. apply numbered_contents. intros i v N. exact N.
Qed.
(** so that a grant that no operation is applied to keeps its fields *)
Definition applied_to {V} (c : call V) (r : nat) : Prop := match c with Store q _ _ | Delete q _ | Update q _ => q = r | _ => False end.
Theorem C88_apart_partial : forall (V : Type) (fd : dict str V) before after r, (forall i v, ~ In (Change i v) (before ++ after)) -> (forall c, In c after -> ~ applied_to c r) ->
  let w := run grant_kind before (fresh fd) in r < length (objs w) -> raw_fields (run grant_kind after w) r = raw_fields w r.
Proof.
  intros V fd before after r NC NA w LT. unfold w. unfold run at 1 2. rewrite <- fold_left_app. fold (run grant_kind (before ++ after) (fresh fd)). fold (run grant_kind before (fresh fd)).
  rewrite (C88_grants_partial V fd (before ++ after) NC r), fold_left_app. rewrite (C88_grants_partial V fd before (fun i v I1 => NC i v (in_or_app _ _ _ (or_introl I1))) r).
  assert (X : exists g, nth_error (fold_left (fun gs c => on_fields c gs) before [fd]) r = Some g).
  { rewrite <- (C88_grants_partial V fd before (fun i v I1 => NC i v (in_or_app _ _ _ (or_introl I1))) r). unfold raw_fields. fold w. destruct (nth_error (objs w) r) as [o|] eqn:N; [eexists; reflexivity|]. apply nth_error_Some in LT. congruence. }
  destruct X as (g & X). rewrite X. clear - X NA. revert X. generalize (fold_left (fun gs c => on_fields c gs) before [fd]). induction after as [|c cs IH]; intros gs X; [exact X|]. cbn [fold_left]. apply IH; [intros d I1; apply NA; right; exact I1|].
  pose proof (NA c (or_introl eq_refl)) as AC. destruct c as [q|q key|q key|i v|q key v|q key|q p]; cbn [on_fields applied_to] in *; try exact X.
  - destruct (nth_error gs q); [apply nth_app_old|]; exact X.
  - destruct (nth_error gs q); [|exact X]. rewrite put_other by exact AC. exact X.
  - destruct (nth_error gs q); [|exact X]. rewrite put_other by exact AC. exact X.
  - destruct (nth_error gs q); [|exact X]. destruct (nth_error gs p); [|exact X]. rewrite put_other by exact AC. exact X.
Qed.
(** A record with a title and authors: the copy is read, its title is changed, then its authors. *)
Definition ex_fields : dict str (list str) := [($"AU", [$"A, B"; $"C, D"]); ($"TI", [$"On"; $"copies"])].
Definition ex_kind : kind (list str) := wos_kind (fun _ l => [concat l]) (fun _ => None) [$"WOS:1"] [].
Definition ex_calls : list (call (list str)) := [Copy 0; Get 1 $"title"; Change 1 [$"x"]; Get 0 $"AU"; Get 1 $"grants"].
Example C88_ex : let w := run ex_kind ex_calls (fresh ex_fields) in
  shown ex_kind w 0 $"TI" = Some [$"Oncopies"] /\ shown ex_kind w 1 $"TI" = Some [$"x"] /\ shown ex_kind w 0 $"authorsShort" = Some [$"A, B"; $"C, D"] /\ length (objs w) = 2.
Proof. repeat split; vm_compute; reflexivity. Qed.
Example C88_met : PropertiesRecord.one_name_each wos_alt ex_fields /\ leaves_alone ex_fields 0 ex_calls.
Proof.
  split.
  - intros x y [<-|[<-|[]]] [<-|[<-|[]]] E; vm_compute in E; congruence.
  - intros c [<-|[<-|[<-|[<-|[<-|[]]]]]]; try exact I. exists 1, $"title". split; [reflexivity|]. split; [discriminate|]. left. exists $"TI". split.
    + split; [right; left; reflexivity|]. right. split; [apply mem_not_In; vm_compute; reflexivity|vm_compute; reflexivity].
    + intros [H|H]; [apply (H $"title"); apply mem_In; vm_compute; reflexivity|]. apply mem_In in H. vm_compute in H. discriminate.
Qed.
Example C88_refuted_ex : unprocessed $"AU" /\ dget $"AU" ex_fields = Some [$"A, B"; $"C, D"].
Proof. split; [right; apply mem_In; vm_compute; reflexivity|vm_compute; reflexivity]. Qed.
Example C88_grants_ex : let w := run grant_kind [Copy 0; Store 1 $"Title" [$"x"]; Delete 0 $"Year"; Update 0 1] (fresh [($"Title", [$"a"]); ($"Year", [$"1990"])]) in
  raw_fields w 0 = Some [($"Title", [$"x"]); ($"Year", [$"1990"])] /\ raw_fields w 1 = Some [($"Title", [$"x"]); ($"Year", [$"1990"])].
Proof. split; vm_compute; reflexivity. Qed.
Print Assumptions C88_wos_partial.
Print Assumptions C88_one_more.
Print Assumptions C88_refuted.
Print Assumptions C88_grants_partial.
Print Assumptions C88_apart_partial.
