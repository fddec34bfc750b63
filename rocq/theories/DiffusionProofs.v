(** Proofs for DiffusionModel.v: the counts. *)
From Coq Require Import String Lia Permutation.
From Verif Require Import Base PyStr Nx RecordView SeriesSpec RecordViewFacts NetModel NetSpec NetFacts DiffusionModel DiffusionSpec.
Set Implicit Arguments.

(** a loop each step of which adds to some measures *)
Lemma iter_add {A G I : Type} (f : A -> G -> res G) (P : G -> Prop) (m : I -> G -> nat) (w : I -> A -> nat) (l : list A) :
  (forall x g, In x l -> P g -> exists g', f x g = Ok g' /\ P g' /\ forall i, m i g' = m i g + w i x) ->
  forall g, P g -> exists g', iter f l g = Ok g' /\ P g' /\ forall i, m i g' = m i g + total (w i) l.
Proof.
  induction l as [|x l IH]; intros S1 g Pg.
  - exists g. cbn. split; [reflexivity|]. split; [exact Pg|]. intros i. lia.
  - destruct (S1 x g (or_introl eq_refl) Pg) as (g1 & E1 & P1 & M1).
    destruct (IH (fun y g' Iy => S1 y g' (or_intror Iy)) g1 P1) as (g2 & E2 & P2 & M2).
    exists g2. cbn [iter]. rewrite E1. cbn [bind]. split; [exact E2|]. split; [exact P2|]. intros i. rewrite M2, M1. unfold total. cbn [fold_right]. lia.
Qed.

Section Counts.
Context {V C E : Type} `{EqDec V} `{EqDec C} `{EqDec E}.
Variable truthy : V -> bool.
Variable letters : V -> option (list V).
Notation drec := (drec V C E).
Notation source_dict := (@source_dict V C E _ truthy).
Notation present := (present truthy).
Notation cited := (cited truthy).

Lemma true_present (r : drec) f : d_id r = Some f -> true_id truthy f = present r.
Proof. intros E1. unfold DiffusionSpec.present. rewrite E1. destruct f as [v|[|x l]]; reflexivity. Qed.
Lemma names_cited (all : bool) (r : drec) : as_cited all r = names all r.
Proof. reflexivity. Qed.
Lemma dget_fold_dset (f : fval V) cs : forall (sd : dict C (fval V)) c,
  dget c (fold_left (fun sd c => dset c f sd) cs sd) = if mem c cs then Some f else dget c sd.
Proof.
  induction cs as [|x cs IH]; intros sd c; cbn [fold_left]; [reflexivity|]. rewrite IH, dget_dset. unfold mem. cbn [existsb].
  destruct (eqb c x); cbn [orb]; [|reflexivity]. destruct (existsb (eqb c) cs); reflexivity.
Qed.
Lemma NoDup_fold_dset (f : fval V) cs : forall sd : dict C (fval V), NoDup (dkeys sd) -> NoDup (dkeys (fold_left (fun sd c => dset c f sd) cs sd)).
Proof. induction cs as [|x cs IH]; intros sd ND; cbn; [exact ND|]. apply IH, NoDup_dset, ND. Qed.
Lemma cited_snoc all src (r : drec) c : cited all (src ++ [r]) c = if present r && mem c (names all r) then Some r else cited all src c.
Proof. unfold DiffusionSpec.cited. rewrite rev_app_distr. reflexivity. Qed.
Lemma source_dict_spec all src : NoDup (dkeys (source_dict all src)) /\
  forall c, dget c (source_dict all src) = match cited all src c with Some s => d_id s | None => None end.
Proof.
  induction src as [|r src [ND IH]] using rev_ind; [split; [constructor|reflexivity]|].
  unfold DiffusionModel.source_dict in *. rewrite fold_left_app. cbn [fold_left].
  destruct (d_id r) as [f|] eqn:F.
  - rewrite (true_present r F). destruct (present r) eqn:P.
    + split; [apply NoDup_fold_dset, ND|]. intros c. rewrite dget_fold_dset, cited_snoc, P, names_cited. cbn [andb]. destruct (mem c (names all r)); [congruence|apply IH].
    + split; [exact ND|]. intros c. rewrite cited_snoc, P. apply IH.
  - split; [exact ND|]. intros c. rewrite cited_snoc. assert (P : present r = false) by (unfold DiffusionSpec.present; rewrite F; reflexivity). rewrite P. apply IH.
Qed.
Lemma cited_sound all src c (s : drec) : cited all src c = Some s -> In s src /\ present s = true /\ In c (names all s).
Proof.
  intros E1. apply find_some in E1. destruct E1 as [I1 E1]. apply in_rev in I1. apply andb_true_iff in E1. destruct E1 as [E1 M]. apply mem_In in M. auto.
Qed.
Lemma present_id (s : drec) : present s = true -> exists f, d_id s = Some f.
Proof. unfold DiffusionSpec.present. destruct (d_id s) as [f|]; [eauto|discriminate]. Qed.

(** the form of the values *)
Definition shape (raw : bool) (src : list drec) : Prop := (raw = false /\ lists_only src) \/ lone_only src.
Lemma list_ids_lists src (s : drec) : lists_only src -> In s src -> d_id s <> None -> list_ids false src = true.
Proof.
  induction src as [|r src IH]; intros L I1 N1; [destruct I1|]. cbn. destruct (d_id r) as [[v|l]|] eqn:F.
  - destruct (L r _ (or_introl eq_refl) F) as [l Hl]. discriminate.
  - reflexivity.
  - destruct I1 as [->|I1]; [congruence|]. apply IH; auto. intros s' f I2. apply L. right. exact I2.
Qed.
Lemma list_ids_lone raw src : lone_only src -> list_ids (V:=V) (C:=C) (E:=E) raw src = false.
Proof.
  induction src as [|r src IH]; intros L; [reflexivity|]. cbn. destruct raw; [reflexivity|]. destruct (d_id r) as [[v|l]|] eqn:F; [reflexivity| |].
  - destruct (L r _ (or_introl eq_refl) F) as [v Hv]. discriminate.
  - apply IH. intros s f I1. apply L. right. exact I1.
Qed.
Lemma keys_of_entries raw src (s : drec) f : shape raw src -> In s src -> d_id s = Some f -> keys_of letters (list_ids raw src) f = Ok (map One (entries_of s)).
Proof.
  intros [[-> L]|L] I1 F; unfold entries_of; rewrite F; destruct (L s f I1 F) as [x ->].
  - rewrite (list_ids_lists s L I1) by congruence. reflexivity.
  - rewrite list_ids_lone by exact L. reflexivity.
Qed.

(** the counts kept *)
Definition held (d : dict (fval V) (counts (E:=E))) (k : fval V) (e : option E) : nat :=
  match dget k d with Some cs => match dget e cs with Some n => n | None => 0 end | None => 0 end.
Definition sound_counts (d : dict (fval V) (counts (E:=E))) : Prop :=
  NoDup (dkeys d) /\ forall k cs, dget k d = Some cs -> dget None cs <> None.
Definition adds (vals : list E) (e : option E) : nat := match e with None => 1 | Some x => count x vals end.
Lemma count_one_spec vals k d ks : sound_counts d -> dkeys d = ks -> In k ks ->
  exists d', count_one vals k d = Ok d' /\ sound_counts d' /\ dkeys d' = ks /\
    forall k' e, held d' k' e = held d k' e + (if eqb k' k then adds vals e else 0).
Proof.
  intros [ND SC] K I1. unfold count_one. destruct (dget k d) as [cs|] eqn:G; [|exfalso; apply dget_None in G; rewrite K in G; exact (G I1)].
  destruct (dget None cs) as [n|] eqn:Gn; [|exfalso; exact (SC k cs G Gn)].
  set (cs' := fold_left _ vals _).
  assert (F : forall e, match dget e cs' with Some n => n | None => 0 end = match dget e cs with Some n => n | None => 0 end + adds vals e).
  { assert (FM : cs' = fold_left (fun d v => dincr v d) (map Some vals) (dset None (n + 1) cs)).
    { unfold cs'. generalize (dset None (n + 1) cs). clear. induction vals as [|v vals IH]; intros c0; [reflexivity|]. cbn. apply IH. }
    intros e. rewrite FM, (proj1 (fold_dincr _ _)), dget_dset.
    assert (CM : count e (map Some vals) = match e with None => 0 | Some x => count x vals end).
    { clear. induction vals as [|v vals IH]; cbn; [destruct e; reflexivity|]. rewrite IH. destruct e as [x|].
      - destruct (eqb_spec x v) as [->|N1]; [rewrite eqb_refl; reflexivity|]. rewrite neq_eqb by congruence. reflexivity.
      - rewrite neq_eqb by discriminate. reflexivity. }
    rewrite CM. destruct e as [x|]; cbn [adds].
    - rewrite (neq_eqb (x:=Some x) (y:=None)) by discriminate. destruct (dget (Some x) cs); [reflexivity|]. destruct (count x vals); reflexivity.
    - rewrite eqb_refl, Gn. lia. }
  assert (FN : dget None cs' <> None).
  { intros E0. specialize (F None). rewrite E0, Gn in F. cbn in F. lia. }
  eexists; split; [reflexivity|]. split; [split|split].
  - apply NoDup_dset, ND.
  - intros k' cs0. rewrite dget_dset. destruct (eqb k' k); [intros [= <-]; exact FN|apply SC].
  - rewrite dkeys_dset, dhas_dget, G. exact K.
  - intros k' e. unfold held. rewrite dget_dset. destruct (eqb_spec k' k) as [->|N1]; [|lia]. rewrite F, G. reflexivity.
Qed.

Lemma count_map_One (v : V) l : count (One v) (map One l) = count v l.
Proof.
  induction l as [|x l IH]; [reflexivity|]. cbn. rewrite IH. destruct (eqb_spec v x) as [->|N1]; [rewrite eqb_refl; reflexivity|]. rewrite neq_eqb by congruence. reflexivity.
Qed.
Lemma total_one k (l : list (fval V)) n : total (fun x => if eqb k x then n else 0) l = count k l * n.
Proof. induction l as [|x l IH]; [reflexivity|]. unfold total in *. cbn [fold_right count]. rewrite IH. destruct (eqb k x); lia. Qed.

Variables (all raw extra : bool) (emap : E -> E) (src : list drec).
Hypothesis SH : shape raw src.
Notation sd := (source_dict all src).
Notation lid := (list_ids raw src).
Definition key (k : fval V) : Prop := exists s c, cited all src c = Some s /\ In k (map One (entries_of s)).

Lemma sd_value c f : dget c sd = Some f -> exists s, cited all src c = Some s /\ d_id s = Some f /\ keys_of letters lid f = Ok (map One (entries_of s)).
Proof.
  rewrite (proj2 (source_dict_spec all src)). destruct (cited all src c) as [s|] eqn:Q; [|discriminate]. intros F. exists s. split; [reflexivity|]. split; [exact F|].
  apply cited_sound in Q. destruct Q as (I1 & _). exact (keys_of_entries s SH I1 F).
Qed.
Lemma zero_counts_spec : exists d, zero_counts letters lid sd = Ok d /\ sound_counts d /\ (forall k, In k (dkeys d) <-> key k) /\
  forall k cs, dget k d = Some cs -> cs = [(None, 0)].
Proof.
  unfold zero_counts.
  assert (VF : forall f, In f (dvals sd) <-> exists c, dget c sd = Some f).
  { intros f. split.
    - intros I1. apply in_map_iff in I1. destruct I1 as ([c f'] & E1 & I1). cbn in E1. subst f'. exists c. apply In_dget; [apply source_dict_spec|exact I1].
    - intros [c G]. apply in_map_iff. exists (c, f). split; [reflexivity|apply dget_In, G]. }
  assert (KS : forall fs d, (forall f, In f fs -> exists c, dget c sd = Some f) -> NoDup (dkeys d) -> (forall k cs, dget k d = Some cs -> cs = [(None, 0)]) ->
    exists d', iter (fun f d => let* ks := keys_of letters lid f in Ok (fold_left (fun d k => dset k [(None, 0)] d) ks d)) fs d = Ok d' /\
      NoDup (dkeys d') /\ (forall k cs, dget k d' = Some cs -> cs = [(@None E, 0)]) /\
      forall k, In k (dkeys d') <-> In k (dkeys d) \/ exists f ks, In f fs /\ keys_of letters lid f = Ok ks /\ In k ks).
  { induction fs as [|f fs IH]; intros d AV ND Z0.
    - exists d. cbn. split; [reflexivity|]. split; [exact ND|]. split; [exact Z0|]. intros k. split; [auto|]. intros [I1|(f & ks & [] & _)]; exact I1.
    - destruct (AV f (or_introl eq_refl)) as [c G]. destruct (sd_value c G) as (s & Q & F & KO). cbn [iter]. rewrite KO. cbn [bind].
      set (ks := map One (entries_of s)) in *.
      assert (DK : forall ks d, NoDup (dkeys d) -> (forall k cs, dget k d = Some cs -> cs = [(None, 0)]) ->
        let d' := fold_left (fun d k => dset k [(@None E, 0)] d) ks d in
        NoDup (dkeys d') /\ (forall k cs, dget k d' = Some cs -> cs = [(None, 0)]) /\ forall k : fval V, In k (dkeys d') <-> In k (dkeys d) \/ In k ks).
      { clear. induction ks as [|k ks IH]; intros d ND Z0; cbn [fold_left].
        - split; [exact ND|]. split; [exact Z0|]. intros k. cbn. intuition.
        - destruct (IH (dset k [(None, 0)] d)) as (A1 & A2 & A3).
          + apply NoDup_dset, ND.
          + intros k' cs. rewrite dget_dset. destruct (eqb k' k); [intros [= <-]; reflexivity|apply Z0].
          + split; [exact A1|]. split; [exact A2|]. intros k'. rewrite A3, In_dkeys_dset. cbn. intuition congruence. }
      destruct (DK ks d ND Z0) as (A1 & A2 & A3).
      destruct (IH _ (fun f' I1 => AV f' (or_intror I1)) A1 A2) as (d' & E' & ND' & Z' & K'). exists d'. split; [exact E'|]. split; [exact ND'|]. split; [exact Z'|].
      intros k. rewrite K', A3. split.
      + intros [[I1|I1]|(f' & ks' & I1 & KO' & I2)]; [auto|right; exists f, ks; cbn; auto|right; exists f', ks'; cbn; auto].
      + intros [I1|(f' & ks' & [<-|I1] & KO' & I2)]; [auto| |right; eauto]. left. right. rewrite KO in KO'. injection KO' as <-. exact I2. }
  destruct (KS (dvals sd) [] (fun f I1 => proj1 (VF f) I1) (NoDup_nil _)) as (d & E1 & ND & Z0 & K1); [intros k cs G; discriminate|].
  exists d. split; [exact E1|]. split; [split; [exact ND|]|split; [|exact Z0]].
  - intros k cs G. rewrite (Z0 k cs G). discriminate.
  - intros k. rewrite K1. split.
    + intros [[]|(f & ks & I1 & KO & I2)]. apply VF in I1. destruct I1 as [c G]. destruct (sd_value c G) as (s & Q & F & KO'). exists s, c. split; [exact Q|]. rewrite KO in KO'. injection KO' as ->. exact I2.
    + intros (s & c & Q & I1). right. assert (Q' := Q). apply cited_sound in Q'. destruct Q' as (Is & Ps & _). destruct (present_id _ Ps) as [f F].
      assert (G : dget c sd = Some f) by (rewrite (proj2 (source_dict_spec all src)), Q; exact F).
      exists f, (map One (entries_of s)). split; [apply VF; eauto|]. split; [|exact I1]. exact (keys_of_entries s SH Is F).
Qed.

Definition gain (k : fval V) (t : drec) : nat := total (fun c => match cited all src c with Some s => count k (map One (entries_of s)) | None => 0 end) (refs t).
Lemma count_target_spec t d ks : sound_counts d -> dkeys d = ks -> (forall k, key k -> In k ks) ->
  exists d', count_target letters lid extra emap sd t d = Ok d' /\ (sound_counts d' /\ dkeys d' = ks) /\
    forall ke, held d' (fst ke) (snd ke) = held d (fst ke) (snd ke) + gain (fst ke) t * adds (extra_values extra emap t) (snd ke).
Proof.
  intros SC K KI. unfold count_target, gain. fold (refs t).
  assert (TS : forall (w : C -> nat) n l, total (fun c => w c * n) l = total w l * n).
  { intros w n l. unfold total. induction l as [|x l IH]; [reflexivity|]. cbn [fold_right]. rewrite IH. lia. }
  setoid_rewrite <- (TS _ _ _).
  apply (@iter_add C _ (fval V * option E) _ (fun d => sound_counts d /\ dkeys d = ks) (fun ke d => held d (fst ke) (snd ke))
    (fun ke c => (match cited all src c with Some s => count (fst ke) (map One (entries_of s)) | None => 0 end) * adds (extra_values extra emap t) (snd ke))); [|auto].
  intros c d0 _ [SC0 K0]. destruct (dget c sd) as [f|] eqn:G.
  - destruct (sd_value c G) as (s & Q & F & KO). rewrite KO, Q. cbn [bind].
    destruct (@iter_add (fval V) _ (fval V * option E) (count_one (extra_values extra emap t)) (fun d => sound_counts d /\ dkeys d = ks) (fun ke d => held d (fst ke) (snd ke))
      (fun ke x => if eqb (fst ke) x then adds (extra_values extra emap t) (snd ke) else 0) (map One (entries_of s))) with (g := d0) as (d' & E' & P' & M').
    + intros k d1 Ik [SC1 K1]. destruct (@count_one_spec (extra_values extra emap t) k d1 ks SC1 K1) as (d2 & E2 & SC2 & K2 & H2); [apply KI; exists s, c; auto|].
      exists d2. split; [exact E2|]. split; [auto|]. intros [k' e]. apply H2.
    + auto.
    + exists d'. split; [exact E'|]. split; [exact P'|]. intros ke. rewrite M', total_one. reflexivity.
  - exists d0. split; [reflexivity|]. split; [auto|]. intros ke. rewrite (proj2 (source_dict_spec all src)) in G. destruct (cited all src c) as [s|] eqn:Q; [|lia].
    apply cited_sound in Q. destruct Q as (_ & Ps & _). destruct (present_id _ Ps) as [f F]. congruence.
Qed.
Lemma diffusion_count_spec tgt : exists d, diffusion_count truthy letters all raw extra emap src tgt = Ok d /\ sound_counts d /\ (forall k, In k (dkeys d) <-> key k) /\
  forall k e, held d k e = total (fun t => gain k t * adds (extra_values extra emap t) e) tgt.
Proof.
  unfold diffusion_count. destruct zero_counts_spec as (d0 & E0 & SC0 & K0 & Z0). rewrite E0. cbn [bind].
  destruct (@iter_add drec _ (fval V * option E) (count_target letters lid extra emap sd) (fun d => sound_counts d /\ dkeys d = dkeys d0) (fun ke d => held d (fst ke) (snd ke))
      (fun ke t => gain (fst ke) t * adds (extra_values extra emap t) (snd ke)) tgt) with (g := d0) as (d' & E' & (SC' & K') & M').
  - intros t d _ [SC K]. apply count_target_spec; [exact SC|exact K|]. intros k. apply K0.
  - auto.
  - exists d'. split; [exact E'|]. split; [exact SC'|]. split; [intros k; rewrite K'; apply K0|]. intros k e. specialize (M' (k, e)). cbn [fst snd] in M'. rewrite M'.
    assert (Z : held d0 k e = 0); [|rewrite Z; reflexivity]. unfold held. destruct (dget k d0) as [cs|] eqn:G; [|reflexivity]. rewrite (Z0 _ _ G). cbn [dget]. destruct (eqb e None); reflexivity.
Qed.
End Counts.
