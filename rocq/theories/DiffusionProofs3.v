(** Proofs for DiffusionModel.v: order independence, comparison and tables. *)
From Coq Require Import String Lia Permutation.
From Verif Require Import Base PyStr Nx RecordView SeriesSpec RecordViewFacts NetModel NetSpec NetFacts DiffusionModel DiffusionSpec DiffusionProofs DiffusionProofs2.
Set Implicit Arguments.

Section More.
Context {V C E : Type} `{EqDec V} `{EqDec C} `{EqDec E}.
Variable truthy : V -> bool.
Variable letters : V -> option (list V).
Notation drec := (drec V C E).
Notation present := (present truthy).
Notation cited := (cited truthy).
Notation shape := (@shape V C E).

Lemma extras_eq (extra : bool) emap (t : drec) e : count e (extra_values extra emap t) = if extra then extra_in emap e t else 0.
Proof. unfold extra_values, extra_in. destruct extra; [|reflexivity]. destruct (d_extra t) as [[x|l]|]; reflexivity. Qed.
Lemma gain_eq all src v (t : drec) : gain truthy all src (One v) t = cited_in truthy all src v t.
Proof. unfold gain, cited_in. apply total_ext. intros c _. destruct (cited all src c); [|reflexivity]. apply count_map_One. Qed.
Lemma count_spec all raw extra emap src tgt : shape raw src ->
  exists d, diffusion_count truthy letters all raw extra emap src tgt = Ok d /\ NoDup (dkeys d) /\
    (forall k, In k (dkeys d) <-> exists v s c, k = One v /\ cited all src c = Some s /\ In v (entries_of s)) /\
    (forall v, In (One v) (dkeys d) -> total_for d v = Some (total (cited_in truthy all src v) tgt)) /\
    forall v e, extra_for d v e = if extra then total (fun t => cited_in truthy all src v t * extra_in emap e t) tgt else 0.
Proof.
  intros SH. destruct (@diffusion_count_spec V C E _ _ _ truthy letters all raw extra emap src SH tgt) as (d & E1 & [ND SC] & K & HE). exists d.
  split; [exact E1|]. split; [exact ND|]. split; [|split].
  - intros k. rewrite K. unfold key. split.
    + intros (s & c & Q & I1). apply in_map_iff in I1. destruct I1 as (v & <- & I1). exists v, s, c. auto.
    + intros (v & s & c & -> & Q & I1). exists s, c. split; [exact Q|]. apply in_map, I1.
  - unfold held, counts in *. intros v I1. unfold total_for. destruct (dget (One v) d) as [cs|] eqn:G; [|exfalso; apply dget_None in G; exact (G I1)].
    destruct (dget None cs) as [n|] eqn:Gn; [|exfalso; exact (SC _ _ G Gn)]. specialize (HE (One v) None). rewrite G, Gn in HE. f_equal. rewrite HE.
    apply total_ext. intros t _. cbn [adds]. rewrite gain_eq. lia.
  - unfold held, counts in *. intros v e. specialize (HE (One v) (Some e)). unfold extra_for. rewrite HE. destruct extra.
    + apply total_ext. intros t _. cbn [adds]. rewrite gain_eq, extras_eq. reflexivity.
    + rewrite <- (total_zero tgt) at 1. apply total_ext. intros t _. cbn [adds]. rewrite extras_eq. lia.
Qed.

(** ** the order of the sources *)
Lemma cited_none all src c : cited all src c = None <-> forall s : drec, In s src -> present s = true -> ~ In c (names all s).
Proof.
  unfold DiffusionSpec.cited. split.
  - intros Q s I1 P I2. apply in_rev in I1. pose proof (find_none _ _ Q s I1) as F. cbn in F. rewrite P in F. apply mem_In in I2. rewrite I2 in F. discriminate.
  - intros A1. destruct (find _ (rev src)) as [s|] eqn:Q; [|reflexivity]. destruct (cited_sound truthy all src c Q) as (I1 & P & I2). exfalso. exact (A1 s I1 P I2).
Qed.
Lemma cited_perm all (src src' : list drec) : unambiguous truthy all src -> Permutation src src' -> forall c,
  option_map d_id (cited all src c) = option_map d_id (cited all src' c).
Proof.
  intros U P c. destruct (cited all src c) as [s|] eqn:Q; destruct (cited all src' c) as [s'|] eqn:Q'; [| | |reflexivity].
  - apply cited_sound in Q, Q'. destruct Q as (I1 & P1 & C1), Q' as (I2 & P2 & C2). cbn. f_equal. apply (U s s' c); auto. eapply Permutation_in; [apply Permutation_sym, P|exact I2].
  - exfalso. apply cited_sound in Q. destruct Q as (I1 & P1 & C1). rewrite cited_none in Q'. exact (Q' s (Permutation_in _ P I1) P1 C1).
  - exfalso. apply cited_sound in Q'. destruct Q' as (I1 & P1 & C1). rewrite cited_none in Q. exact (Q s' (Permutation_in _ (Permutation_sym P) I1) P1 C1).
Qed.
Lemma entries_of_id (s s' : drec) : d_id s = d_id s' -> entries_of s = entries_of s'.
Proof. unfold entries_of. intros ->. reflexivity. Qed.
Lemma cited_in_perm all (src src' : list drec) v (t : drec) : unambiguous truthy all src -> Permutation src src' -> cited_in truthy all src v t = cited_in truthy all src' v t.
Proof.
  intros U P. unfold cited_in. apply total_ext. intros c _. pose proof (cited_perm U P c) as Q. destruct (cited all src c), (cited all src' c); cbn in Q; try discriminate; [|reflexivity].
  injection Q as Q. rewrite (entries_of_id _ _ Q). reflexivity.
Qed.
Lemma shape_perm raw (src src' : list drec) : shape raw src -> Permutation src src' -> shape raw src'.
Proof.
  intros [[R L]|L] P; [left; split; [exact R|]|right]; intros s f I1; apply L; eapply Permutation_in; [apply Permutation_sym, P|exact I1|apply Permutation_sym, P|exact I1].
Qed.

(** ** tables *)
Definition row : Type := fval V * option E * nat * nat.
Definition rows_of (compare extra : bool) (tag : option E) (loc : dict (fval V) (counts (E:=E))) (kc : fval V * counts (E:=E)) : list row :=
  if extra then map (fun en => (fst kc, fst en, snd en, match dget (fst kc) loc, tag with
                                                        | Some cs, Some e => match dget (Some e) cs with Some n => n | None => 0 end
                                                        | _, _ => 0 end)) (snd kc)
  else [(fst kc, None, match dget None (snd kc) with Some n => n | None => 0 end,
         match dget (fst kc) loc with Some cs => match dget None cs with Some n => n | None => 0 end | None => 0 end)].
Definition cols (compare : bool) (l : list row) : columns (V:=V) (E:=E) :=
  (map (fun r => fst (fst (fst r))) l, map (fun r => snd (fst (fst r))) l, map (fun r => snd (fst r)) l, if compare then map snd l else []).
Lemma cols_snoc (compare : bool) l k e n (m : nat) : add_row k e n (if compare then Some m else None) (cols compare l) = cols compare (l ++ [(k, e, n, m)]).
Proof. unfold cols, add_row. rewrite !map_app. destruct compare; reflexivity. Qed.
Lemma count_table_spec compare extra tag (d loc : dict (fval V) (counts (E:=E))) :
  (extra = false -> forall k cs, In (k, cs) d -> dget None cs <> None /\ (compare = true -> exists cs', dget k loc = Some cs' /\ dget None cs' <> None)) ->
  count_table compare extra tag d loc = Ok (cols compare (flat_map (rows_of compare extra tag loc) d)).
Proof.
  unfold count_table. change (@nil (fval V), @nil (option E), @nil nat, @nil nat) with (([], [], [], []) : columns (V:=V) (E:=E)).
  replace (([], [], [], []) : columns (V:=V) (E:=E)) with (cols compare []) by (destruct compare; reflexivity).
  rewrite <- (app_nil_l (flat_map _ d)). generalize (@nil row). induction d as [|[k cs] d IH]; intros acc A1; cbn [iter flat_map]; [rewrite app_nil_r; reflexivity|].
  assert (A2 : extra = false -> forall k cs, In (k, cs) d -> dget None cs <> None /\ (compare = true -> exists cs', dget k loc = Some cs' /\ dget None cs' <> None)).
  { intros X k' cs' I1. apply A1; [exact X|right; exact I1]. }
  destruct extra.
  - cbn [fst snd bind rows_of].
    replace (fold_left _ cs (cols compare acc)) with (cols compare (acc ++ rows_of compare true tag loc (k, cs))); [rewrite IH by exact A2; rewrite app_assoc; reflexivity|].
    unfold rows_of. cbn [fst snd]. clear. revert acc. induction cs as [|[e n] cs IH]; intros acc; [cbn; rewrite app_nil_r; reflexivity|]. cbn [fold_left map fst snd].
    set (m := match dget k loc with Some cs0 => match tag with Some e0 => match dget (Some e0) cs0 with Some n0 => n0 | None => 0 end | None => 0 end | None => 0 end) in *.
    replace (match match dget k loc with Some cs0 => Some cs0 | None => None end with
             | Some cs0 => match tag with Some e0 => match dget (Some e0) cs0 with Some n0 => n0 | None => 0 end | None => 0 end | None => 0 end) with m in * by (unfold m; destruct (dget k loc); reflexivity).
    rewrite cols_snoc. rewrite <- IH. rewrite <- app_assoc. reflexivity.
  - cbn [fst snd]. destruct (A1 eq_refl k cs (or_introl eq_refl)) as [N1 N2]. destruct (dget None cs) as [n|] eqn:G; [|congruence].
    unfold rows_of at 1. cbn [fst snd]. rewrite G. destruct compare.
    + destruct (N2 eq_refl) as (cs' & G1 & G2). rewrite G1. destruct (dget None cs') as [m|]; [|congruence]. cbn [bind].
      pose proof (cols_snoc true acc k None n m) as CS. cbn [app] in *. rewrite CS, IH by exact A2. rewrite <- app_assoc. reflexivity.
    + cbn [bind]. pose proof (cols_snoc false acc k None n (match dget k loc with Some cs0 => match dget None cs0 with Some n => n | None => 0 end | None => 0 end)) as CS. cbn [app] in *.
      rewrite CS, IH by exact A2. rewrite <- app_assoc. reflexivity.
Qed.
End More.
