(** Common ground of the model: python values as Gallina values.
    Nothing here models repository code; it models the python built-ins the
    repository code uses.  It is part of the trusted reading of python. *)
From Coq Require Export List Arith NArith ZArith Bool Lia.
From Coq Require Export Permutation Sorted.
From Coq Require Import Ascii String.
Export ListNotations.
Set Implicit Arguments.

(** * Decidable equality *)
Class EqDec (A : Type) := eq_dec : forall x y : A, {x = y} + {x <> y}.
#[global] Hint Mode EqDec ! : typeclass_instances.
Definition eqb {A} `{EqDec A} (x y : A) : bool := if eq_dec x y then true else false.
#[global] Instance EqDec_N : EqDec N := N.eq_dec.
#[global] Instance EqDec_nat : EqDec nat := Nat.eq_dec.
#[global] Instance EqDec_Z : EqDec Z := Z.eq_dec.
#[global] Instance EqDec_bool : EqDec bool := bool_dec.
#[global] Instance EqDec_list {A} `{EqDec A} : EqDec (list A) := list_eq_dec eq_dec.
#[global] Instance EqDec_prod {A B} `{EqDec A} `{EqDec B} : EqDec (A * B).
Proof.
  intros [a b] [c d].
  destruct (eq_dec a c) as [->|N]; [destruct (eq_dec b d) as [->|N]|];
    [left; reflexivity| right | right]; intros E; apply N; congruence.
Defined.
#[global] Instance EqDec_option {A} `{EqDec A} : EqDec (option A).
Proof.
  intros [a|] [b|]; [destruct (eq_dec a b) as [->|N]| | |];
    first [left; reflexivity | right; congruence].
Defined.

Lemma eqb_true {A} `{EqDec A} (x y : A) : eqb x y = true <-> x = y.
Proof. unfold eqb; destruct (eq_dec x y); split; congruence. Qed.
Lemma eqb_false {A} `{EqDec A} (x y : A) : eqb x y = false <-> x <> y.
Proof. unfold eqb; destruct (eq_dec x y); split; congruence. Qed.
Lemma eqb_eq {A} `{EqDec A} (x y : A) : eqb x y = true -> x = y.
Proof. apply eqb_true. Qed.
Lemma eqb_neq {A} `{EqDec A} (x y : A) : eqb x y = false -> x <> y.
Proof. apply eqb_false. Qed.
Lemma neq_eqb {A} `{EqDec A} (x y : A) : x <> y -> eqb x y = false.
Proof. apply eqb_false. Qed.
Lemma eqb_refl {A} `{EqDec A} (x : A) : eqb x x = true.
Proof. apply eqb_true; reflexivity. Qed.
Lemma eqb_spec {A} `{EqDec A} (x y : A) : reflect (x = y) (eqb x y).
Proof. unfold eqb; destruct (eq_dec x y); constructor; assumption. Qed.
Lemma eqb_sym {A} `{EqDec A} (x y : A) : eqb x y = eqb y x.
Proof. unfold eqb; destruct (eq_dec x y), (eq_dec y x); congruence. Qed.

(** * Strings: lists of code points *)
Definition char := N.
Definition str := list char.

Fixpoint lit (s : string) : str :=
  match s with
  | EmptyString => []
  | String c s' => N_of_ascii c :: lit s'
  end.
Notation "$ s" := (lit s%string) (at level 1, s at level 0, format "$ s").

(** python [item in list] *)
Definition mem {A} `{EqDec A} (x : A) (l : list A) : bool := existsb (eqb x) l.
Lemma mem_In {A} `{EqDec A} (x : A) l : mem x l = true <-> In x l.
Proof.
  unfold mem; rewrite existsb_exists; split.
  - intros (y & I & E); apply eqb_eq in E; subst; assumption.
  - intros I; exists x; split; [assumption | apply eqb_refl].
Qed.
Lemma mem_not_In {A} `{EqDec A} (x : A) l : mem x l = false <-> ~ In x l.
Proof. rewrite <- mem_In; destruct (mem x l); split; congruence. Qed.

(** number of occurrences *)
Fixpoint count {A} `{EqDec A} (x : A) (l : list A) : nat :=
  match l with
  | [] => 0
  | y :: l' => (if eqb x y then 1 else 0) + count x l'
  end.
Lemma count_app {A} `{EqDec A} (x : A) l m : count x (l ++ m) = count x l + count x m.
Proof. induction l as [|y l IH]; cbn [count app]; [reflexivity|]; rewrite IH; lia. Qed.
Lemma count_In {A} `{EqDec A} (x : A) l : 0 < count x l <-> In x l.
Proof.
  induction l as [|y l IH]; cbn [count In]; [lia|].
  destruct (eqb_spec x y) as [->|N]; [split; [intros; left; reflexivity | lia]|].
  rewrite Nat.add_0_l, IH; split; [right; assumption | intros [E|I]; [congruence|assumption]].
Qed.
Lemma count_not_In {A} `{EqDec A} (x : A) l : count x l = 0 <-> ~ In x l.
Proof. rewrite <- count_In; lia. Qed.
Lemma count_Permutation {A} `{EqDec A} (x : A) l m : Permutation l m -> count x l = count x m.
Proof. induction 1; cbn [count]; lia. Qed.
Lemma count_NoDup {A} `{EqDec A} (x : A) l : NoDup l -> count x l <= 1.
Proof.
  induction 1 as [|y l NI ND IH]; cbn [count]; [lia|].
  destruct (eqb_spec x y) as [->|N]; [apply count_not_In in NI; lia | lia].
Qed.

Fixpoint nodupb {A} `{EqDec A} (l : list A) : bool :=
  match l with [] => true | x :: l' => negb (mem x l') && nodupb l' end.
Lemma nodupb_NoDup {A} `{EqDec A} (l : list A) : nodupb l = true -> NoDup l.
Proof.
  induction l as [|x l IH]; cbn [nodupb]; [constructor|].
  rewrite andb_true_iff, negb_true_iff, mem_not_In; intros [NI ND]; constructor; auto.
Qed.

(** * Exceptions as values *)
Inductive exn :=
| KeyError | TypeError | ValueError | IndexError | AttributeError | NameError
| UnboundLocalError | StopIteration | RuntimeError | ZeroDivisionError | EOFError
| UnpicklingError | FileNotFoundError | UnicodeDecodeError | OSError | EOther
| MkException | CollectionTypeError | RCTypeError | RCValueError | CacheError | TagError
| BadRecord | BadWOSRecord | BadWOSFile | BadPubmedRecord | BadPubmedFile
| BadScopusRecord | BadScopusFile | BadProQuestRecord | BadProQuestFile
| BadInputFile | UnknownFile | BadGrant | GrantCollectionException | BadCitation
| JournalDataBaseError | GenderException | RecordsNotCompatible.
#[global] Instance EqDec_exn : EqDec exn.
Proof. intros x y; unfold EqDec; decide equality. Defined.

Inductive res (A : Type) := Ok (a : A) | Raise (e : exn).
Arguments Ok {A} a.
Arguments Raise {A} e.
Definition bind {A B} (x : res A) (f : A -> res B) : res B :=
  match x with Ok a => f a | Raise e => Raise e end.
Notation "'let*' x ':=' e 'in' f" := (bind e (fun x => f)) (at level 200, x pattern, right associativity).

(** * Dictionaries: insertion-ordered association lists *)
Definition dict (K V : Type) := list (K * V).
Section Dict.
  Context {K V : Type} `{EqDec K}.
  Fixpoint dget (k : K) (d : dict K V) : option V :=
    match d with
    | [] => None
    | (k', v) :: d' => if eqb k k' then Some v else dget k d'
    end.
  (** [d[k] = v]: an existing key keeps its position *)
  Fixpoint dset (k : K) (v : V) (d : dict K V) : dict K V :=
    match d with
    | [] => [(k, v)]
    | (k', v') :: d' => if eqb k k' then (k', v) :: d' else (k', v') :: dset k v d'
    end.
  Fixpoint ddel (k : K) (d : dict K V) : dict K V :=
    match d with
    | [] => []
    | (k', v') :: d' => if eqb k k' then d' else (k', v') :: ddel k d'
    end.
  Definition dkeys (d : dict K V) : list K := map fst d.
  Definition dvals (d : dict K V) : list V := map snd d.
  Definition dhas (k : K) (d : dict K V) : bool := mem k (dkeys d).
  (** [d.update(e)] *)
  Definition dupdate (d e : dict K V) : dict K V :=
    fold_left (fun a kv => dset (fst kv) (snd kv) a) e d.

  Lemma dget_dset (k k' : K) (v : V) (d : dict K V) :
    dget k (dset k' v d) = if eqb k k' then Some v else dget k d.
  Proof.
    induction d as [|[a b] d IH]; cbn [dget dset]; [reflexivity|].
    destruct (eqb_spec k' a) as [->|N]; cbn [dget].
    - destruct (eqb_spec k a); reflexivity.
    - rewrite IH. destruct (eqb_spec k a) as [->|N2]; [|reflexivity].
      destruct (eqb_spec a k'); congruence.
  Qed.
  Lemma dget_dset_same k v d : dget k (dset k v d) = Some v.
  Proof. rewrite dget_dset, eqb_refl; reflexivity. Qed.
  Lemma dget_dset_other k k' v d : k <> k' -> dget k (dset k' v d) = dget k d.
  Proof. intros N; rewrite dget_dset; rewrite (neq_eqb N); reflexivity. Qed.
  Lemma dget_In k v d : dget k d = Some v -> In (k, v) d.
  Proof.
    induction d as [|[a b] d IH]; cbn [dget]; [congruence|].
    destruct (eqb_spec k a) as [->|N]; intros E; [left; congruence | right; auto].
  Qed.
  Lemma dget_None k d : dget k d = None <-> ~ In k (dkeys d).
  Proof.
    induction d as [|[a b] d IH]; cbn; [intuition|].
    destruct (eqb_spec k a) as [->|N]; [intuition congruence|]. rewrite IH. intuition congruence.
  Qed.
  Lemma dget_Some_key k v d : dget k d = Some v -> In k (dkeys d).
  Proof. intros E; apply dget_In in E; apply in_map_iff; exists (k, v); auto. Qed.
  Lemma dhas_spec k d : dhas k d = true <-> In k (dkeys d).
  Proof. apply mem_In. Qed.
  Lemma dhas_dget k d : dhas k d = match dget k d with Some _ => true | None => false end.
  Proof.
    destruct (dget k d) as [v|] eqn:E.
    - apply dhas_spec; eapply dget_Some_key; eassumption.
    - apply mem_not_In; apply dget_None; assumption.
  Qed.
  Lemma In_dget k v d : NoDup (dkeys d) -> In (k, v) d -> dget k d = Some v.
  Proof.
    induction d as [|[a b] d IH]; cbn; [intuition|].
    intros ND [E|I].
    - inversion E; subst; rewrite eqb_refl; reflexivity.
    - inversion ND as [|? ? NI ND']; subst. destruct (eqb_spec k a) as [->|N]; [|auto].
      exfalso; apply NI; apply in_map_iff; exists (a, v); auto.
  Qed.
  Lemma dkeys_dset k v d : dkeys (dset k v d) = if dhas k d then dkeys d else dkeys d ++ [k].
  Proof.
    unfold dhas; induction d as [|[a b] d IH]; cbn; [reflexivity|].
    destruct (eqb_spec k a) as [->|N]; cbn; [reflexivity|]. fold (dkeys (dset k v d)). rewrite IH.
    unfold mem, dkeys; destruct (existsb (eqb k) (map fst d)); reflexivity.
  Qed.
  Lemma In_dkeys_dset k k' v d : In k (dkeys (dset k' v d)) <-> k = k' \/ In k (dkeys d).
  Proof.
    rewrite dkeys_dset. destruct (dhas k' d) eqn:E.
    - apply dhas_spec in E; intuition congruence.
    - rewrite in_app_iff; cbn; intuition congruence.
  Qed.
  Lemma NoDup_dset k v d : NoDup (dkeys d) -> NoDup (dkeys (dset k v d)).
  Proof.
    intros ND; rewrite dkeys_dset. destruct (dhas k d) eqn:E; [assumption|].
    apply mem_not_In in E.
    apply Permutation_NoDup with (k :: dkeys d); [apply Permutation_cons_append|].
    constructor; assumption.
  Qed.
  Lemma dget_ddel k k' d : NoDup (dkeys d) -> dget k (ddel k' d) = if eqb k k' then None else dget k d.
  Proof.
    induction d as [|[a b] d IH]; cbn [dget ddel]; intros ND.
    - destruct (eqb k k'); reflexivity.
    - inversion ND as [|? ? NI ND']; subst. destruct (eqb_spec k' a) as [->|N].
      + destruct (eqb_spec k a) as [->|N2]; [apply dget_None; assumption|reflexivity].
      + cbn [dget]. rewrite IH by assumption. destruct (eqb_spec k a) as [->|N2]; [|reflexivity].
        destruct (eqb_spec a k'); congruence.
  Qed.
  Lemma dkeys_ddel_incl k d : incl (dkeys (ddel k d)) (dkeys d).
  Proof.
    induction d as [|[a b] d IH]; cbn; [intros ? []|].
    destruct (eqb k a); [intros x I; right; exact I|].
    intros x [E|I]; [left; assumption | right; apply IH; assumption].
  Qed.
  Lemma NoDup_ddel k d : NoDup (dkeys d) -> NoDup (dkeys (ddel k d)).
  Proof.
    induction d as [|[a b] d IH]; cbn; [constructor|]. intros ND; inversion ND; subst.
    destruct (eqb k a); [assumption|]. cbn. constructor; [|auto].
    intros I; apply dkeys_ddel_incl in I; auto.
  Qed.
  Lemma dget_dupdate k d e : NoDup (dkeys e) ->
    dget k (dupdate d e) = match dget k e with Some v => Some v | None => dget k d end.
  Proof.
    unfold dupdate; revert d; induction e as [|[a b] e IH]; cbn [fold_left dget dkeys map fst snd]; intros d ND;
      [reflexivity|].
    inversion ND as [|? ? NI ND']; subst. rewrite IH by assumption. rewrite dget_dset.
    destruct (eqb_spec k a) as [->|N]; [|destruct (dget k e); reflexivity].
    destruct (dget a e) eqn:E; [|reflexivity]. exfalso; apply NI; eapply dget_Some_key; eassumption.
  Qed.
  Lemma NoDup_dupdate d e : NoDup (dkeys d) -> NoDup (dkeys (dupdate d e)).
  Proof.
    unfold dupdate; revert d; induction e as [|[a b] e IH]; cbn [fold_left fst snd]; intros d ND; [assumption|].
    apply IH; apply NoDup_dset; assumption.
  Qed.
  Lemma In_dkeys_dupdate k d e : In k (dkeys (dupdate d e)) <-> In k (dkeys d) \/ In k (dkeys e).
  Proof.
    unfold dupdate; revert d; induction e as [|[a b] e IH]; cbn [fold_left fst snd dkeys map In]; intros d;
      [intuition|].
    rewrite IH, In_dkeys_dset; intuition congruence.
  Qed.
End Dict.

(** [d[k] += 1] or [d[k] = 1]: the counting idiom *)
Definition dincr {K} `{EqDec K} (k : K) (d : dict K nat) : dict K nat :=
  match dget k d with Some n => dset k (n + 1) d | None => dset k 1 d end.

(** first occurrences in order *)
Fixpoint uniq_acc {A} `{EqDec A} (seen l : list A) : list A :=
  match l with
  | [] => []
  | x :: l' => if mem x seen then uniq_acc seen l' else x :: uniq_acc (x :: seen) l'
  end.

(** decimal notation of a natural number, python [str(n)] *)
Fixpoint dec_fuel (f : nat) (n : N) (acc : str) : str :=
  match f with
  | O => acc
  | S f' =>
    let acc' := (48 + N.modulo n 10)%N :: acc in
    if N.eqb (N.div n 10) 0 then acc' else dec_fuel f' (N.div n 10) acc'
  end.
Definition dec_N (n : N) : str := dec_fuel (S (N.to_nat (N.log2 n))) n [].
Definition dec_nat (n : nat) : str := dec_N (N.of_nat n).
Definition dec_Z (z : Z) : str :=
  if (z <? 0)%Z then 45%N :: dec_N (Z.to_N (- z)) else dec_N (Z.to_N z).
