(** C46: collections read with a cache. *)
From Coq Require Import List ZArith Lia Bool Arith Permutation.
From Coq Require Import String.
From Verif Require Import Base PyStr CacheModel CacheSpec CacheProofs CacheProofs2 CacheProofs3.
Import ListNotations.
Local Open Scope list_scope.

(** Whatever happened to a directory before, with calls interrupted anywhere, a call gives the collection that reading the files again gives, with the files in some order,
    or, only after an interrupted call, raises the error of a cache that was not completely written. *)
Theorem C46_same_partial : forall rec (E : EqDec rec) dir parse (enc : stamp * coll rec -> list N) dec, pickle_ok enc dec ->
  forall fs h, NoDup (dkeys fs) -> (forall f, In f (dkeys fs) -> user_file f) -> times_tell fs h -> quiet dir parse enc dec (mkWorld fs None) h ->
  forall fs1 a r, run dir parse enc dec h (mkWorld fs None) = mkWorld fs1 (Some (a, Done r)) ->
  (exists fs2, Permutation fs2 fs1 /\ returns dir parse enc dec (uncached a) fs2 r fs2) \/
  (In Kill h /\ a_cached a = true /\ exists v b more e, enc v = b ++ more /\ more <> [] /\ dec b = Raise e /\ e <> UnpicklingError /\ e <> KeyError /\ e <> FileNotFoundError /\ r = Raise e).
Proof.
  intros rec E dir parse enc dec PK fs h ND UF TT Q fs1 a r R. destruct (cached_same dir parse enc dec h fs _ a r PK ND UF TT Q eq_refl) as [A|(K & CA & e & ((v & b & more & E1 & E2 & E3) & NI) & ->)].
  - rewrite R. reflexivity.
  - left. rewrite R in A. exact A.
  - right. split; [exact K|]. split; [exact CA|]. exists v, b, more, e. repeat split; auto; intros ->; apply NI; cbn; tauto.
Qed.
(** Without interruptions it is always the collection that reading again gives. *)
Theorem C46_same : forall rec (E : EqDec rec) dir parse (enc : stamp * coll rec -> list N) dec, pickle_ok enc dec ->
  forall fs h, NoDup (dkeys fs) -> (forall f, In f (dkeys fs) -> user_file f) -> times_tell fs h -> quiet dir parse enc dec (mkWorld fs None) h -> ~ In Kill h ->
  forall fs1 a r, run dir parse enc dec h (mkWorld fs None) = mkWorld fs1 (Some (a, Done r)) ->
  exists fs2, Permutation fs2 fs1 /\ returns dir parse enc dec (uncached a) fs2 r fs2.
Proof.
  intros rec E dir parse enc dec PK fs h ND UF TT Q NK fs1 a r R. destruct (C46_same_partial rec E dir parse enc dec PK fs h ND UF TT Q fs1 a r R) as [A|[K _]]; [exact A|contradiction].
Qed.
(** Every call returns or raises, and what it gives is determined by the directory. *)
Theorem C46_ends : forall rec (E : EqDec rec) dir parse (enc : stamp * coll rec -> list N) dec a fs,
  (exists r fs', returns dir parse enc dec a fs r fs') /\ forall r1 fs1 r2 fs2, returns dir parse enc dec a fs r1 fs1 -> returns dir parse enc dec a fs r2 fs2 -> r1 = r2.
Proof. intros. split; [apply call_ends|]. intros. eapply one_result; eassumption. Qed.
(** After a call with cached=True the same call gives the same collection without reading a file: listing and loading are enough, and the directory is unchanged. *)
Theorem C46_reload : forall rec (E : EqDec rec) dir parse (enc : stamp * coll rec -> list N) dec, pickle_ok enc dec ->
  forall a fs c fs', NoDup (dkeys fs) -> a_kind a = Records -> a_cached a = true -> returns dir parse enc dec a fs (Ok c) fs' ->
  forall n1 m1 n2 m2, run dir parse enc dec [Call a; Tick n1 m1; Tick n2 m2] (mkWorld fs' None) = mkWorld fs' (Some (a, Done (Ok c))).
Proof. intros. eapply reload; eauto. apply H. Qed.

(** ** An example: numbers as records, a file holds one *)
Record codec (A : Type) := mkCodec { put : A -> list N; get : list N -> option (A * list N); put_get : forall x r, get (put x ++ r) = Some (x, r) }.
Arguments put {A}. Arguments get {A}. Arguments put_get {A}.
Definition cN : codec N. Proof. refine (mkCodec N (fun x => [x]) (fun l => match l with x :: r => Some (x, r) | [] => None end) _). reflexivity. Defined.
Definition cpair {A B} (a : codec A) (b : codec B) : codec (A * B).
Proof.
  refine (mkCodec (A * B) (fun x => put a (fst x) ++ put b (snd x)) (fun l => match get a l with Some (x, r) => match get b r with Some (y, r') => Some ((x, y), r') | None => None end | None => None end) _).
  intros [x y] r. cbn [fst snd]. rewrite <- app_assoc, (put_get a), (put_get b). reflexivity.
Defined.
Fixpoint gets {A} (g : list N -> option (A * list N)) (n : nat) (l : list N) : option (list A * list N) :=
  match n with 0 => Some ([], l) | S n' => match g l with Some (x, r) => match gets g n' r with Some (xs, r') => Some (x :: xs, r') | None => None end | None => None end end.
Definition clist {A} (a : codec A) : codec (list A).
Proof.
  refine (mkCodec (list A) (fun l => N.of_nat (length l) :: flat_map (put a) l) (fun l => match l with n :: r => gets (get a) (N.to_nat n) r | [] => None end) _).
  intros l r. cbn [app]. rewrite Nnat.Nat2N.id. induction l as [|x l IH]; [reflexivity|]. cbn [length gets flat_map]. rewrite <- app_assoc, (put_get a), IH. reflexivity.
Defined.
Definition cmap {A B} (f : A -> B) (g : B -> A) (FG : forall b, f (g b) = b) (a : codec A) : codec B.
Proof. refine (mkCodec B (fun b => put a (g b)) (fun l => match get a l with Some (x, r) => Some (f x, r) | None => None end) _). intros x r. rewrite (put_get a), FG. reflexivity. Defined.
Definition cZ : codec Z.
Proof. refine (cmap (fun x : N * N => if N.eqb (fst x) 0 then Z.of_N (snd x) else (- Z.of_N (snd x))%Z) (fun z : Z => if (0 <=? z)%Z then (0%N, Z.to_N z) else (1%N, Z.to_N (- z))) _ (cpair cN cN)). intros z. destruct (Z.leb_spec 0 z); cbn [fst snd N.eqb]; lia. Defined.
Definition cbool : codec bool.
Proof. refine (cmap (fun x => N.eqb x 1) (fun b : bool => if b then 1%N else 0%N) _ cN). intros []; reflexivity. Defined.
Definition exns : list exn := [KeyError; TypeError; ValueError; IndexError; AttributeError; NameError; UnboundLocalError; StopIteration; RuntimeError; ZeroDivisionError; EOFError; UnpicklingError; FileNotFoundError; UnicodeDecodeError; OSError; EOther; MkException; CollectionTypeError; RCTypeError; RCValueError; CacheError; TagError; BadRecord; BadWOSRecord; BadWOSFile; BadPubmedRecord; BadPubmedFile; BadScopusRecord; BadScopusFile; BadProQuestRecord; BadProQuestFile; BadInputFile; UnknownFile; BadGrant; GrantCollectionException; BadCitation; JournalDataBaseError; GenderException; RecordsNotCompatible].
Fixpoint place (e : exn) (l : list exn) : nat := match l with [] => 0 | x :: l' => if eqb x e then 0 else S (place e l') end.
Definition cexn : codec exn.
Proof. refine (cmap (fun x => nth (N.to_nat x) exns KeyError) (fun e => N.of_nat (place e exns)) _ cN). intros e. destruct e; reflexivity. Defined.
Definition cstr : codec str := clist cN.
Definition ccoll : codec (coll N).
Proof.
  refine (cmap (fun x : (list N * (list str * (str * (bool * dict str exn)))) => let '(r, (t, (n, (b, e)))) := x in mkColl r t n b e) (fun c => (c_recs c, (c_types c, (c_name c, (c_bad c, c_errors c))))) _
    (cpair (clist cN) (cpair (clist cstr) (cpair cstr (cpair cbool (clist (cpair cstr cexn))))))). intros []; reflexivity.
Defined.
Definition cstamp : codec stamp.
Proof. refine (cmap (fun x : (str * (dict str Z * (str * str))) => let '(v, (f, (n, e))) := x in mkStamp v f n e) (fun s => (s_ver s, (s_files s, (s_name s, s_ext s)))) _ (cpair cstr (cpair (clist (cpair cstr cZ)) (cpair cstr cstr)))). intros []; reflexivity. Defined.
Definition framed {A} (c : codec A) (v : A) : list N := N.of_nat (length (put c v)) :: put c v.
Definition unframed {A} (c : codec A) (b : list N) : res A :=
  match b with n :: p => if N.eqb n (N.of_nat (length p)) then match get c p with Some (v, []) => Ok v | _ => Raise UnpicklingError end else Raise UnpicklingError | [] => Raise EOFError end.
Lemma framed_ok {A} (c : codec A) : (forall v, unframed c (framed c v) = Ok v) /\ forall v b more, framed c v = b ++ more -> more <> [] -> exists e, unframed c b = Raise e.
Proof.
  split.
  - intros v. unfold framed, unframed. rewrite N.eqb_refl. pose proof (put_get c v []) as P. rewrite app_nil_r in P. rewrite P. reflexivity.
  - intros v b more E NE. unfold framed in E. destruct b as [|n b]; [exists EOFError; reflexivity|]. injection E as <- E. exists UnpicklingError. unfold unframed.
    destruct (N.eqb_spec (N.of_nat (length (put c v))) (N.of_nat (length b))) as [L|]; [|reflexivity]. exfalso. apply Nnat.Nat2N.inj in L. apply NE. apply length_zero_iff_nil. apply (f_equal (@length _)) in E. rewrite app_length in E. lia.
Qed.
Definition enc0 : stamp * coll N -> list N := framed (cpair cstamp ccoll).
Definition dec0 : list N -> res (stamp * coll N) := unframed (cpair cstamp ccoll).
Lemma pickle0 : pickle_ok enc0 dec0.
Proof. exact (framed_ok (cpair cstamp ccoll)). Qed.
Definition parse0 (k : kind) (v f : str) (b : option (list N)) : res (option (str * list N * option exn)) :=
  match b with Some [x] => Ok (Some ($"WOSRecord", [x], None)) | Some _ => Ok None | None => match k with Grants => Ok None | Records => Raise FileNotFoundError end end.
Definition call0 : call := mkCall Records $"3" [] [] true.
Definition ticks0 (n : nat) : list event := repeat (Tick 1000 5) n.
(** write a file, make the collection, make it again, change the file, begin to make it and stop while the cache is being written, make it *)
Definition history0 : list event :=
  [Write $"a.txt" 1 [7%N]; Write $"b.txt" 1 [8%N]; Call call0] ++ ticks0 12 ++ [Call call0; Tick 0 0; Tick 0 0; Write $"a.txt" 2 [9%N]; Call call0] ++ ticks0 9 ++ [Tick 3 0; Kill; Call call0] ++ ticks0 12.
Definition is_done (w : world N) (l : list N) : bool := match w_run w with Some (_, Done (Ok c)) => eqb (c_recs c) l | _ => false end.
Lemma user0 (f : str) : cachef f = false -> user_file f.
Proof. apply user_cachef. Qed.
Example C46_example : pickle_ok enc0 dec0 /\ times_tell [] history0 /\ quiet $"/x" parse0 enc0 dec0 (mkWorld [] None) history0 /\
  is_done (run $"/x" parse0 enc0 dec0 history0 (mkWorld [] None)) [9%N; 8%N] = true /\ is_done (run $"/x" parse0 enc0 dec0 (firstn 18 history0) (mkWorld [] None)) [7%N; 8%N] = true.
Proof.
  split; [exact pickle0|]. split.
  - intros f m b b' I1 I2. cbn in I1, I2. destruct I1 as [I1|[I1|[I1|[]]]]; destruct I2 as [I2|[I2|[I2|[]]]]; congruence.
  - split; [|split; vm_compute; reflexivity]. cbn -[step]. repeat split; try (apply user0; reflexivity); vm_compute; tauto.
Qed.

(** ** Refutations *)
(** The statement that a cache left by an interrupted call does not raise is false: the error of pickle.load for an empty file, EOFError, is not caught, and the file stays, so every later call raises it, too. *)
Theorem C46_interrupted_refuted : forall rec (E : EqDec rec) dir parse (enc : stamp * coll rec -> list N) dec, dec [] = Raise EOFError -> forall name,
  let a := mkCall Records $"3" name [] true in
  exists h fs, quiet dir parse enc dec (mkWorld [] None) h /\ run dir parse enc dec h (mkWorld [] None) = mkWorld fs None /\
    (forall r fs', returns dir parse enc dec a fs r fs' -> r = Raise EOFError /\ fs' = fs) /\ exists c, returns dir parse enc dec (uncached a) fs (Ok c) fs.
Proof.
  intros rec E dir parse enc dec D name a. exists [Call a; Tick 0 0; Tick 0 0; Tick 0 0; Tick 0 0; Tick 0 0; Kill], [(cache_name dir a, (0%Z, []))].
  assert (B : forall n1 m1 n2 m2, run dir parse enc dec [Call a; Tick n1 m1; Tick n2 m2] (mkWorld [(cache_name dir a, (0%Z, []))] None) = mkWorld [(cache_name dir a, (0%Z, []))] (Some (a, Done (Raise EOFError)))).
  { intros. apply (broken_cache dir parse enc dec a _ 0%Z []); [reflexivity| |exact D|cbn; intros X; repeat (destruct X as [X|X]; [discriminate|]); exact X]. cbn [dget]. rewrite eqb_refl. reflexivity. }
  split; [cbn; repeat split; auto|]. split; [reflexivity|]. split.
  - intros r fs' (ts & T & R). destruct ts as [|e1 [|e2 ts]].
    + discriminate R.
    + destruct (T e1 (or_introl eq_refl)) as (n & m & ->). discriminate R.
    + destruct (T e1 (or_introl eq_refl)) as (n1 & m1 & ->). destruct (T e2 (or_intror (or_introl eq_refl))) as (n2 & m2 & ->).
      change (Call a :: Tick n1 m1 :: Tick n2 m2 :: ts) with ([Call a; Tick n1 m1; Tick n2 m2] ++ ts) in R. rewrite run_app, B in R.
      assert (ST : forall ts fs, (forall e, In e ts -> exists n m, e = Tick n m) -> run dir parse enc dec ts (mkWorld fs (Some (a, Done (Raise EOFError)))) = mkWorld fs (Some (a, Done (Raise EOFError)))).
      { clear. induction ts as [|e ts IH]; intros fs T; [reflexivity|]. destruct (T e (or_introl eq_refl)) as (n & m & ->). apply (IH fs). intros; apply T; now right. }
      rewrite ST in R; [injection R as <- <-; auto|]. intros e I1. apply T. right. right. exact I1.
  - eexists. pose proof (uncached_returns dir parse enc dec (uncached a) [(cache_name dir a, (0%Z, []))] eq_refl) as U.
    assert (L : listing (uncached a) [(cache_name dir a, (0%Z, []))] = []).
    { pose proof (wanted_cache (uncached a) (cache_name dir a) eq_refl (cache_cachef dir a eq_refl)) as W. unfold listing. cbn [dkeys map fst filter]. rewrite W. reflexivity. }
    rewrite L in U. exact U.
Qed.
(** A file that is changed after it was read and before its modification time is asked is in the cache with its old content: later calls give the old collection. *)
Definition race0 : list event := [Write $"a.txt" 1 [7%N]; Call call0; Tick 0 0; Tick 0 0; Tick 0 0; Write $"a.txt" 2 [9%N]] ++ ticks0 7 ++ [Kill].
Definition after0 : files := w_files (run $"/x" parse0 enc0 dec0 race0 (mkWorld [] None)).
Theorem C46_race_refuted : pickle_ok enc0 dec0 /\ times_tell [] race0 /\ run $"/x" parse0 enc0 dec0 race0 (mkWorld [] None) = mkWorld after0 None /\
  (exists c, returns $"/x" parse0 enc0 dec0 call0 after0 (Ok c) after0 /\ c_recs c = [7%N]) /\ (exists c, returns $"/x" parse0 enc0 dec0 (uncached call0) after0 (Ok c) after0 /\ c_recs c = [9%N]).
Proof.
  split; [exact pickle0|]. split; [|split; [|split]].
  - intros f m b b' I1 I2. cbn in I1, I2. destruct I1 as [I1|[I1|[]]]; destruct I2 as [I2|[I2|[]]]; congruence.
  - vm_compute. reflexivity.
  - eexists. split; [exists (ticks0 2); split; [intros e I1; apply repeat_spec in I1; eauto|vm_compute; reflexivity]|reflexivity].
  - eexists. split; [exists (ticks0 3); split; [intros e I1; apply repeat_spec in I1; eauto|vm_compute; reflexivity]|reflexivity].
Qed.
(** With grants and no extension the cache is itself one of the files of the directory: each time a call has written it the next one removes it and then asks for its modification time. *)
Theorem C46_grants_refuted : forall rec (E : EqDec rec) dir parse (enc : stamp * coll rec -> list N) dec, pickle_ok enc dec ->
  forall a fs c fs', NoDup (dkeys fs) -> a_kind a = Grants -> a_ext a = [] -> a_cached a = true -> ~ In (cache_name dir a) (dkeys fs) -> parse Grants (a_ver a) (cache_name dir a) None = Ok None ->
  returns dir parse enc dec a fs (Ok c) fs' -> returns dir parse enc dec a fs' (Raise FileNotFoundError) fs.
Proof.
  intros rec E dir parse enc dec PK a fs c fs' ND K X CA NI PN R. apply (grants_twice dir parse enc dec a fs c fs'); auto; [apply PK|]. destruct (dhas (cache_name dir a) fs) eqn:D; [|reflexivity]. apply dhas_spec in D. contradiction.
Qed.
Example C46_grants_example : exists c fs', returns $"/x" parse0 enc0 dec0 (mkCall Grants $"3" [] [] true) [($"a.txt", (1%Z, [7%N]))] (Ok c) fs' /\ length fs' = 2 /\ c_recs c = [7%N].
Proof. eexists _, _. split; [exists (ticks0 9); split; [intros e I1; apply repeat_spec in I1; eauto|vm_compute; reflexivity]|split; reflexivity]. Qed.

Print Assumptions C46_same_partial.
Print Assumptions C46_same.
Print Assumptions C46_ends.
Print Assumptions C46_reload.
Print Assumptions C46_interrupted_refuted.
Print Assumptions C46_race_refuted.
Print Assumptions C46_grants_refuted.
