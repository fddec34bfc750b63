(** Proofs for C68. *)
From Coq Require Import List ZArith Lia Bool Arith.
From Coq Require Import String.
From Verif Require Import Base PyStr Nx SeriesSpec RecordViewFacts GrantProofs CacheProofs3 CsvModel CsvProofs WriteCsvModel WriteCsvSpec.
Import ListNotations.
Local Open Scope list_scope.

Section Write.
Context {R : Type}.
Variables to_tag to_full : dict str str.
Variable keys : R -> list str.
Variable get : R -> str -> option wval.
Variable genders : R -> res (nat * nat * nat).

(** ** the columns *)
Lemma first_seen_id {A} `{EqDec A} (l : list A) : NoDup l -> first_seen l = l.
Proof using.
  induction l as [|x l IH]; intros ND; [reflexivity|]. inversion ND; subst. cbn. rewrite IH by assumption. f_equal. clear -H2. induction l as [|y l IH]; [reflexivity|]. cbn in H2 |- *.
  rewrite (neq_eqb (x := y) (y := x)) by (intros ->; tauto). cbn. f_equal. apply IH. tauto.
Qed.
Lemma gather_spec : forall (rs : list R) l, NoDup l -> (forall r, In r rs -> NoDup (keys r)) -> gather keys rs l = first_seen (l ++ flat_map keys rs).
Proof using.
  induction rs as [|r rs IH]; intros l ND K; cbn [gather flat_map].
  - rewrite app_nil_r. symmetry. apply first_seen_id, ND.
  - assert (KR := K r (or_introl eq_refl)).
    assert (E : l ++ filter (fun t => negb (mem t l)) (keys r) = first_seen (l ++ keys r)) by (rewrite first_seen_app, !first_seen_id by assumption; reflexivity).
    rewrite E, IH; [|apply first_seen_NoDup|intros q I; apply K; right; exact I].
    rewrite app_assoc. rewrite !(first_seen_app _ (flat_map keys rs)). rewrite (first_seen_id (first_seen (l ++ keys r))) by apply first_seen_NoDup. f_equal. apply filter_ext. intros t.
    f_equal. apply eq_true_iff_eq. rewrite !mem_In, first_seen_In. reflexivity.
Qed.
Lemma fields_spec (o : wopts) (rs : list R) :
  let first := norm to_tag match w_first o with Some l => l | None => default_first end in
  (w_only o = [] -> NoDup first) -> (forall r, In r rs -> NoDup (keys r)) ->
  (if match w_only o with [] => false | _ => true end
   then filter (fun t => mem t (norm to_tag (w_only o))) first ++ filter (fun t => negb (mem t first)) (norm to_tag (w_only o)) else gather keys rs first) = fields_shown to_tag keys o rs.
Proof using.
  intros first ND K. unfold fields_shown. destruct (w_only o) as [|a only] eqn:E.
  - apply gather_spec; auto.
  - assert (M : forall (t : str) l, mem t l = if in_dec (list_eq_dec N.eq_dec) t l then true else false).
    { intros t l. apply eq_true_iff_eq. rewrite mem_In. destruct (in_dec (list_eq_dec N.eq_dec) t l); intuition discriminate. }
    f_equal; apply filter_ext; intros t; rewrite M; [reflexivity|]. change (map (tag_of to_tag) match w_first o with Some l => l | None => [$"id"; $"title"; $"authorsFull"; $"citations"; $"keywords"; $"DOI"] end) with first.
    destruct (in_dec (list_eq_dec N.eq_dec) t first); reflexivity.
Qed.
Lemma long_names_ok l : forall l', Forall2 (fun t u => dget t to_full = Some u) l l' -> long_names to_full l = Ok l'.
Proof using. induction l as [|t l IH]; intros l' F; inversion F; subst; [reflexivity|]. cbn. rewrite H1. rewrite (IH _ H3). reflexivity. Qed.
Lemma long_names_bad l t : In t l -> dget t to_full = None -> long_names to_full l = Raise KeyError.
Proof using.
  induction l as [|u l IH]; intros I N; [destruct I|]. cbn. destruct (dget u to_full) eqn:E; [|reflexivity]. destruct I as [->|I]; [congruence|]. rewrite (IH I N). reflexivity.
Qed.

(** ** the rows *)
Lemma fold_fields (f : str -> val) : forall l d, (forall k, dget k (fold_left (fun d t => dset t (f t) d) l d) = if mem k l then Some (f k) else dget k d) /\
  (NoDup (dkeys d) -> NoDup (dkeys (fold_left (fun d t => dset t (f t) d) l d))).
Proof using.
  induction l as [|t l IH]; intros d; cbn [fold_left]; [split; [reflexivity|auto]|]. destruct (IH (dset t (f t) d)) as [A B]. split.
  - intros k. rewrite A, dget_dset. unfold mem. cbn [existsb]. fold (mem k l). destruct (eqb_spec k t) as [->|N]; cbn [orb]; [destruct (mem t l); reflexivity|reflexivity].
  - intros ND. apply B, NoDup_dset, ND.
Qed.
Variable o : wopts.
Variable fields : list str.
Let header := fields ++ extra_columns o.
Let retrieved := if w_num o then fields else fields ++ (if w_gender o then gender_columns else []).
Definition right_counts (r : R) (n : nat) (g : nat * nat * nat) : Prop :=
  (w_num o = true -> num_authors get r = Ok n) /\ (w_gender o = true -> genders r = Ok g).
Lemma in_extra k : In k (extra_columns o) <-> (w_num o = true /\ k = $"num-Authors") \/ (w_gender o = true /\ (k = $"num-Male" \/ k = $"num-Female" \/ k = $"num-Unknown")).
Proof. unfold extra_columns. rewrite in_app_iff. destruct (w_num o), (w_gender o); cbn; intuition (try discriminate; auto). Qed.
Lemma mem_retrieved k : mem k retrieved = true -> In k header.
Proof. unfold retrieved, header, extra_columns, gender_columns. intros M. apply mem_In in M. destruct (w_num o), (w_gender o); rewrite ?in_app_iff in *; cbn in *; tauto. Qed.
Lemma rec_dict_ok r n g : right_counts r n g -> exists d, rec_dict get genders o retrieved r = Ok d /\ NoDup (dkeys d) /\
  forall k, dget k d = if in_dec (list_eq_dec N.eq_dec) k header then Some (VStr (cell_is get o r n g k)) else None.
Proof.
  intros [CN CG]. unfold rec_dict.
  destruct (fold_fields (fun t => VStr (cell_text (w_bar o) (get r t))) retrieved []) as [A B]. set (d0 := fold_left (fun d t => dset t (VStr (cell_text (w_bar o) (get r t))) d) retrieved []) in *.
  assert (ND0 : NoDup (dkeys d0)) by (apply B; constructor). destruct g as [[m f] u].
  assert (RET : forall k, ~ In k (extra_columns o) -> mem k retrieved = true <-> In k header).
  { intros k NE. split; [apply mem_retrieved|]. unfold header. rewrite in_app_iff. intros [I|I]; [|contradiction]. apply mem_In. unfold retrieved. destruct (w_num o); [exact I|apply in_or_app; left; exact I]. }
  assert (BASE : forall k, ~ In k (extra_columns o) -> dget k d0 = if in_dec (list_eq_dec N.eq_dec) k header then Some (VStr (cell_is get o r n (m, f, u) k)) else None).
  { intros k NE. rewrite A. unfold cell_is. destruct (in_dec (list_eq_dec N.eq_dec) k (extra_columns o)) as [I|_]; [contradiction|]. destruct (in_dec (list_eq_dec N.eq_dec) k header) as [I|I].
    - apply RET in I; [|exact NE]. rewrite I. reflexivity.
    - destruct (mem k retrieved) eqn:M; [apply RET in M; [contradiction|exact NE]|reflexivity]. }
  assert (EXH : forall k, In k (extra_columns o) -> In k header) by (intros k I; apply in_or_app; right; exact I).
  assert (EXC : forall k s, In k (extra_columns o) -> counted r n (m, f, u) k = Some s -> (if in_dec (list_eq_dec N.eq_dec) k header then Some (VStr (cell_is get o r n (m, f, u) k)) else None) = Some (VStr s)).
  { intros k s I C. destruct (in_dec (list_eq_dec N.eq_dec) k header) as [_|Q]; [|exfalso; apply Q, EXH, I]. unfold cell_is. destruct (in_dec (list_eq_dec N.eq_dec) k (extra_columns o)); [|contradiction]. rewrite C. reflexivity. }
  assert (S1 : exists d1, (if w_num o then let* x := num_authors get r in Ok (dset num_column (VStr (dec_nat x)) d0) else Ok d0) = Ok d1 /\ NoDup (dkeys d1) /\
    forall k, ~ (w_gender o = true /\ (k = $"num-Male" \/ k = $"num-Female" \/ k = $"num-Unknown")) -> dget k d1 = if in_dec (list_eq_dec N.eq_dec) k header then Some (VStr (cell_is get o r n (m, f, u) k)) else None).
  { destruct (w_num o) eqn:WN.
    - rewrite (CN eq_refl). cbn [bind]. eexists. split; [reflexivity|]. split; [apply NoDup_dset, ND0|]. intros k NG. rewrite dget_dset. destruct (eqb_spec k num_column) as [->|NK].
      + symmetry. apply EXC; [apply in_extra; left; auto|reflexivity].
      + apply BASE. rewrite in_extra. intros [[_ X]|X]; [exact (NK X)|exact (NG X)].
    - eexists. split; [reflexivity|]. split; [exact ND0|]. intros k NG. apply BASE. rewrite in_extra. intros [[X _]|X]; [congruence|exact (NG X)]. }
  destruct S1 as (d1 & -> & ND1 & G1). cbn [bind]. destruct (w_gender o) eqn:WG.
  - rewrite (CG eq_refl). cbn [bind]. eexists. split; [reflexivity|]. split; [repeat apply NoDup_dset; exact ND1|]. intros k. rewrite !dget_dset.
    destruct (eqb_spec k $"num-Unknown") as [->|N1]; [symmetry; apply EXC; [apply in_extra; auto 10|reflexivity]|].
    destruct (eqb_spec k $"num-Female") as [->|N2]; [symmetry; apply EXC; [apply in_extra; auto 10|reflexivity]|].
    destruct (eqb_spec k $"num-Male") as [->|N3]; [symmetry; apply EXC; [apply in_extra; auto 10|reflexivity]|].
    apply G1. tauto.
  - eexists. split; [reflexivity|]. split; [exact ND1|]. intros k. apply G1. intros [X _]. discriminate.
Qed.
(** the dictionary of a record *)
Definition shown (r : R) (n : nat) (g : nat * nat * nat) (d : dict str val) : Prop :=
  NoDup (dkeys d) /\ forall k, dget k d = if in_dec (list_eq_dec N.eq_dec) k header then Some (VStr (cell_is get o r n g k)) else None.
Variable n : R -> nat.
Variable g : R -> nat * nat * nat.
Lemma rec_dicts_ok : forall rs, (forall r, In r rs -> right_counts r (n r) (g r)) -> exists ds, rec_dicts get genders o retrieved rs = Ok ds /\ Forall2 (fun r d => shown r (n r) (g r) d) rs ds.
Proof.
  induction rs as [|r rs IH]; intros C; [exists []; split; [reflexivity|constructor]|]. cbn [rec_dicts].
  destruct (rec_dict_ok r (n r) (g r) (C r (or_introl eq_refl))) as (d & E & ND & G). rewrite E. cbn [bind].
  destruct IH as (ds & E2 & F); [intros q I; apply C; right; exact I|]. rewrite E2. cbn [bind]. exists (d :: ds). split; [reflexivity|]. constructor; [split; assumption|exact F].
Qed.
Lemma shown_keys r nn gg d k : shown r nn gg d -> In k (dkeys d) -> In k header.
Proof.
  intros [ND G] I. apply dhas_spec in I. rewrite dhas_dget in I. rewrite G in I. destruct (in_dec (list_eq_dec N.eq_dec) k header) as [J|J]; [exact J|discriminate].
Qed.
(** reading back *)
Lemma rows_back rs ds : header <> [] -> NoDup header -> Forall clean header -> Forall2 (fun r d => shown r (n r) (g r) d) rs ds ->
  (forall r k, In r rs -> In k header -> clean (cell_is get o r (n r) (g r) k)) ->
  exists text, csv_file header ds = Ok text /\ dict_reader text = Ok (map (fun r => map (fun k => (k, VStr (cell_is get o r (n r) (g r) k))) header) rs).
Proof.
  intros NE ND CH F CC. destruct (@csv_roundtrip header ds NE ND CH) as (text & A & B).
  - intros d I k v IV. assert (EX : exists r, In r rs /\ shown r (n r) (g r) d).
    { clear -F I. induction F; [destruct I|]. destruct I as [->|I]; [eexists; split; [left; reflexivity|assumption]|]. destruct (IHF I) as (r & X & Y). exists r. split; [right; exact X|exact Y]. }
    destruct EX as (r & IR & SH). destruct SH as [NDD G]. pose proof (In_dget _ _ _ NDD IV) as GV. rewrite G in GV. destruct (in_dec (list_eq_dec N.eq_dec) k header) as [J|]; [|discriminate]. injection GV as <-. split; [exact J|]. cbn [val_text]. apply CC; assumption.
  - exists text. split; [exact A|]. rewrite B. f_equal. clear -F. induction F as [|r d rs ds [ND G] F IH]; [reflexivity|]. cbn [map]. rewrite IH. f_equal. apply map_ext_in. intros k I. f_equal. f_equal. unfold cell. rewrite G. destruct (in_dec (list_eq_dec N.eq_dec) k header); [reflexivity|contradiction].
Qed.
End Write.

(** ** files by values *)
Section Files.
Variable base : str.
Variable header : list str.
Definition head_text : str := csv_row (map VStr header).
(** rows one after the other, each with the value whose file it goes to *)
Fixpoint put_stream (l : list (str * str)) (fs : files) : files :=
  match l with
  | [] => fs
  | (v, row) :: l' => put_stream l' (dset v match dget v fs with Some (name, text) => (name, text ++ row) | None => (file_name base v, head_text ++ row) end fs)
  end.
Lemma put_stream_app a b fs : put_stream (a ++ b) fs = put_stream b (put_stream a fs).
Proof using. revert fs. induction a as [|[v r] a IH]; intros fs; [reflexivity|]. cbn. apply IH. Qed.
Lemma put_row_stream d row : dict_row header d = Ok row -> forall vs fs, put_row base header d vs fs = Ok (put_stream (map (fun v => (v, row)) vs) fs).
Proof using.
  intros E. induction vs as [|v vs IH]; intros fs; [reflexivity|]. cbn [put_row map put_stream]. rewrite E. cbn [bind]. rewrite <- IH. f_equal. destruct (dget v fs) as [[a b]|]; reflexivity.
Qed.
Definition rows_for (v : str) (l : list (str * str)) : list str := map snd (filter (fun p => eqb (fst p) v) l).
Lemma put_stream_spec : forall l fs, 
  (forall v, dget v (put_stream l fs) = match rows_for v l with [] => dget v fs | ts => Some match dget v fs with Some (name, text) => (name, text ++ concat ts) | None => (file_name base v, head_text ++ concat ts) end end) /\
  dkeys (put_stream l fs) = dkeys fs ++ uniq_acc (dkeys fs) (map fst l).
Proof using.
  induction l as [|[v row] l IH]; intros fs; [split; [intros v; reflexivity|cbn; rewrite app_nil_r; reflexivity]|]. cbn [put_stream].
  destruct (IH (dset v match dget v fs with Some (name, text) => (name, text ++ row) | None => (file_name base v, head_text ++ row) end fs)) as [A B]. split.
  - intros w. rewrite A, dget_dset. unfold rows_for. cbn [filter fst]. rewrite (eqb_sym w v). destruct (eqb_spec v w) as [->|N]; [|reflexivity]. cbn [map snd]. destruct (dget w fs) as [[a b]|].
    + destruct (map snd (filter (fun p => eqb (fst p) w) l)) as [|t ts]; cbn [concat]; rewrite ?app_nil_r, <- ?app_assoc; reflexivity.
    + destruct (map snd (filter (fun p => eqb (fst p) w) l)) as [|t ts]; cbn [concat]; rewrite ?app_nil_r, <- ?app_assoc; reflexivity.
  - rewrite B. rewrite dkeys_dset. unfold dhas. cbn [map fst uniq_acc]. destruct (mem v (dkeys fs)); [reflexivity|]. rewrite <- app_assoc. cbn [app]. do 2 f_equal. apply uniq_acc_ext. intros x. unfold mem. rewrite existsb_app. cbn. rewrite orb_false_r. apply orb_comm.
Qed.
Lemma close_distinct : forall (fs : files) (disk : dict str str), NoDup (dkeys disk ++ map (fun f => fst (snd f)) fs) ->
  fold_left close_one fs disk = disk ++ map snd fs.
Proof using.
  induction fs as [|[v [name text]] fs IH]; intros disk ND; cbn [fold_left map snd fst]; [rewrite app_nil_r; reflexivity|]. unfold close_one at 2. cbn [snd]. cbn [map snd fst] in ND.
  assert (NI : ~ In name (dkeys disk)). { intros I. apply NoDup_remove_2 in ND. apply ND. apply in_or_app. left. exact I. }
  assert (H : dhas name disk = false) by (apply not_true_is_false; intros X; apply dhas_spec in X; contradiction).
  assert (G : dget name disk = None) by (rewrite dhas_dget in H; destruct (dget name disk); [discriminate|reflexivity]).
  rewrite G, app_nil_r, dset_new by exact H. rewrite IH.
  - rewrite <- app_assoc. reflexivity.
  - unfold dkeys. rewrite map_app. cbn [map fst]. rewrite <- app_assoc. exact ND.
Qed.
End Files.
