(** Proofs for C68: the whole function. *)
From Coq Require Import List ZArith Lia Bool Arith.
From Coq Require Import String.
From Verif Require Import Base PyStr Nx SeriesSpec RecordViewFacts GrantProofs CacheProofs3 CsvModel CsvProofs WriteCsvModel WriteCsvSpec WriteCsvProofs.
Import ListNotations.
Local Open Scope list_scope.

Section Write.
Context {R : Type}.
Variables to_tag to_full : dict str str.
Variable keys : R -> list str.
Variable get : R -> str -> option wval.
Variable genders : R -> res (nat * nat * nat).
Variable o : wopts.
Variable rs : list R.
Hypothesis first_once : w_only o = [] -> NoDup (norm to_tag match w_first o with Some l => l | None => default_first end).
Hypothesis keys_once : forall r, In r rs -> NoDup (keys r).
Lemma plan_ok fields : named to_full o (fields_shown to_tag keys o rs) fields ->
  exists p, write_plan to_tag to_full keys o rs = Ok p /\ p_header p = fields ++ extra_columns o /\
    p_retrieved p = (if w_num o then fields else fields ++ (if w_gender o then gender_columns else [])).
Proof.
  intros NM. unfold write_plan. rewrite (fields_spec to_tag keys o rs first_once keys_once).
  assert (L : (if w_long o then long_names to_full (fields_shown to_tag keys o rs) else Ok (fields_shown to_tag keys o rs)) = Ok fields).
  { unfold named in NM. destruct (w_long o); [apply long_names_ok, NM|congruence]. }
  rewrite L. cbn [bind]. unfold extra_columns, gender_columns, num_column. destruct (w_num o); eexists; (split; [reflexivity|]); cbn; auto.
Qed.
Lemma plan_bad t : w_long o = true -> In t (fields_shown to_tag keys o rs) -> dget t to_full = None -> write_plan to_tag to_full keys o rs = Raise KeyError.
Proof.
  intros WL I N. unfold write_plan. rewrite (fields_spec to_tag keys o rs first_once keys_once), WL. rewrite (long_names_bad to_full _ t I N). reflexivity.
Qed.
Variable fields : list str.
Hypothesis fields_named : named to_full o (fields_shown to_tag keys o rs) fields.
Notation header := (fields ++ extra_columns o).
Variable n : R -> nat.
Variable g : R -> nat * nat * nat.
Hypothesis counts_right : forall r, In r rs -> right_counts get genders o r (n r) (g r).
Hypothesis header_some : header <> [].
Hypothesis header_once : NoDup header.
Hypothesis header_clean : Forall clean header.
Hypothesis cells_clean : forall r k, In r rs -> In k header -> clean (cell_is get o r (n r) (g r) k).
Notation row_of r := (map (fun k => (k, VStr (cell_is get o r (n r) (g r) k))) header).
Lemma write_ok : exists text p, write_csv to_tag to_full keys get genders o rs = Ok (text, p) /\ dict_reader text = Ok (map (fun r => row_of r) rs).
Proof.
  destruct (plan_ok fields fields_named) as (p & E & H & RT). unfold write_csv. rewrite E. cbn [bind]. rewrite RT, H.
  destruct (rec_dicts_ok keys get genders o fields n g rs counts_right) as (ds & D & F). rewrite D. cbn [bind].
  destruct (rows_back get o fields n g rs ds header_some header_once header_clean F cells_clean) as (text & T & B). rewrite T. cbn [bind]. exists text, p. auto.
Qed.
Definition row_text (r : R) : str := csv_row (map (fun k => VStr (cell_is get o r (n r) (g r) k)) header).
Lemma shown_row r d : shown get o fields r (n r) (g r) d -> dict_row header d = Ok (row_text r).
Proof.
  intros SH. unfold dict_row. assert (F : forallb (fun k => mem k header) (dkeys d) = true).
  { apply forallb_forall. intros k I. apply mem_In. exact (shown_keys get o fields r (n r) (g r) d k SH I). }
  rewrite F. f_equal. unfold row_text. f_equal. apply map_ext_in. intros k I. destruct SH as [_ G]. rewrite G. destruct (in_dec (list_eq_dec N.eq_dec) k header); [reflexivity|contradiction].
Qed.
Variable split_val : R -> option (list str).
Variable base : str.
Definition vals (r : R) : list str := match split_val r with Some l => l | None => [] end.
Definition stream_of (l : list R) : list (str * str) := flat_map (fun r => map (fun v => (v, row_text r)) (vals r)) l.
Lemma put_rows_stream p : p_header p = header -> p_retrieved p = (if w_num o then fields else fields ++ (if w_gender o then gender_columns else [])) ->
  forall l fs, (forall r, In r l -> In r rs) -> put_rows get genders split_val o base p l fs = Ok (put_stream base header (stream_of l) fs).
Proof.
  intros H RT. induction l as [|r l IH]; intros fs SUB; [reflexivity|]. cbn [put_rows]. unfold stream_of. cbn [flat_map]. fold (stream_of l). unfold vals at 1. destruct (split_val r) as [vs|]; [|apply IH; intros q I; apply SUB; right; exact I].
  assert (IR := SUB r (or_introl eq_refl)). destruct (rec_dict_ok keys get genders o fields r (n r) (g r) (counts_right r IR)) as (d & D & ND & G). rewrite RT, H, D. cbn [bind].
  rewrite (put_row_stream base header d (row_text r)) by (apply shown_row; split; assumption). cbn [bind]. rewrite put_stream_app. apply IH. intros q I. apply SUB. right. exact I.
Qed.
Definition with_value (v : str) : list R := flat_map (fun r => repeat r (count v (vals r))) rs.
Lemma rows_for_value v : forall l, rows_for v (stream_of l) = map row_text (flat_map (fun r => repeat r (count v (vals r))) l).
Proof.
  induction l as [|r l IH]; [reflexivity|]. unfold stream_of, rows_for in *. cbn [flat_map]. rewrite filter_app, !map_app, IH. f_equal. clear. induction (vals r) as [|x l IH]; [reflexivity|]. cbn [map filter fst count]. rewrite (eqb_sym v x). destruct (eqb x v); cbn [Nat.add repeat map snd]; rewrite IH; reflexivity.
Qed.
Lemma fst_stream : map fst (stream_of rs) = flat_map vals rs.
Proof. unfold stream_of. clear. induction rs as [|r l IH]; [reflexivity|]. cbn. rewrite map_app, map_map, IH. cbn. rewrite map_id. reflexivity. Qed.
Lemma value_text v : exists text, head_text header ++ concat (map row_text (with_value v)) = text /\ dict_reader text = Ok (map (fun r => row_of r) (with_value v)).
Proof.
  assert (SUB : forall r, In r (with_value v) -> In r rs).
  { intros r I. unfold with_value in I. apply in_flat_map in I. destruct I as (q & IQ & I). apply repeat_spec in I. subst. exact IQ. }
  destruct (rec_dicts_ok keys get genders o fields n g (with_value v)) as (ds & D & F); [intros r I; apply counts_right, SUB, I|].
  destruct (rows_back get o fields n g (with_value v) ds header_some header_once header_clean F) as (text & T & B); [intros r k I; apply cells_clean, SUB, I|].
  exists text. split; [|exact B]. unfold csv_file in T. 
  assert (DR : dict_rows header ds = Ok (concat (map row_text (with_value v)))).
  { clear -F. induction F as [|r d l ds SH F IH]; [reflexivity|]. cbn [dict_rows map concat]. rewrite (shown_row r d SH). cbn [bind]. rewrite IH. reflexivity. }
  rewrite DR in T. cbn [bind] in T. injection T as T. rewrite <- T. reflexivity.
Qed.
Lemma file_name_inj u v : file_name base u = file_name base v -> firstn 200 u = firstn 200 v.
Proof. unfold file_name. apply app_inv_tail. Qed.
Lemma split_ok : (forall u v, In u (flat_map vals rs) -> In v (flat_map vals rs) -> firstn 200 u = firstn 200 v -> u = v) ->
  exists disk p, write_split to_tag to_full keys get genders split_val o base rs = Ok (disk, p) /\
    dkeys disk = map (file_name base) (first_seen (flat_map vals rs)) /\
    forall v, In v (flat_map vals rs) -> exists text, dget (file_name base v) disk = Some text /\ dict_reader text = Ok (map (fun r => row_of r) (with_value v)).
Proof.
  intros INJ. destruct (plan_ok fields fields_named) as (p & E & H & RT). unfold write_split. rewrite E. cbn [bind]. rewrite (put_rows_stream p H RT) by auto. cbn [bind].
  exists (close_files (put_stream base header (stream_of rs) [])), p. split; [reflexivity|]. set (fs := put_stream base header (stream_of rs) []).
  destruct (put_stream_spec base header (stream_of rs) []) as [G K]. fold fs in G, K. cbn [dkeys map app] in K. rewrite fst_stream in K. rewrite uniq_first_seen in K.
  assert (K' : dkeys fs = first_seen (flat_map vals rs)). { rewrite K. unfold mem. cbn. generalize (first_seen (flat_map vals rs)). clear. intros l. induction l; cbn; congruence. }
  assert (NDF : NoDup (dkeys fs)) by (rewrite K'; apply first_seen_NoDup).
  assert (NM : forall v x, In (v, x) fs -> x = (file_name base v, head_text header ++ concat (rows_for v (stream_of rs))) /\ In v (flat_map vals rs)).
  { intros v x I. pose proof (In_dget _ _ _ NDF I) as GV. rewrite G in GV. cbn [dget] in GV. split.
    - destruct (rows_for v (stream_of rs)); [discriminate|]. injection GV as <-. reflexivity.
    - apply (in_map fst) in I. change (map fst fs) with (dkeys fs) in I. rewrite K', first_seen_In in I. exact I. }
  assert (NMS : map (fun f => fst (snd f)) fs = map (file_name base) (dkeys fs)).
  { unfold dkeys. rewrite map_map. apply map_ext_in. intros [v x] I. cbn. destruct (NM v x I) as [-> _]. reflexivity. }
  assert (NDN : NoDup (map (fun f => fst (snd f)) fs)).
  { rewrite NMS. clear NMS. assert (INJ' : forall u v, In u (dkeys fs) -> In v (dkeys fs) -> file_name base u = file_name base v -> u = v).
    { intros u v I J Q. rewrite K', first_seen_In in I, J. apply INJ; [exact I|exact J|apply file_name_inj, Q]. }
    revert INJ' NDF. generalize (dkeys fs). clear. induction l as [|x l IH]; intros INJ ND; [constructor|]. inversion ND; subst. cbn. constructor.
    - intros I. apply in_map_iff in I. destruct I as (y & Q & I). apply H1. rewrite <- (INJ y x); [exact I|right; exact I|left; reflexivity|exact Q].
    - apply IH; [|assumption]. intros u v I J. apply INJ; right; assumption. }
  unfold close_files. rewrite close_distinct by exact NDN. cbn [app]. split.
  - unfold dkeys at 1. rewrite map_map. rewrite NMS, K'. reflexivity.
  - intros v I. destruct (value_text v) as (text & T & B). exists text. split; [|exact B]. apply In_dget.
    + unfold dkeys. rewrite map_map. exact NDN.
    + assert (IV : In v (dkeys fs)) by (rewrite K', first_seen_In; exact I). unfold dkeys in IV. apply in_map_iff in IV. destruct IV as ([w x] & Q & IX). cbn in Q. subst w. destruct (NM v x IX) as [-> _].
      apply in_map_iff. exists (v, (file_name base v, head_text header ++ concat (rows_for v (stream_of rs)))). split; [|exact IX]. cbn. f_equal. rewrite <- T. rewrite rows_for_value. reflexivity.
Qed.
End Write.
