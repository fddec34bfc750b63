(** C93: the text of tnet files, with and without times. *)
From Coq Require Import String Lia.
From Verif Require Import Base PyStr PyInt Nx NxFacts GraphHelpersModel GraphHelpersSpec GraphHelpersProofs GraphHelpersProofs2 CitationSpec CsvProofs CitationProofs2 JournalProofs TnetModel TnetSpec.
Set Implicit Arguments.

(** ** lines that are read as they were written *)
Lemma dec_plain z c : In c (dec_Z z) -> c = 45%N \/ (48 <= c <= 57)%N.
Proof. unfold dec_Z. destruct (z <? 0)%Z; [intros [<-|I1]; [left; reflexivity|]|intros I1]; right; apply dec_N_chars in I1; exact I1. Qed.
Definition row_text (zs : list Z) : str := join [32%N] (map dec_Z zs).
Lemma row_plain zs c : In c (row_text zs) -> c = 32%N \/ c = 45%N \/ (48 <= c <= 57)%N.
Proof.
  unfold row_text. induction zs as [|z zs IH]; [intros []|]. destruct zs as [|z' zs]; cbn [map join] in *; [intros I1; right; eapply dec_plain, I1|].
  rewrite !in_app_iff. intros [I1|[[<-|[]]|I1]]; [right; eapply dec_plain, I1|left; reflexivity|apply IH, I1].
Qed.
Lemma numbers_row zs : zs <> [] -> numbers (row_text zs) = zs.
Proof.
  intros NE. unfold numbers, row_text. rewrite split_join.
  - rewrite map_map. rewrite <- (map_id zs) at 2. apply map_ext. intros z. apply number_dec.
  - destruct zs; [congruence|discriminate].
  - intros l I1 I2. apply in_map_iff in I1. destruct I1 as (z & <- & _). apply dec_plain in I2. lia.
Qed.
Lemma split_char_cons c (s : str) : split_char c s <> [].
Proof. destruct s as [|d s]; cbn [split_char]; [discriminate|]. destruct (eqb d c); [discriminate|]. destruct (split_char c s); discriminate. Qed.
Lemma file_lines_concat (ls : list str) : (forall l, In l ls -> ~ In 10%N l) -> file_lines (concat (map (fun l => l ++ [nl]) ls)) = ls.
Proof.
  induction ls as [|l ls IH]; intros N; [reflexivity|].
  assert (Q : forall rest : str, file_lines ((l ++ [nl]) ++ rest) = l :: file_lines rest).
  { intros rest. unfold file_lines. rewrite <- app_assoc. cbn [app]. change nl with 10%N. rewrite split_char_line by (apply N; left; reflexivity).
    pose proof (@split_char_cons 10%N rest) as NE. destruct (split_char 10%N rest); [congruence|reflexivity]. }
  cbn [map concat]. etransitivity; [apply Q|]. f_equal. apply IH. intros l' I1. apply N. right. exact I1.
Qed.
Lemma time_read k rest : ~ In 34%N k -> ~ In 34%N rest -> time_and_rest ($"""" ++ k ++ $""" " ++ rest) = Some (k, rest).
Proof.
  intros K R. unfold time_and_rest. change (split_char 34%N ($"""" ++ k ++ $""" " ++ rest)) with (split_char 34%N ([] ++ 34%N :: (k ++ 34%N :: (32%N :: rest)))).
  rewrite split_char_line by (intros []). rewrite split_char_line by exact K. rewrite split_char_last; [reflexivity|]. intros [Q|I1]; [discriminate|exact (R I1)].
Qed.

Section Tnet.
Context {V : Type} `{EqDec V}.
Implicit Types (g : graph V).

(** the numbers that a line must have for an edge: the ids (places, counted from 1) of its ends in the modes, and its weight *)
Definition row_for (weighted : bool) (mk wk : str) (m0 m1 : val) g (u v : V) (a : attrs) (row : list Z) : Prop :=
  exists s t i j, ((u = s /\ v = t) \/ (u = t /\ v = s)) /\ attr (nd g s) mk = Some m0 /\ attr (nd g t) mk = Some m1 /\
    nth_error (nodes g) i = Some s /\ nth_error (nodes g) j = Some t /\
    if weighted then exists z, dget wk a = Some (VInt z) /\ row = [Z.of_nat (S i); Z.of_nat (S j); z]
    else row = [Z.of_nat (S i); Z.of_nat (S j)].
(** the nodes have two modes, the first the one asked for *)
Definition two_modes (mk : str) (source : option val) g (m0 m1 : val) : Prop :=
  m0 <> m1 /\ (forall m, source = Some m -> m0 = m) /\ forall n, In n (nodes g) -> attr (nd g n) mk = Some m0 \/ attr (nd g n) mk = Some m1.
(** the nodes have got their ids and nothing else *)
Definition numbered (ik : str) g g' : Prop :=
  nodes g' = nodes g /\ (forall u v, ed g' u v = ed g u v) /\
  forall j n, nth_error (nodes g) j = Some n -> exists b, nd g n = Some b /\ nd g' n = Some (dset ik (VInt (Z.of_nat (S j))) b).

Lemma line_row (weighted : bool) mk wk m0 m1 g (e : V * V * attrs) l : tnet_line_for mk wk weighted m0 m1 g e l ->
  (weighted = true -> exists z, dget wk (snd e) = Some (VInt z)) ->
  exists row, row_for weighted mk wk m0 m1 g (fst (fst e)) (snd (fst e)) (snd e) row /\ row <> [] /\ forall time, line_text time l = (match time with Some k => $"""" ++ k ++ $""" " | None => [] end) ++ row_text row ++ [nl].
Proof.
  intros (s & t & i & j & w & O & A & B & I1 & J1 & -> & Hw) WI.
  assert (O' : (fst (fst e) = s /\ snd (fst e) = t) \/ (fst (fst e) = t /\ snd (fst e) = s)) by (destruct e as [[u v] a]; cbn [fst snd] in *; destruct O as [Q|Q]; injection Q as -> ->; auto).
  destruct weighted.
  - destruct Hw as (x & -> & G). destruct (WI eq_refl) as [z Gz]. rewrite G in Gz. injection Gz as ->.
    exists [Z.of_nat (S i); Z.of_nat (S j); z]. split; [exists s, t, i, j; do 5 (split; [assumption|]); exists z; auto|]. split; [discriminate|].
    intros time. unfold line_text, row_text, word_of. cbn [map join]. rewrite <- !app_assoc. reflexivity.
  - subst w. exists [Z.of_nat (S i); Z.of_nat (S j)]. split; [exists s, t, i, j; do 5 (split; [assumption|]); reflexivity|]. split; [discriminate|].
    intros time. unfold line_text, row_text, word_of. cbn [map join]. rewrite <- !app_assoc. reflexivity.
Qed.

(** C93: the text of the file has one line for each edge, with the numbers of its ends and its weight (a whole number). *)
Theorem C93_file (weighted : bool) (mk ik wk : str) (source : option val) (g g' : graph V) (text : str) :
  WF g -> (weighted = true -> forall u v a, ed g u v = Some a -> exists z, dget wk a = Some (VInt z)) ->
  tnet_file weighted mk ik wk source g = (g', Some text, None) ->
  exists m0 m1, two_modes mk source g m0 m1 /\ numbered ik g g' /\
    Forall2 (fun e row => row_for weighted mk wk m0 m1 g (fst (fst e)) (snd (fst e)) (snd e) row) (edges g) (read_file text).
Proof.
  intros W WI Q. unfold tnet_file in Q. destruct (write_tnet weighted mk ik wk source g) as [[g1 ls] e] eqn:T. injection Q as -> Q ->. destruct ls as [ls|]; [|discriminate]. cbn [option_map] in Q. injection Q as <-.
  destruct (write_tnet_ok _ _ _ _ _ W T) as (m0 & m1 & NE & SR & MD & AT & N & ED & F). exists m0, m1. split; [split; [exact NE|split; assumption]|]. split; [split; [exact N|split; assumption]|].
  assert (IE : forall u v a, In (u, v, a) (edges g) -> ed g u v = Some a) by (intros u v a I1; apply (edges_sound _ _ _ W), I1).
  assert (RR : exists rows, Forall2 (fun e row => row_for weighted mk wk m0 m1 g (fst (fst e)) (snd (fst e)) (snd e) row) (edges g) rows /\ (forall r, In r rows -> r <> []) /\
     concat (map (line_text None) ls) = concat (map (fun l => l ++ [nl]) (map row_text rows))).
  { clear T. revert F IE. generalize (edges g). intros es F. induction F as [|e l es ls LF F IH]; intros IE; [exists []; split; [constructor|]; split; [intros r []|reflexivity]|].
    destruct IH as (rows & F' & NE' & C'); [intros u v a I1; apply IE; right; exact I1|].
    destruct (line_row LF) as (row & RF & NR & LT).
    { intros Wt. destruct e as [[u v] a]. apply (WI Wt u v). apply IE. left. reflexivity. }
    exists (row :: rows). split; [constructor; assumption|]. split; [intros r [<-|I1]; [exact NR|apply NE', I1]|]. cbn [map concat]. rewrite C', (LT None). reflexivity. }
  destruct RR as (rows & F' & NE' & ->). unfold read_file. rewrite file_lines_concat.
  - rewrite map_map. replace (map (fun x => numbers (row_text x)) rows) with rows; [exact F'|]. rewrite <- (map_id rows) at 1. apply map_ext_in. intros r I1. symmetry. apply numbers_row, NE', I1.
  - intros l I1 I2. apply in_map_iff in I1. destruct I1 as (r & <- & _). apply row_plain in I2. lia.
Qed.

(** the lines of the edges of a multigraph *)
Lemma timed_ok (weighted : bool) mk ik wk source g (es : list (V * V * attrs)) g' modes mode1 ls : WF g ->
  tnet_nodes mk ik 1 (gnodes g) (match source with Some m => [m] | None => [] end) [] g = (g', Ok (modes, mode1)) -> length modes = 2 ->
  (forall u v a, In (u, v, a) es -> In u (nodes g) /\ In v (nodes g)) ->
  tnet_edges weighted ik wk mode1 g' es = (ls, None) ->
  exists m0 m1, two_modes mk source g m0 m1 /\ numbered ik g g' /\ Forall2 (tnet_line_for mk wk weighted m0 m1 g) es ls.
Proof.
  intros W T L Ends E. apply tnet_nodes_ok in T; [|apply (wf_nodup W)|destruct source; cbn; lia|destruct source; repeat constructor; intros []].
  destruct T as (A & D & N & (more & P) & L' & ND & Ms & M1 & At & Un).
  destruct modes as [|m0 [|m1 [|? ?]]]; try discriminate. exists m0, m1.
  assert (NE : m0 <> m1) by (inversion ND; subst; cbn in *; intuition congruence).
  assert (Md : forall n, In n (nodes g) -> attr (nd g n) mk = Some m0 \/ attr (nd g n) mk = Some m1).
  { intros n I. apply nd_In in I. destruct I as [b I]. destruct (Ms n b) as (m & K & J); [apply dget_In; exact I|].
    rewrite I. cbn [attr]. rewrite K. cbn in J. intuition congruence. }
  assert (Att : forall j n, nth_error (nodes g) j = Some n -> exists b, nd g n = Some b /\ nd g' n = Some (dset ik (VInt (Z.of_nat (S j))) b)).
  { intros j n I. apply (nth_error_nodes _ W) in I. destruct I as (a & I & I'). destruct (At j n a I) as (b & B1 & B2).
    exists b. split; [assumption|]. rewrite B2. do 3 f_equal. lia. }
  split; [split; [exact NE|split; [intros m ->; cbn in P; congruence|exact Md]]|].
  assert (Ed : forall u v, ed g' u v = ed g u v) by (intros; unfold ed; rewrite A; reflexivity).
  split; [split; [exact N|split; assumption]|].
  apply tnet_edges_ok in E.
  assert (In1 : forall n, In n (nodes g) -> In n mode1 <-> attr (nd g n) mk = Some m0).
  { intros n I. rewrite (M1 m0 [m1] eq_refl n). cbn [In]. apply nd_In in I. destruct I as [b I]. rewrite I. cbn [attr]. split.
    - intros [[]|(a & J & K)]. apply (In_dget n a (gnodes g) (wf_nodup W)) in J. unfold nd in I. congruence.
    - intros K. right. exists b. split; [apply dget_In; exact I|assumption]. }
  clear - W E In1 Md Att NE Ends.
  induction E as [|e l es ls (s & t & O & Is & It & i & j & Ai & Aj & w & -> & Hw) F IH]; constructor.
  - assert (In s (nodes g) /\ In t (nodes g)) as [Js Jt].
    { destruct e as [[u v] a]. cbn [snd] in O. destruct (Ends u v a); [left; reflexivity|]. destruct O as [O|O]; inversion O; subst; auto. }
    apply In1 in Is; [|assumption]. assert (At : attr (nd g t) mk = Some m1).
    { destruct (Md t Jt) as [X|X]; [|assumption]. exfalso. apply It. apply In1; assumption. }
    destruct (In_nth_error _ _ Js) as [p Np]. destruct (In_nth_error _ _ Jt) as [q Nq].
    destruct (Att p s Np) as (b & B1 & B2). destruct (Att q t Nq) as (c & C1 & C2).
    rewrite B2 in Ai. rewrite C2 in Aj. cbn [attr] in Ai, Aj. rewrite dget_dset_same in Ai, Aj. inversion Ai; inversion Aj; subst.
    exists s, t, p, q, w. repeat (split; [assumption|]). split; [reflexivity|assumption].
  - apply IH. intros; eapply Ends; right; eassumption.
Qed.

(** C93, with times: for a multigraph each line has the key of the edge, in double quotes, before the numbers.  A key must
    have no double quote and no newline. *)
Theorem C93_timed (weighted : bool) (mk ik wk timeString : str) (source : option val) (g g' : graph V) (es : list (V * V * str * attrs)) (text : str) :
  WF g -> (forall u v k a, In (u, v, k, a) es -> In u (nodes g) /\ In v (nodes g) /\ ~ In 34%N k /\ ~ In 10%N k /\ (weighted = true -> exists z, dget wk a = Some (VInt z))) ->
  tnet_timed true weighted mk ik wk timeString source g es = (g', Some text, None) ->
  exists m0 m1, two_modes mk source g m0 m1 /\ numbered ik g g' /\
    Forall2 (fun e line => match e with (u, v, k, a) => exists row, line = Some (k, row) /\ row_for weighted mk wk m0 m1 g u v a row end) es (read_timed text).
Proof.
  intros W OK Q. unfold tnet_timed in Q. destruct (tnet_nodes mk ik 1 (gnodes g) _ [] g) as [g1 [[modes mode1]|e]] eqn:T; [|discriminate]. destruct (Nat.eqb_spec (length modes) 2) as [L|L]; [|discriminate].
  unfold timed_edges in Q. destruct (tnet_edges weighted ik wk mode1 g1 (map unkeyed es)) as [ls e] eqn:E. injection Q as <- <- ->.
  destruct (@timed_ok weighted mk ik wk source g (map unkeyed es) g1 modes mode1 ls W T L) as (m0 & m1 & TM & NU & F); [|exact E|].
  { intros u v a I1. apply in_map_iff in I1. destruct I1 as ([[[u' v'] k] a'] & Q & I1). injection Q as -> -> ->. destruct (OK u v k a I1) as (A & B & _). auto. }
  exists m0, m1. split; [exact TM|]. split; [exact NU|].
  assert (RR : exists rows, Forall2 (fun e kr => match e with (u, v, k, a) => fst kr = k /\ row_for weighted mk wk m0 m1 g u v a (snd kr) end) es rows /\
     (forall r, In r rows -> snd r <> [] /\ ~ In 34%N (fst r) /\ ~ In 10%N (fst r)) /\
     concat (map (fun kl => line_text (Some (fst kl)) (snd kl)) (combine (map key_of es) ls)) = concat (map (fun l => l ++ [nl]) (map (fun kr => $"""" ++ fst kr ++ $""" " ++ row_text (snd kr)) rows))).
  { clear T E TM NU. revert ls F OK. induction es as [|[[[u v] k] a] es IH]; intros ls F OK; inversion F as [|x l x' ls' LF F']; subst; [exists []; split; [constructor|]; split; [intros r []|reflexivity]|].
    destruct (IH ls' F') as (rows & G1 & G2 & G3); [intros u' v' k' a' I1; apply OK; right; exact I1|]. destruct (OK u v k a (or_introl eq_refl)) as (_ & _ & K1 & K2 & K3).
    destruct (line_row LF) as (row & RF & NR & LT); [exact K3|]. exists ((k, row) :: rows). split; [constructor; [split; [reflexivity|exact RF]|exact G1]|]. split; [intros r [<-|I1]; [auto|apply G2, I1]|].
    cbn [map combine concat key_of fst snd]. rewrite G3, (LT (Some k)). rewrite <- !app_assoc. reflexivity. }
  destruct RR as (rows & F' & NE' & ->). unfold read_timed. rewrite file_lines_concat.
  - rewrite map_map. clear -F' NE'. induction F' as [|[[[u v] k] a] kr es rows A F IH]; [constructor|]. cbn [map]. constructor; [|apply IH; intros r I1; apply NE'; right; exact I1].
    destruct (NE' kr (or_introl eq_refl)) as (N1 & N2 & N3). destruct A as [A1 A2]. subst k. exists (snd kr). split; [|exact A2]. rewrite time_read.
    + cbn [option_map fst snd]. rewrite numbers_row by exact N1. reflexivity.
    + exact N2.
    + intros I1. apply row_plain in I1. lia.
  - intros l I1 I2. apply in_map_iff in I1. destruct I1 as (r & <- & I1). destruct (NE' r I1) as (_ & N2 & N3). change ($"""") with [34%N] in I2. change ($""" ") with [34%N; 32%N] in I2. rewrite !in_app_iff in I2.
    destruct I2 as [[Q|[]]|[I2|[[Q|[Q|[]]]|I2]]]; try discriminate; [exact (N3 I2)|apply row_plain in I2; lia].
Qed.

Lemma two_modes_found mk ik source g m0 m1 : WF g -> m0 <> m1 ->
  (forall n, In n (nodes g) -> attr (nd g n) mk = Some m0 \/ attr (nd g n) mk = Some m1) ->
  (exists n, attr (nd g n) mk = Some m0) -> (exists n, attr (nd g n) mk = Some m1) -> (forall m, source = Some m -> m = m0) ->
  exists g' p q mode1, tnet_nodes mk ik 1 (gnodes g) (match source with Some m => [m] | None => [] end) [] g = (g', Ok ([p; q], mode1)) /\
    (forall n, In n (nodes g) -> In n mode1 <-> attr (nd g n) mk = Some p) /\
    (forall n, In n (nodes g) -> attr (nd g n) mk = Some p \/ attr (nd g n) mk = Some q) /\
    (forall n, In n (nodes g) -> attr (nd g' n) ik <> None).
Proof.
  intros W NE Md [n0 E0] [n1 E1] Src.  set (start := match source with Some m => [m] | None => [] end).
  assert (Sub : incl start [m0; m1]).
  { unfold start. destruct source as [m|]; intros x []; [subst|contradiction]. rewrite (Src x eq_refl). left; reflexivity. }
  assert (NDs : NoDup start) by (unfold start; destruct source; repeat constructor; intros []).
  destruct (@tnet_nodes_total V _ mk ik m0 m1 (gnodes g) 1 start [] g) as (g' & modes & mode1 & T & Inc); try assumption.
  { intros n a I. unfold nodes. apply in_map_iff. exists (n, a); auto. }
  { intros n a I. assert (Q : nd g n = Some a) by (apply In_dget; [apply (wf_nodup W)|assumption]).
    destruct (Md n) as [X|X]; [apply nd_In; eauto| |]; rewrite Q in X; cbn in X; eauto. }
  pose proof T as T0. apply tnet_nodes_ok in T; [|apply (wf_nodup W)|unfold start; destruct source; cbn; lia|assumption].
  destruct T as (A & D & N & (more & P) & L' & ND & Ms & M1 & At & Un).
  assert (Has : forall n m, attr (nd g n) mk = Some m -> In m modes).
  { intros n m X. destruct (nd g n) as [b|] eqn:Q; [|discriminate]. cbn in X. destruct (Ms n b) as (m' & K & J); [apply dget_In; exact Q|]. congruence. }
  assert (Len : length modes = 2).
  { assert (2 <= length modes); [|lia]. apply (@NoDup_incl_length _ [m0; m1]); [constructor; [intros [X|[]]; congruence|constructor; [intros []|constructor]]|].
    intros x [<-|[<-|[]]]; [apply (Has n0)|apply (Has n1)]; assumption. }
  destruct modes as [|p [|q [|? ?]]]; try discriminate. exists g', p, q, mode1. split; [exact T0|]. split.
  { intros n I. rewrite (M1 p [q] eq_refl n). cbn [In]. apply nd_In in I. destruct I as [b I]. rewrite I. cbn [attr]. split.
    - intros [[]|(a & J & K)]. apply (In_dget n a (gnodes g) (wf_nodup W)) in J. unfold nd in I. congruence.
    - intros K. right. exists b. split; [apply dget_In; exact I|assumption]. }
  split.
  { intros n I. apply nd_In in I. destruct I as [b I]. destruct (Ms n b) as (m & K & J); [apply dget_In; exact I|].
    rewrite I. cbn [attr]. rewrite K. cbn in J. intuition congruence. }
  intros n J. destruct (In_nth_error _ _ J) as [k K]. apply (nth_error_nodes _ W) in K. destruct K as (b & K & _).
  destruct (At _ _ _ K) as (c & C1 & C2). rewrite C2. cbn [attr]. rewrite dget_dset_same. discriminate.
Qed.
(** C93, with times: a two-mode multigraph is accepted, whatever its keys. *)
Theorem C93_accepts (weighted : bool) (mk ik wk timeString : str) (source : option val) (g : graph V) (m0 m1 : val) (es : list (V * V * str * attrs)) :
  WF g -> m0 <> m1 -> (forall n, In n (nodes g) -> attr (nd g n) mk = Some m0 \/ attr (nd g n) mk = Some m1) ->
  (exists n, attr (nd g n) mk = Some m0) -> (exists n, attr (nd g n) mk = Some m1) -> (forall m, source = Some m -> m = m0) ->
  (forall u v k a, In (u, v, k, a) es -> In u (nodes g) /\ In v (nodes g) /\ attr (nd g u) mk <> attr (nd g v) mk /\ (weighted = true -> dget wk a <> None)) ->
  exists g' text, tnet_timed true weighted mk ik wk timeString source g es = (g', Some text, None).
Proof.
  intros W NE Md E0 E1 Src Ed. destruct (@two_modes_found mk ik source g m0 m1 W NE Md E0 E1 Src) as (g' & p & q & mode1 & T & In1 & Two & X).
  unfold tnet_timed. rewrite T. cbn [length Nat.eqb]. unfold timed_edges.
  assert (exists ls, tnet_edges weighted ik wk mode1 g' (map unkeyed es) = (ls, None)) as [ls ->]; [|eauto].
  assert (Ed' : forall u v a, In (u, v, a) (map unkeyed es) -> In u (nodes g) /\ In v (nodes g) /\ attr (nd g u) mk <> attr (nd g v) mk /\ (weighted = true -> dget wk a <> None)).
  { intros u v a I1. apply in_map_iff in I1. destruct I1 as ([[[u' v'] k] a'] & Q & I1). injection Q as -> -> ->. eapply Ed, I1. }
  apply tnet_edges_total.
  - intros u v a I1. destruct (Ed' u v a I1) as (Iu & Iv & D & _). rewrite (In1 u Iu), (In1 v Iv).
    destruct (Two u Iu) as [Y|Y], (Two v Iv) as [Z|Z]; rewrite Y, Z in *; try congruence; [left|right]; split; try reflexivity; try (intros R; congruence).
  - intros u v a I1. destruct (Ed' u v a I1) as (Iu & Iv & _). split; apply X; assumption.
  - intros Wt u v a I1. destruct (Ed' u v a I1) as (_ & _ & _ & D). auto.
Qed.

(** C93: a graph that is not a multigraph has no times: the file is opened, nothing is written, TypeError; the ids are set. *)
Theorem C93_simple_refuted (weighted : bool) (mk ik wk timeString : str) (source : option val) (g : graph V) (m0 m1 : val) (es : list (V * V * str * attrs)) :
  WF g -> m0 <> m1 -> (forall n, In n (nodes g) -> attr (nd g n) mk = Some m0 \/ attr (nd g n) mk = Some m1) ->
  (exists n, attr (nd g n) mk = Some m0) -> (exists n, attr (nd g n) mk = Some m1) -> (forall m, source = Some m -> m = m0) ->
  exists g', tnet_timed false weighted mk ik wk timeString source g es = (g', Some [], Some TypeError).
Proof.
  intros W NE Md E0 E1 Src. destruct (@two_modes_found mk ik source g m0 m1 W NE Md E0 E1 Src) as (g' & p & q & mode1 & T & _).
  unfold tnet_timed. rewrite T. cbn [length Nat.eqb]. eauto.
Qed.
End Tnet.

Definition as_mode (s : str) : attrs := [($"type", VStr s)].
Definition papers_authors : graph str :=
  add_node $"p2" (as_mode $"paper") (add_node $"p1" (as_mode $"paper") (add_node $"a1" (as_mode $"author") (empty_graph false))).
Example C93_file_ex :
  let g := add_edge $"p2" $"a1" [($"weight", VInt 4)] (add_edge $"a1" $"p1" [($"weight", VInt 3)] papers_authors) in
  exists g', tnet_file true $"type" $"tnet-ID" $"weight" (Some (VStr $"paper")) g = (g', Some ($"2 1 3" ++ [nl] ++ $"3 1 4" ++ [nl]), None) /\
    read_file ($"2 1 3" ++ [nl] ++ $"3 1 4" ++ [nl]) = [[2; 1; 3]; [3; 1; 4]]%Z.
Proof. eexists. split; vm_compute; reflexivity. Qed.
Definition when (t : str) : attrs := [($"time", VStr t)].
Definition dated : list (str * str * str * attrs) := [($"a1", $"p1", $"0", when $"2001-01-01T00:00:00"); ($"a1", $"p1", $"1", when $"2002-01-01T00:00:00"); ($"p2", $"a1", $"0", when $"2003-01-01T00:00:00")].
(** C93: what is in the file are the keys of the edges, not their attribute [timeString] *)
Theorem C93_time_refuted : exists g' text, tnet_timed true false $"type" $"tnet-ID" $"weight" $"time" None papers_authors dated = (g', Some text, None) /\
  text = $"""0"" 1 2" ++ [nl] ++ $"""1"" 1 2" ++ [nl] ++ $"""0"" 1 3" ++ [nl] /\
  read_timed text = [Some ($"0", [1; 2]%Z); Some ($"1", [1; 2]%Z); Some ($"0", [1; 3]%Z)].
Proof. eexists _, _. split; [vm_compute; reflexivity|]. split; vm_compute; reflexivity. Qed.
(** C93: a double quote in a key is not escaped: two graphs, one with one edge and one with two, have the same file *)
Theorem C93_quote_refuted : exists (k : str) g1 g2 text,
  tnet_timed true false $"type" $"tnet-ID" $"weight" $"time" None papers_authors [($"a1", $"p2", k, [])] = (g1, Some text, None) /\
  tnet_timed true false $"type" $"tnet-ID" $"weight" $"time" None papers_authors [($"a1", $"p1", $"x", []); ($"a1", $"p2", $"y", [])] = (g2, Some text, None).
Proof. exists ($"x"" 1 2" ++ [nl] ++ $"""y"). eexists _, _, _. split; vm_compute; reflexivity. Qed.

Print Assumptions C93_file.
Print Assumptions C93_timed.
Print Assumptions C93_accepts.
Print Assumptions C93_simple_refuted.
Print Assumptions C93_time_refuted.
Print Assumptions C93_quote_refuted.
