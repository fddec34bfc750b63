(** Names of files, and what a disk holds after some of the events of a call. *)
From Coq Require Import List ZArith Lia Bool Arith.
From Coq Require Import String.
From Verif Require Import Base PyStr JournalModel JournalProofs Nx CsvModel GraphFileModel GraphSaveModel.
From Verif Require CliModel FileProofs.
Import ListNotations.
Local Open Scope list_scope.

Lemma split_two c b t : split_char c (b ++ c :: t) = split_char c b ++ split_char c t.
Proof.
  induction b as [|x b IH]; [cbn [app split_char]; rewrite eqb_refl; reflexivity|]. cbn [app split_char]. rewrite IH. destruct (eqb x c); [reflexivity|].
  destruct (split_char c b) as [|w ws] eqn:E; [|reflexivity]. destruct (FileProofs.split_some c b) as (p & q & F). congruence.
Qed.
Lemma split_none c t : ~ In c t -> split_char c t = [t].
Proof. apply split_char_last. Qed.
Lemma strip_last b : b <> [] -> last b 0%N <> slash -> rstrip_slash (b ++ [slash]) = b.
Proof.
  intros NE L. unfold rstrip_slash. rewrite rev_app_distr. cbn [rev app drop_slashes]. rewrite eqb_refl. destruct (exists_last NE) as (a & c & ->). rewrite last_last in L. rewrite rev_app_distr. cbn [rev app drop_slashes].
  rewrite neq_eqb by exact L. rewrite <- (rev_involutive (a ++ [c])). rewrite rev_app_distr. reflexivity.
Qed.
(** the name of a file for a path that was normalised *)
Definition named (p rest : str) : str :=
  match path_split p with ([], []) => rest | ([], t) => t ++ $"_" ++ rest | (h, []) => path_join h rest | (h, t) => path_join h (t ++ $"_" ++ rest) end.
Lemma named_one t rest : t <> [] -> ~ In slash t -> named t rest = t ++ $"_" ++ rest.
Proof. intros NE N. unfold named, path_split, head_of. rewrite split_none by exact N. cbn. destruct t; [congruence | reflexivity]. Qed.
Lemma named_path b t rest : t <> [] -> ~ In slash t -> b = [] \/ last b 0%N <> slash -> named (b ++ slash :: t) rest = b ++ slash :: t ++ $"_" ++ rest.
Proof.
  intros NE N B. unfold named, path_split, head_of. rewrite split_two, (split_none slash t N). rewrite removelast_last, last_last.
  destruct (split_char slash b) as [|w ws] eqn:E; [destruct (FileProofs.split_some slash b) as (p & q & F); congruence|]. rewrite <- E, FileProofs.join_split.
  destruct b as [|c b].
  - cbn [app]. destruct t as [|x t]; [congruence|]. reflexivity.
  - destruct B as [B|B]; [discriminate|]. rewrite strip_last by (discriminate || exact B). destruct t as [|x t]; [congruence|]. cbn [fst snd]. unfold path_join. rewrite neq_eqb by exact B. reflexivity.
Qed.
(** what a path is made of *)
Definition plain (parts : list str) : Prop := parts <> [] /\ Forall (fun p => p <> [] /\ ~ In slash p /\ p <> $"." /\ p <> $"..") parts.
Lemma norm_parts_plain parts more abs : Forall (fun p => p <> [] /\ ~ In slash p /\ p <> $"." /\ p <> $"..") parts -> (more = [] \/ more = [[]]) ->
  forall acc, CliModel.norm_parts abs acc (parts ++ more) = rev acc ++ parts.
Proof.
  intros F M. induction F as [|p ps (P1 & _ & P3 & P4) F IH]; intros acc.
  - destruct M as [-> | ->]; cbn; rewrite app_nil_r; reflexivity.
  - cbn [app CliModel.norm_parts]. rewrite (neq_eqb P1), (neq_eqb P3), (neq_eqb P4). cbn [orb]. rewrite IH. cbn [rev]. rewrite <- app_assoc. reflexivity.
Qed.
Lemma join_plain_head parts : plain parts -> exists c t, join [slash] parts = c :: t /\ c <> slash /\ (forall d, hd [] parts = d -> exists e, d = c :: e).
Proof.
  intros [NE F]. destruct parts as [|p ps]; [congruence|]. inversion F as [|? ? (P1 & P2 & _) _]; subst. destruct p as [|c p]; [congruence|]. exists c.
  destruct ps as [|q ps]; cbn [join app hd]; (eexists; split; [reflexivity|]; split; [intros ->; apply P2; left; reflexivity | intros d <-; eauto]).
Qed.
Lemma norm_plain parts (rooted tail : bool) : plain parts ->
  CliModel.normpath ((if rooted then [slash] else []) ++ join [slash] parts ++ (if tail then [slash] else [])) = (if rooted then [slash] else []) ++ join [slash] parts.
Proof.
  intros P. destruct (join_plain_head parts P) as (c & t & J & NC & _). destruct P as [NE F].
  assert (S : split_char slash (join [slash] parts) = parts) by (apply split_join; [exact NE|]; intros l I; apply (proj1 (Forall_forall _ _) F l I)).
  assert (S' : split_char slash (join [slash] parts ++ (if tail then [slash] else [])) = parts ++ (if tail then [[]] else [])).
  { destruct tail; [rewrite split_two, S; reflexivity | rewrite !app_nil_r; exact S]. }
  assert (M : (if tail then [[]] else []) = @nil str \/ (if tail then [[]] else []) = [@nil char]) by (destruct tail; auto).
  unfold CliModel.normpath. destruct rooted; cbn [app].
  - assert (L : CliModel.lead (slash :: join [slash] parts ++ (if tail then [slash] else [])) = $"/").
    { rewrite J. cbn [app]. unfold CliModel.lead. change (eqb slash 47%N) with true. rewrite (neq_eqb NC). destruct (t ++ (if tail then [slash] else [])); reflexivity. }
    change 47%N with slash in *. rewrite L. change (slash :: join [slash] parts ++ (if tail then [slash] else [])) with ([] ++ slash :: join [slash] parts ++ (if tail then [slash] else [])).
    rewrite split_two, S'. cbn [split_char app]. change (CliModel.norm_parts (negb (eqb $"/" [])) [] ([] :: parts ++ (if tail then [[]] else []))) with (CliModel.norm_parts true [] (parts ++ (if tail then [[]] else []))).
    rewrite (norm_parts_plain parts _ true F M). reflexivity.
  - assert (L : CliModel.lead (join [slash] parts ++ (if tail then [slash] else [])) = []).
    { rewrite J. cbn [app]. unfold CliModel.lead. change 47%N with slash. rewrite (neq_eqb NC). destruct (t ++ (if tail then [slash] else [])) as [|? [|? ?]]; reflexivity. }
    rewrite L. change 47%N with slash. rewrite S'. rewrite (norm_parts_plain parts _ _ F M). cbn [rev app]. change $"/" with [slash]. rewrite J. reflexivity.
Qed.
Lemma named_plain parts (rooted : bool) rest : plain parts ->
  named ((if rooted then [slash] else []) ++ join [slash] parts) rest = (if rooted then [slash] else []) ++ join [slash] parts ++ $"_" ++ rest.
Proof.
  intros [NE F]. destruct (exists_last NE) as (ps & t & ->). apply Forall_app in F. destruct F as [F Ft]. inversion Ft as [|? ? (T1 & T2 & _) _]; subst.
  destruct ps as [|p ps].
  - cbn [app join]. destruct rooted; [|apply named_one; assumption]. apply (named_path [] t rest T1 T2). left. reflexivity.
  - assert (JJ : join [slash] ((p :: ps) ++ [t]) = join [slash] (p :: ps) ++ slash :: t).
    { clear. revert p. induction ps as [|q ps IH]; intros p; [reflexivity|]. change (join [slash] ((p :: q :: ps) ++ [t])) with (p ++ [slash] ++ join [slash] ((q :: ps) ++ [t])). rewrite IH.
      change (join [slash] (p :: q :: ps)) with (p ++ [slash] ++ join [slash] (q :: ps)). rewrite <- !app_assoc. reflexivity. }
    assert (LL : forall x, last (x ++ join [slash] (p :: ps)) 0%N <> slash).
    { assert (NEp : p :: ps <> []) by discriminate. destruct (exists_last NEp) as (qs & q & E). rewrite E in *. apply Forall_app in F. destruct F as [_ F]. inversion F as [|? ? (Q1 & Q2 & _) _]; subst.
      assert (JQ : exists y, join [slash] (qs ++ [q]) = y ++ q).
      { clear. induction qs as [|a qs IH]; [exists []; reflexivity|]. destruct IH as (y & IH). destruct qs as [|b qs]; [exists (a ++ [slash]); cbn; rewrite <- app_assoc; reflexivity|].
        exists (a ++ [slash] ++ y). change (join [slash] ((a :: b :: qs) ++ [q])) with (a ++ [slash] ++ join [slash] ((b :: qs) ++ [q])). rewrite IH, <- !app_assoc. reflexivity. }
      destruct JQ as (y & ->). intros x. destruct (exists_last Q1) as (q' & c & ->). rewrite !app_assoc, last_last. intros ->. apply Q2. apply in_or_app. right. left. reflexivity. }
    rewrite JJ. rewrite app_assoc. rewrite named_path; [rewrite <- !app_assoc; reflexivity | assumption | assumption |]. right. apply LL.
Qed.
Lemma named_two p x y : x <> y -> named p x <> named p y.
Proof.
  intros N E. apply N. unfold named in E. destruct (path_split p) as [[|h hs] [|t ts]]; [exact E | | |].
  - apply app_inv_head in E. apply app_inv_head in E. exact E.
  - unfold path_join in E. destruct (eqb _ _); apply app_inv_head in E; [exact E|]. apply app_inv_head in E. exact E.
  - unfold path_join in E. destruct (eqb _ _); apply app_inv_head in E; [|apply app_inv_head in E]; apply app_inv_head in E; apply app_inv_head in E; exact E.
Qed.

(** ** disks *)
Lemma happen_other d e f : (match e with Open g => g | Put g _ => g end) <> f -> dget f (happen d e) = dget f d.
Proof. intros N. destruct e as [g|g t]; cbn [happen]; rewrite dget_dset, neq_eqb by congruence; reflexivity. Qed.
Lemma after_other d evs f : (forall e, In e evs -> (match e with Open g => g | Put g _ => g end) <> f) -> dget f (after d evs) = dget f d.
Proof.
  revert d. induction evs as [|e evs IH]; intros d N; [reflexivity|]. unfold after. cbn [fold_left]. fold (after (happen d e) evs).
  rewrite IH by (intros x I; apply N; right; exact I). apply happen_other, N. left. reflexivity.
Qed.
