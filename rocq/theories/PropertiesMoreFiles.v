(** * C46, C92, C69, C105: further cases of names, of what a directory gives, of the head of a BibTeX file and of errors in years. *)
From Coq Require Import List ZArith Lia Bool Arith Permutation.
From Coq Require Import String.
From Verif Require Import Base PyStr CacheModel CacheSpec CacheProofs PropertiesCache.
From Verif Require GraphSaveModel GraphSaveProofs PropertiesGraphSave CliModel BibModel PropertiesBib JournalProofs.
Import ListNotations.
Local Open Scope list_scope.

(** ** C46 *)
Section C46.
Context {rec : Type} `{E : EqDec rec}.
Variable dir : str.
Variable parse : kind -> str -> str -> option (list N) -> res (option (str * list rec * option exn)).
Variable enc : stamp * coll rec -> list N.
Variable dec : list N -> res (stamp * coll rec).
(** the file f of the directory is asked for by the call, and it gives records of the kind t and perhaps an error *)
Definition file_gives (a : call) (fs : files) (f t : str) (rs : list rec) (e : option exn) : Prop :=
  In f (dkeys fs) /\ (exists u, f = u ++ a_ext a) /\ (a_kind a = Records -> user_file f) /\ parse (a_kind a) (a_ver a) f (option_map snd (dget f fs)) = Ok (Some (t, rs, e)).
Definition described (a : call) (fs : files) (done : list str) (c : coll rec) : Prop :=
  c_name c = call_name dir a /\ NoDup (c_types c) /\
  (forall t, In t (c_types c) <-> exists f rs e, In f done /\ file_gives a fs f t rs e) /\
  (forall x, In x (c_recs c) <-> exists f t rs e, In f done /\ file_gives a fs f t rs e /\ In x rs) /\
  (c_bad c = true <-> exists f t rs e, In f done /\ file_gives a fs f t rs (Some e)) /\
  (forall f x, dget f (c_errors c) = Some x <-> exists t rs, In f done /\ file_gives a fs f t rs (Some x)).
Lemma described_read a fs done f c c' : In f (dkeys fs) -> wanted a f = true -> described a fs done c -> read_file parse a fs f c = Ok c' -> described a fs (done ++ [f]) c'.
Proof.
  intros K W (D1 & D2 & D3 & D4 & D5 & D6) R. unfold read_file in R.
  assert (FG : forall t rs e, parse (a_kind a) (a_ver a) f (option_map snd (dget f fs)) = Ok (Some (t, rs, e)) -> file_gives a fs f t rs e).
  { intros t rs e P. unfold wanted in W. apply andb_true_iff in W as [W1 W2]. split; [exact K|]. split; [apply ends_with_spec; exact W1|]. split; [|exact P]. intros KR. rewrite KR in W2. apply user_cachef. unfold cachef. apply negb_true_iff. exact W2. }
  destruct (parse (a_kind a) (a_ver a) f (option_map snd (dget f fs))) as [[[[t rs] e]|]|x] eqn:P; [| |discriminate].
  - injection R as <-. specialize (FG _ _ _ eq_refl). unfold described. cbn [c_name c_types c_recs c_bad c_errors].
    assert (U : forall t' rs' e', file_gives a fs f t' rs' e' -> t' = t /\ rs' = rs /\ e' = e) by (intros t' rs' e' (_ & _ & _ & P'); rewrite P in P'; injection P' as -> -> ->; auto).
    assert (INA : forall g, In g (done ++ [f]) <-> In g done \/ g = f) by (intros g; rewrite in_app_iff; cbn; intuition).
    split; [exact D1|]. split; [|split; [|split; [|split]]].
    + unfold add_type. destruct (mem t (c_types c)) eqn:M; [exact D2|]. apply mem_not_In in M. clear - D2 M. induction (c_types c) as [|y l IH]; cbn [app]; [constructor; [intros []|constructor]|].
      inversion D2; subst. constructor; [rewrite in_app_iff; cbn; intros [X|[X|[]]]; [contradiction|subst; apply M; left; reflexivity]|]. apply IH; [assumption|]. intros X. apply M. right. exact X.
    + intros u. unfold add_type. split.
      * intros I1. assert (I2 : In u (c_types c) \/ u = t) by (destruct (mem t (c_types c)); [auto|]; apply in_app_iff in I1 as [I1|[I1|[]]]; auto).
        destruct I2 as [I2| ->]; [apply D3 in I2 as (g & rs' & e' & I2 & G); exists g, rs', e'; split; [apply INA; auto|exact G]|]. exists f, rs, e. split; [apply INA; auto|exact FG].
      * intros (g & rs' & e' & I1 & G). apply INA in I1 as [I1| ->].
        -- assert (I2 : In u (c_types c)) by (apply D3; eauto). destruct (mem t (c_types c)); [exact I2|]. apply in_app_iff. auto.
        -- destruct (U _ _ _ G) as (-> & _). destruct (mem t (c_types c)) eqn:M; [apply mem_In; exact M|]. apply in_app_iff. right. left. reflexivity.
    + intros x. split.
      * intros I1. unfold union in I1. apply in_app_iff in I1 as [I1|I1]; [apply D4 in I1 as (g & t' & rs' & e' & I1 & G & I2); exists g, t', rs', e'; split; [apply INA; auto|auto]|].
        apply filter_In in I1 as [I1 _]. exists f, t, rs, e. split; [apply INA; auto|auto].
      * intros (g & t' & rs' & e' & I1 & G & I2). unfold union. apply in_app_iff. apply INA in I1 as [I1| ->]; [left; apply D4; exists g, t', rs', e'; auto|].
        destruct (U _ _ _ G) as (_ & -> & _). destruct (mem x (c_recs c)) eqn:M; [left; apply mem_In; exact M|right; apply filter_In; split; [exact I2|rewrite M; reflexivity]].
    + destruct e as [x|]; split; auto.
      * intros _. exists f, t, rs, x. split; [apply INA; auto|exact FG].
      * intros B. apply D5 in B as (g & t' & rs' & e' & I1 & G). exists g, t', rs', e'. split; [apply INA; auto|exact G].
      * intros (g & t' & rs' & e' & I1 & G). apply INA in I1 as [I1| ->]; [apply D5; exists g, t', rs', e'; auto|]. destruct (U _ _ _ G) as (_ & _ & Q). discriminate.
    + intros g x. destruct e as [y|].
      * rewrite dget_dset. destruct (eqb_spec g f) as [->|NE].
        -- split; [intros Q; injection Q as <-; exists t, rs; split; [apply INA; auto|exact FG]|]. intros (t' & rs' & _ & G). destruct (U _ _ _ G) as (_ & _ & Q). congruence.
        -- rewrite D6. split; intros (t' & rs' & I1 & G); exists t', rs'; (split; [|exact G]); [apply INA; auto|]. apply INA in I1 as [I1|I1]; [exact I1|congruence].
      * rewrite D6. split; intros (t' & rs' & I1 & G); exists t', rs'; (split; [|exact G]); [apply INA; auto|]. apply INA in I1 as [I1| ->]; [exact I1|]. destruct (U _ _ _ G) as (_ & _ & Q). discriminate.
  - destruct (eqb (a_ext a) []); [|discriminate]. injection R as <-. assert (NG : forall t rs e, ~ file_gives a fs f t rs e) by (intros t rs e (_ & _ & _ & Q); congruence).
    assert (INA : forall g, In g (done ++ [f]) <-> In g done \/ g = f) by (intros g; rewrite in_app_iff; cbn; intuition).
    split; [exact D1|]. split; [exact D2|]. split; [|split; [|split]].
    + intros t. rewrite D3. split; intros (g & rs & e & I1 & G); exists g, rs, e; (split; [|exact G]); [apply INA; auto|]. apply INA in I1 as [I1| ->]; [exact I1|]. elim (NG _ _ _ G).
    + intros x. rewrite D4. split; intros (g & t & rs & e & I1 & G & J); exists g, t, rs, e; (split; [|auto]); [apply INA; auto|]. apply INA in I1 as [I1| ->]; [exact I1|]. elim (NG _ _ _ G).
    + rewrite D5. split; intros (g & t & rs & e & I1 & G); exists g, t, rs, e; (split; [|exact G]); [apply INA; auto|]. apply INA in I1 as [I1| ->]; [exact I1|]. elim (NG _ _ _ G).
    + intros g x. rewrite D6. split; intros (t & rs & I1 & G); exists t, rs; (split; [|exact G]); [apply INA; auto|]. apply INA in I1 as [I1| ->]; [exact I1|]. elim (NG _ _ _ G).
Qed.
Lemma ticks_done a fs : a_cached a = false -> forall ts p, (forall e, In e ts -> exists n m, e = Tick n m) ->
  match p with
  | Listing => True
  | Reading fl todo c => exists done, fl = done ++ todo /\ fl = listing a fs /\ described a fs done c
  | Done (Ok c) => described a fs (listing a fs) c
  | Done (Raise _) => True
  | _ => False
  end -> forall fs' c, run dir parse enc dec ts (mkWorld fs (Some (a, p))) = mkWorld fs' (Some (a, Done (Ok c))) -> fs' = fs /\ described a fs (listing a fs) c.
Proof.
  intros NC. induction ts as [|e ts IH]; intros p T I1 fs' c R.
  - cbn in R. injection R as <- ->. split; [reflexivity|exact I1].
  - destruct (T e (or_introl eq_refl)) as (n & m & ->). assert (T' : forall e, In e ts -> exists n m, e = Tick n m) by (intros e J; apply T; right; exact J).
    unfold run in R. cbn [fold_left step w_run w_files] in R. change (fold_left (step dir parse enc dec) ts) with (run dir parse enc dec ts) in R.
    destruct p as [|fl|fl todo c0|fl todo c0 times|c0 v|c0 more|r]; try contradiction.
    + cbn [tick] in R. rewrite NC in R. apply (IH _ T') in R; [exact R|]. exists []. split; [reflexivity|]. split; [reflexivity|].
      unfold no_coll, described. cbn [c_name c_types c_recs c_bad c_errors dget]. split; [reflexivity|]. split; [constructor|]. split; [intros t; split; [intros []|intros (? & ? & ? & [] & _)]|].
      split; [intros x; split; [intros []|intros (? & ? & ? & ? & [] & _)]|]. split; [split; [discriminate|intros (? & ? & ? & ? & [] & _)]|]. intros f x. split; [discriminate|intros (? & ? & [] & _)].
    + destruct I1 as (done & E1 & E2 & D). destruct todo as [|f todo].
      * cbn [tick] in R. rewrite NC in R. apply (IH _ T') in R; [exact R|]. rewrite app_nil_r in E1. rewrite <- E2, E1. exact D.
      * cbn [tick] in R. destruct (read_file parse a fs f c0) as [c1|x] eqn:RF.
        -- apply (IH _ T') in R; [exact R|]. exists (done ++ [f]). split; [rewrite <- app_assoc; exact E1|]. split; [exact E2|].
           assert (W : In f (listing a fs)) by (rewrite <- E2, E1; apply in_app_iff; right; left; reflexivity). apply In_listing in W as [W K]. apply (described_read a fs done f c0 c1 K W D RF).
        -- apply (IH _ T') in R; [exact R|]. exact I.
    + cbn [tick] in R. apply (IH _ T') in R; [exact R|exact I1].
Qed.
End C46.
(** C46: without a cache a call that succeeds leaves the directory as it is. The collection is called as asked for, or after the extension and the directory.
    Its kinds, its records and its errors are those of the files of the directory with the extension; a record file of which there is an error makes it bad. *)
Theorem C46_read : forall rec (E : EqDec rec) dir parse (enc : stamp * coll rec -> list N) dec a fs c fs', a_cached a = false -> returns dir parse enc dec a fs (Ok c) fs' ->
  fs' = fs /\
  (a_name a <> [] -> c_name c = a_name a) /\ (a_name a = [] -> c_name c = (if eqb (a_ext a) [] then [] else a_ext a ++ $"-") ++ $"files-from-" ++ dir) /\
  NoDup (c_types c) /\ (forall t, In t (c_types c) <-> exists f rs e, file_gives parse a fs f t rs e) /\
  (forall x, In x (c_recs c) <-> exists f t rs e, file_gives parse a fs f t rs e /\ In x rs) /\
  (c_bad c = true <-> exists f t rs e, file_gives parse a fs f t rs (Some e)) /\
  (forall f x, dget f (c_errors c) = Some x <-> exists t rs, file_gives parse a fs f t rs (Some x)).
Proof.
  intros rec E dir parse enc dec a fs c fs' NC (ts & T & R). change (run dir parse enc dec ts (mkWorld fs (Some (a, Listing))) = mkWorld fs' (Some (a, Done (Ok c)))) in R.
  apply (ticks_done dir parse enc dec a fs NC ts Listing T I) in R as (-> & D1 & D2 & D3 & D4 & D5 & D6). split; [reflexivity|].
  assert (L : forall f t rs e, file_gives parse a fs f t rs e -> In f (listing a fs)).
  { intros f t rs e (K & X & U & _). apply In_listing. split; [|exact K]. unfold wanted. apply andb_true_iff. split; [apply ends_with_spec; exact X|]. destruct (a_kind a); [|reflexivity]. specialize (U eq_refl). apply user_cachef in U. unfold cachef in U. rewrite U. reflexivity. }
  split; [intros N; rewrite D1; unfold call_name; destruct (a_name a); [congruence|reflexivity]|].
  split; [intros N; rewrite D1; unfold call_name; rewrite N; destruct (a_ext a) as [|x l]; [reflexivity|]; rewrite neq_eqb by discriminate; rewrite <- app_assoc; reflexivity|].
  split; [exact D2|]. split; [|split; [|split]].
  - intros t. rewrite D3. split; intros (f & rs & e & H); [exists f, rs, e; apply H|exists f, rs, e; split; [eapply L; exact H|exact H]].
  - intros x. rewrite D4. split; [intros (f & t & rs & e & _ & H); eauto 6|intros (f & t & rs & e & G & H); exists f, t, rs, e; split; [eapply L; exact G|auto]].
  - rewrite D5. split; [intros (f & t & rs & e & _ & H); eauto 6|intros (f & t & rs & e & G); exists f, t, rs, e; split; [eapply L; exact G|auto]].
  - intros f x. rewrite D6. split; [intros (t & rs & _ & H); eauto|intros (t & rs & G); exists t, rs; split; [eapply L; exact G|auto]].
Qed.
Example C46_read_ex : exists c, returns $"/x" parse0 enc0 dec0 (mkCall Records $"3" [] $"txt" false) [($"a.txt", (1%Z, [7%N])); ($"b.md", (1%Z, [8%N]))] (Ok c) [($"a.txt", (1%Z, [7%N])); ($"b.md", (1%Z, [8%N]))] /\
  c_recs c = [7%N] /\ c_name c = $"txt-files-from-/x".
Proof. eexists. split; [exists (ticks0 3); split; [intros e I1; apply repeat_spec in I1; eauto|vm_compute; reflexivity]|split; reflexivity]. Qed.
Print Assumptions C46_read.

(** ** C92 *)
Import GraphSaveModel GraphSaveProofs PropertiesGraphSave.
Lemma lead_many n c t : c <> slash -> CliModel.lead (repeat slash n ++ c :: t) = match n with 0 => [] | 2 => $"//" | _ => $"/" end.
Proof.
  intros NC. change slash with 47%N in *. destruct n as [|[|[|n]]]; cbn [repeat app]; unfold CliModel.lead; rewrite ?eqb_refl, ?(neq_eqb NC); cbn [andb negb]; destruct t as [|? [|? ?]]; try reflexivity;
    destruct (repeat 47%N n ++ _) as [|x l]; try reflexivity; destruct l; reflexivity.
Qed.
Lemma split_many n s : split_char slash (repeat slash n ++ s) = repeat [] n ++ split_char slash s.
Proof. induction n as [|n IH]; [reflexivity|]. cbn [repeat app]. change (slash :: repeat slash n ++ s) with ([] ++ slash :: (repeat slash n ++ s)). rewrite split_two, IH. reflexivity. Qed.
Lemma norm_many abs n ps acc : CliModel.norm_parts abs acc (repeat [] n ++ ps) = CliModel.norm_parts abs acc ps.
Proof. induction n as [|n IH]; [reflexivity|]. cbn [repeat app CliModel.norm_parts]. exact IH. Qed.
(** C92: of the slashes that a path begins with one is kept, or two if they are exactly two; ... *)
Theorem C92_slashes : forall home suffix (typing directed tail : bool) n parts what, parts <> [] -> Forall part_ok parts ->
  file_name home what (graph_type typing directed) suffix (repeat 47%N (S n) ++ path_text false tail parts) =
    (if n =? 1 then $"//" else $"/") ++ path_text false false parts ++ $"_" ++ what ++ (if typing then if directed then $"_directed" else $"_undirected" else []) ++ $"." ++ suffix.
Proof.
  intros home suffix typing directed tail n parts what NE F. assert (P : plain parts) by (split; assumption).
  destruct (join_plain_head parts P) as (c & t & J & NC & _). rewrite file_named. unfold path_text. change $"/" with [slash]. cbn [app]. rewrite app_nil_r.
  assert (NM : CliModel.normpath (repeat 47%N (S n) ++ join [slash] parts ++ (if tail then [slash] else [])) = (if n =? 1 then $"//" else $"/") ++ join [slash] parts).
  { unfold CliModel.normpath. assert (L : CliModel.lead (repeat 47%N (S n) ++ join [slash] parts ++ (if tail then [slash] else [])) = (if n =? 1 then $"//" else $"/")).
    { rewrite J. cbn [app]. rewrite (lead_many (S n) c _ NC). destruct n as [|[|n]]; reflexivity. }
    rewrite L. change 47%N with slash. rewrite split_many, norm_many.
    assert (S : split_char slash (join [slash] parts) = parts) by (apply JournalProofs.split_join; [exact NE|]; intros l I1; apply (proj1 (Forall_forall _ _) F l I1)).
    assert (S' : split_char slash (join [slash] parts ++ (if tail then [slash] else [])) = parts ++ (if tail then [[]] else [])).
    { destruct tail; [rewrite split_two, S; reflexivity | rewrite !app_nil_r; exact S]. }
    rewrite S'. rewrite (norm_parts_plain parts _ _ F) by (destruct tail; auto). cbn [rev app]. change $"/" with [slash]. destruct (n =? 1); reflexivity. }
  rewrite NM. assert (EX : forall q, expand_user home ((if n =? 1 then $"//" else $"/") ++ q) = (if n =? 1 then $"//" else $"/") ++ q) by (intros q; destruct (n =? 1); reflexivity). rewrite EX.
  assert (R : forall rest, named ((if n =? 1 then $"//" else $"/") ++ join [slash] parts) rest = (if n =? 1 then $"//" else $"/") ++ join [slash] parts ++ $"_" ++ rest).
  { intros rest. destruct (n =? 1).
    - destruct (exists_last NE) as (ps & q & ->). apply Forall_app in F as [F FQ]. inversion FQ as [|? ? (Q1 & Q2 & _) _]; subst. destruct ps as [|p ps].
      + cbn [app join]. destruct q as [|x q]; [congruence|]. change ($"//" ++ x :: q) with ([slash] ++ slash :: x :: q). unfold named, path_split, head_of. rewrite split_two, (split_none slash (x :: q) Q2), removelast_last, last_last. reflexivity.
      + assert (JL : join [slash] ((p :: ps) ++ [q]) = join [slash] (p :: ps) ++ slash :: q).
        { clear. revert p. induction ps as [|p' ps IH]; intros p; [reflexivity|]. change (p ++ [slash] ++ join [slash] ((p' :: ps) ++ [q]) = (p ++ [slash] ++ join [slash] (p' :: ps)) ++ slash :: q). rewrite IH, <- !app_assoc. reflexivity. }
        rewrite JL. assert (LB : last ($"//" ++ join [slash] (p :: ps)) 0%N <> slash).
        { assert (NP : p :: ps <> []) by discriminate. destruct (exists_last NP) as (zs & z & EZ). rewrite EZ in F. apply Forall_app in F as [_ FZ]. inversion FZ as [|? ? (Z1 & Z2 & _) _]; subst. destruct (exists_last Z1) as (y & w & EW). subst z.
          destruct (join_end zs y w) as (u & EU). change str with (list char) in *. rewrite EZ, EU, app_assoc, last_last. intros ->. apply Z2. apply in_or_app. right. left. reflexivity. }
        rewrite (app_assoc $"//" (join [slash] (p :: ps)) (slash :: q)). etransitivity; [exact (named_path ($"//" ++ join [slash] (p :: ps)) q rest Q1 Q2 (or_intror LB))|]. rewrite <- !app_assoc. reflexivity.
    - exact (named_plain parts true rest P). }
  rewrite R. unfold graph_type. destruct typing, directed; rewrite <- ?app_assoc; reflexivity.
Qed.
(** ... and a name that is empty, or means the present directory, gives files whose names begin with a full stop. *)
Theorem C92_here_refuted : forall home suffix what typ name, In name [[]; $"."; $"./"; $"a/.."; $"./."] -> file_name home what typ suffix name = $"._" ++ what ++ typ ++ $"." ++ suffix.
Proof. intros home suffix what typ name I1. rewrite file_named. repeat (destruct I1 as [<-|I1]; [reflexivity|]). destruct I1. Qed.
Example C92_slashes_ex : file_name (fun _ => None) $"edgeList" [] $"csv" $"//srv/net" = $"//srv/net_edgeList.csv" /\ file_name (fun _ => None) $"edgeList" [] $"csv" $"///srv/net" = $"/srv/net_edgeList.csv" /\
  Forall part_ok [$"srv"; $"net"].
Proof. split; [vm_compute; reflexivity|]. split; [vm_compute; reflexivity|]. repeat constructor; try discriminate; cbn; intuition discriminate. Qed.
Print Assumptions C92_slashes.
Print Assumptions C92_here_refuted.

(** ** C69 *)
(** C69: a BibTeX file begins with lines that are comments, and a record is not written into them: before the entries every line is empty or begins with a percent sign. *)
Theorem C69_head : forall title_case max wos restricted nice rs, max <> 0 -> (forall r, In r rs -> BibModel.b_bad r = false) ->
  exists (head entries : str), BibModel.write_bib title_case max wos restricted nice rs = (head ++ entries, None) /\ head = concat (map (fun l => l ++ [nl]) (removelast (split_char nl head))) /\ 4 <= length (removelast (split_char nl head)) /\ (forall l, In l (removelast (split_char nl head)) -> exists l', l = $"%" ++ l') /\ (rs <> [] -> exists e, entries = [nl; nl] ++ e).
Proof.
  intros title_case max wos restricted nice rs M B. destruct (PropertiesBib.C69_file_partial title_case max wos restricted nice rs M B) as (es & FE & W & _). eexists _, _. split; [exact W|].
  split; [vm_compute; reflexivity|]. split; [vm_compute; lia|]. split.
  - assert (Q : forallb (fun l => match l with 37%N :: _ => true | _ => false end) (removelast (split_char nl BibModel.bib_head)) = true) by (vm_compute; reflexivity).
    intros l I1. rewrite forallb_forall in Q. specialize (Q l I1). destruct l as [|c l]; [discriminate|]. exists l. destruct (N.eq_dec c 37) as [->|NC]; [reflexivity|]. exfalso. clear - Q NC.
    revert Q. repeat match goal with |- context [match ?x with _ => _ end] => destruct x; try discriminate end. congruence.
  - intros NR. destruct FE as [|r e rs es]; [congruence|]. cbn [map concat]. eexists. rewrite <- app_assoc. reflexivity.
Qed.
Print Assumptions C69_head.
Example C69_head_ex : exists entries, BibModel.write_bib (fun s => s) 1000 false false true [PropertiesBib.ex $"WOS:1"] = (BibModel.bib_head ++ entries, None) /\ length (removelast (split_char nl BibModel.bib_head)) = 4.
Proof. eexists. split; vm_compute; reflexivity. Qed.
