(** The pattern for Scopus references against the way they are written. *)
From Coq Require Import String.
From Verif Require Import Base PyStr Span Regex RegexFacts RegexSem CitationModel ScopusCiteSpec.
Set Implicit Arguments.

Lemma first_split (x : char) : forall a b u v, ~ In x a -> ~ In x b -> a ++ x :: u = b ++ x :: v -> a = b /\ u = v.
Proof.
  induction a as [|y a IH]; intros [|z b] u v A B E; cbn in *; try (injection E as E1 E2).
  - injection E as ->. auto.
  - subst. exfalso. apply B. auto.
  - subst. exfalso. apply A. auto.
  - subst z. destruct (IH b u v) as [-> ->]; auto.
Qed.
Lemma prefix_free (x : char) : forall a b (u v : str), ~ In x a -> ~ In x b -> a ++ u = b ++ x :: v -> exists d, b = a ++ d /\ u = d ++ x :: v.
Proof.
  induction a as [|y a IH]; intros b u v A B E.
  - exists b. auto.
  - destruct b as [|z b]; cbn in E; injection E as E1 E2; subst; [exfalso; apply A; cbn; auto|]. destruct (IH b u v) as (d & -> & ->); [cbn in A; tauto|cbn in B; tauto|exact E2|]. exists d. auto.
Qed.
Lemma last_app (a b : str) x y : a ++ [x] = b ++ [y] -> a = b /\ x = y.
Proof. apply app_inj_tail. Qed.
Lemma Forall_forallb {A} (p : A -> bool) l : Forall (fun x => p x = true) l <-> forallb p l = true.
Proof. rewrite forallb_forall, Forall_forall. reflexivity. Qed.

Section Front.
Variables word num : char -> bool.
Hypothesis PC : plain_classes word num.
Let W40 : word 40%N = false. Proof. destruct PC as [F _]. inversion F; assumption. Qed.
Let W41 : word 41%N = false. Proof. destruct PC as [F _]. inversion F as [|? ? ? F1]; inversion F1; assumption. Qed.
Let W44 : word 44%N = false. Proof. destruct PC as [F _]. inversion F as [|? ? ? F1]; inversion F1 as [|? ? ? F2]; inversion F2; assumption. Qed.
Let W46 : word 46%N = false. Proof. destruct PC as [F _]. inversion F as [|? ? ? F1]; inversion F1 as [|? ? ? F2]; inversion F2 as [|? ? ? F3]; inversion F3; assumption. Qed.
Definition nmr : char -> bool := fun x => word x || one_of $"- " x.
Definition ini : char -> bool := fun x => word x || one_of $".-" x.
Definition ini' : char -> bool := fun x => word x || one_of $"-." x.
Definition cod : char -> bool := fun x => word x || one_of $"-" x.
Lemma eqb_N (x y : char) : @eqb char _ x y = (x =? y)%N.
Proof. destruct (N.eqb_spec x y) as [->|N]; [apply eqb_refl|apply neq_eqb, N]. Qed.
Lemma one_of1 a x : one_of [a] x = (x =? a)%N.
Proof. unfold one_of, mem. cbn [existsb]. rewrite eqb_N. apply orb_false_r. Qed.
Lemma one_of2 a b x : one_of [a; b] x = (x =? a)%N || (x =? b)%N.
Proof. unfold one_of, mem. cbn [existsb]. rewrite !eqb_N, orb_false_r. reflexivity. Qed.
Lemma nmr_eq x : nmr x = name_char word x.
Proof. unfold nmr, name_char. change (one_of $"- " x) with (one_of [45; 32]%N x). rewrite one_of2, <- orb_assoc. reflexivity. Qed.
Lemma ini_eq x : ini x = initial_char word x.
Proof. unfold ini, initial_char. change (one_of $".-" x) with (one_of [46; 45]%N x). rewrite one_of2, <- orb_assoc. f_equal. apply orb_comm. Qed.
Lemma ini'_eq x : ini' x = initial_char word x.
Proof. unfold ini', initial_char. change (one_of $"-." x) with (one_of [45; 46]%N x). rewrite one_of2, <- orb_assoc. reflexivity. Qed.
Lemma cod_eq x : cod x = code_char word x.
Proof. unfold cod, code_char. change (one_of $"-" x) with (one_of [45]%N x). rewrite one_of1. reflexivity. Qed.
Lemma run_ext (p q : char -> bool) l : (forall x, p x = q x) -> (Forall (fun x => p x = true) l <-> forallb q l = true).
Proof. intros E. rewrite Forall_forallb. rewrite !forallb_forall. split; intros H x I; [rewrite <- E|rewrite E]; auto. Qed.
Lemma not_in_run (p : char -> bool) x l : p x = false -> forallb p l = true -> ~ In x l.
Proof. intros P F I. rewrite forallb_forall in F. rewrite (F x I) in P. discriminate. Qed.
(** a person *)
Definition rx_person : rx := rseq [rplus (RCls nmr); ropt (rchar comma); rchar sp; rplus (RCls ini); rchar 46%N].
Definition rx_piece : rx := rseq [rplus (RCls nmr); ropt (rchar comma); rchar sp; rplus (RCls ini'); rtext $"., "].
Lemma run_plus (p q : char -> bool) s c s' c' : (forall x, p x = q x) -> M (rplus (RCls p)) s c s' c' <-> exists a, s = a ++ s' /\ a <> [] /\ forallb q a = true /\ c' = c.
Proof.
  intros PQ. unfold rplus. rewrite M_run. split.
  - intros (a & -> & F & L & _ & ->). exists a. split; [reflexivity|]. split; [destruct a; [cbn in L; lia|discriminate]|]. split; [apply (run_ext p q); assumption|reflexivity].
  - intros (a & -> & NE & F & ->). exists a. split; [reflexivity|]. split; [apply (run_ext p q); assumption|]. split; [destruct a; [congruence|cbn; lia]|]. split; [discriminate|reflexivity].
Qed.
Lemma M_person s c s' c' : M rx_person s c s' c' <-> exists a, s = a ++ s' /\ person word a /\ c' = c.
Proof.
  unfold rx_person. cbn [rseq]. split.
  - intros (s1 & c1 & A & s2 & c2 & B & s3 & c3 & C & s4 & c4 & D & E).
    apply (@run_plus _ _ _ _ _ _ nmr_eq) in A as (u & -> & UN & U & ->). apply M_opt in B. apply M_char in C as [C ->]. apply (@run_plus _ _ _ _ _ _ ini_eq) in D as (v & -> & VN & V & ->). apply M_char in E as [-> ->]. subst s2.
    destruct B as [[<- ->]|[_ B]].
    + exists (u ++ [] ++ $" " ++ v ++ $"."). split; [rewrite <- !app_assoc; reflexivity|]. split; [|reflexivity]. exists u, [], v. repeat split; auto.
    + apply M_char in B as [-> ->]. exists (u ++ $"," ++ $" " ++ v ++ $"."). split; [rewrite <- !app_assoc; reflexivity|]. split; [|reflexivity]. exists u, $",", v. repeat split; auto.
  - intros (a & -> & (u & sep & v & -> & UN & U & S1 & VN & V) & ->). rewrite <- !app_assoc.
    exists (sep ++ $" " ++ v ++ $"." ++ s'), c. split; [apply (@run_plus _ _ _ _ _ _ nmr_eq); exists u; auto|].
    exists ($" " ++ v ++ $"." ++ s'), c. split; [|exists (v ++ $"." ++ s'), c; split; [apply M_char; auto|exists ($"." ++ s'), c; split; [apply (@run_plus _ _ _ _ _ _ ini_eq); exists v; auto|apply M_char; auto]]].
    apply M_opt. destruct S1 as [->| ->]; [left; auto|right]. split; [cbn; lia|apply M_char; auto].
Qed.
Lemma M_piece s c s' c' : M rx_piece s c s' c' <-> exists a, s = a ++ $", " ++ s' /\ person word a /\ c' = c.
Proof.
  unfold rx_piece. cbn [rseq]. split.
  - intros (s1 & c1 & A & s2 & c2 & B & s3 & c3 & C & s4 & c4 & D & E).
    apply (@run_plus _ _ _ _ _ _ nmr_eq) in A as (u & -> & UN & U & ->). apply M_opt in B. apply M_char in C as [C ->]. apply (@run_plus _ _ _ _ _ _ ini'_eq) in D as (v & -> & VN & V & ->). apply M_text in E as [-> ->]. subst s2.
    destruct B as [[<- ->]|[_ B]].
    + exists (u ++ [] ++ $" " ++ v ++ $"."). split; [rewrite <- !app_assoc; reflexivity|]. split; [|reflexivity]. exists u, [], v. repeat split; auto.
    + apply M_char in B as [-> ->]. exists (u ++ $"," ++ $" " ++ v ++ $"."). split; [rewrite <- !app_assoc; reflexivity|]. split; [|reflexivity]. exists u, $",", v. repeat split; auto.
  - intros (a & -> & (u & sep & v & -> & UN & U & S1 & VN & V) & ->). rewrite <- !app_assoc.
    exists (sep ++ $" " ++ v ++ $"." ++ $", " ++ s'), c. split; [apply (@run_plus _ _ _ _ _ _ nmr_eq); exists u; auto|].
    exists ($" " ++ v ++ $"." ++ $", " ++ s'), c. split; [|exists (v ++ $"." ++ $", " ++ s'), c; split; [apply M_char; auto|exists ($"." ++ $", " ++ s'), c; split; [apply (@run_plus _ _ _ _ _ _ ini'_eq); exists v; auto|apply M_text; auto]]].
    apply M_opt. destruct S1 as [->| ->]; [left; auto|right]. split; [cbn; lia|apply M_char; auto].
Qed.
Lemma nm44 : name_char word 44%N = false. Proof. unfold name_char. rewrite W44. reflexivity. Qed.
Lemma nm46 : name_char word 46%N = false. Proof. unfold name_char. rewrite W46. reflexivity. Qed.
Lemma nm40 : name_char word 40%N = false. Proof. unfold name_char. rewrite W40. reflexivity. Qed.
Lemma in44 : initial_char word 44%N = false. Proof. unfold initial_char. rewrite W44. reflexivity. Qed.
Lemma in40 : initial_char word 40%N = false. Proof. unfold initial_char. rewrite W40. reflexivity. Qed.
(** where a person ends is determined *)
Lemma person_unique a b s t : person word a -> person word b -> a ++ $", " ++ s = b ++ $", " ++ t -> a = b /\ s = t.
Proof.
  intros (u & p & v & -> & UN & U & P & VN & V) (u' & p' & v' & -> & UN' & U' & P' & VN' & V') E.
  assert (UC : ~ In 44%N u) by (apply (@not_in_run (name_char word)); [apply nm44|exact U]). assert (UC' : ~ In 44%N u') by (apply (@not_in_run (name_char word)); [apply nm44|exact U']).
  assert (UD : ~ In 46%N u) by (apply (@not_in_run (name_char word)); [apply nm46|exact U]). assert (UD' : ~ In 46%N u') by (apply (@not_in_run (name_char word)); [apply nm46|exact U']).
  assert (VC : ~ In 44%N v) by (apply (@not_in_run (initial_char word)); [apply in44|exact V]). assert (VC' : ~ In 44%N v') by (apply (@not_in_run (initial_char word)); [apply in44|exact V']).
  assert (T : forall w x, ~ In 44%N w -> ~ In 44%N x -> ~ In 44%N (w ++ $" " ++ x ++ $".")).
  { intros w x W1 X1. rewrite !in_app_iff. cbn. intuition discriminate. }
  destruct P as [->| ->], P' as [->| ->].
  - cbn [app] in E. rewrite <- !app_assoc in E. pose proof (@first_split 44%N (u ++ $" " ++ v ++ $".") (u' ++ $" " ++ v' ++ $".") ($" " ++ s) ($" " ++ t) (T _ _ UC VC) (T _ _ UC' VC')) as Q.
    rewrite <- !app_assoc in Q. destruct (Q E) as [E1 E2]. split; [exact E1|]. cbn in E2. congruence.
  - exfalso. rewrite <- !app_assoc in E. pose proof (@first_split 44%N (u ++ $" " ++ v ++ $".") u' ($" " ++ s) ($" " ++ v' ++ $"." ++ $", " ++ t) (T _ _ UC VC) UC') as Q. rewrite <- !app_assoc in Q. destruct (Q E) as [E1 _]. apply UD'. rewrite <- E1. rewrite !in_app_iff. cbn. auto.
  - exfalso. rewrite <- !app_assoc in E. pose proof (@first_split 44%N u (u' ++ $" " ++ v' ++ $".") ($" " ++ v ++ $"." ++ $", " ++ s) ($" " ++ t) UC (T _ _ UC' VC')) as Q. rewrite <- !app_assoc in Q. destruct (Q E) as [E1 _]. apply UD. rewrite E1. rewrite !in_app_iff. cbn. auto.
  - rewrite <- !app_assoc in E. destruct (@first_split 44%N u u' ($" " ++ v ++ $"." ++ $", " ++ s) ($" " ++ v' ++ $"." ++ $", " ++ t) UC UC' E) as [-> E2].
    pose proof (@first_split 44%N ($" " ++ v ++ $".") ($" " ++ v' ++ $".") ($" " ++ s) ($" " ++ t)) as Q. rewrite <- !app_assoc in Q.
    destruct Q as [E3 E4]; [rewrite !in_app_iff; cbn; intuition discriminate|rewrite !in_app_iff; cbn; intuition discriminate|exact E2|]. rewrite E3. split; [reflexivity|cbn in E4; congruence].
Qed.
Lemma person_no40 a : person word a -> ~ In 40%N a.
Proof.
  intros (u & p & v & -> & UN & U & P & VN & V). pose proof (@not_in_run (name_char word) _ _ nm40 U). pose proof (@not_in_run (initial_char word) _ _ in40 V).
  rewrite !in_app_iff. destruct P as [->| ->]; cbn; intuition discriminate.
Qed.

(** the parts before and after the source *)
Definition rx_extra : rx := RGrp 2 (rplus (RGrp 3 rx_piece)).
Definition rx_title : rx := RGrp 4 (RCat (rplus_lazy (RCls (fun x => negb (x =? 40)%N))) (rchar sp)).
Definition rx_year : rx := RGrp 5 (RRep true 2 (Some 5) (RCls num)).
Definition rx_front : rx := rseq [RGrp 1 rx_person; rtext $", "; ropt rx_extra; ropt rx_title; rchar 40%N; rx_year; rtext $") "].
Definition rx_volume : rx := RGrp 7 (rseq [rtext $", "; RGrp 8 (rplus (RCls cod)); ropt (RGrp 9 (rseq [rtext $" ("; RGrp 10 (RRep true 0 None (RCls cod)); rchar 41%N]))]).
Definition rx_page : rx := RGrp 11 (rseq [rtext $", "; ropt (rchar 80%N); rtext $"P. "; RGrp 12 (RRep true 0 None (RCls cod))]).
Definition rx_source : rx := rseq [RGrp 6 (rplus (RCls not_comma)); ropt rx_volume; ropt rx_page; RGrp 13 (RRep true 0 None rdot)].
Lemma regex_split {X} s c (k : str -> caps -> option X) : rmatch (scopus_cite_regex word num) s c k = rmatch rx_front s c (fun s' c' => rmatch rx_source s' c' k).
Proof. reflexivity. Qed.

Lemma extra_no40 s c s' c' : M rx_extra s c s' c' -> exists a, s = a ++ s' /\ ~ In 40%N a.
Proof.
  intros E. apply M_chars in E as (a & -> & F). exists a. split; [reflexivity|]. intros I. rewrite Forall_forall in F. apply F in I. cbn in I.
  unfold nmr, ini' in I. repeat (destruct I as [I|I]); try contradiction; try discriminate; rewrite W40 in I; discriminate.
Qed.
Lemma title_no40 s c s' c' : M rx_title s c s' c' -> exists a, s = a ++ s' /\ ~ In 40%N a.
Proof.
  intros E. apply M_chars in E as (a & -> & F). exists a. split; [reflexivity|]. intros I. rewrite Forall_forall in F. apply F in I. cbn in I. destruct I; discriminate.
Qed.
Lemma opt_no40 r s c s' c' : (forall s c s' c', M r s c s' c' -> exists a, s = a ++ s' /\ ~ In 40%N a) -> M (ropt r) s c s' c' -> exists a, s = a ++ s' /\ ~ In 40%N a.
Proof. intros H E. apply M_opt in E as [[-> _]|[_ E]]; [exists []; auto|exact (H _ _ _ _ E)]. Qed.
Lemma year_M y s c s' c' : M rx_year s c s' c' -> s = y ++ s' -> year_text num y /\ c' = set_cap 5 y c.
Proof.
  intros E ->. apply M_grp in E as (c1 & E & ->). apply M_run in E as (a & E & F & L & H & ->). apply app_inv_tail in E. subst a. specialize (H 5 eq_refl). repeat split; try lia. apply Forall_forallb, F.
Qed.
(** what the front can be *)
Lemma front_inv s c s' c' : M rx_front s c s' c' -> exists a T y, s = a ++ $", " ++ T ++ $"(" ++ y ++ $") " ++ s' /\ person word a /\ ~ In 40%N T /\ year_text num y /\
  exists cx, (forall n, n <> 2 -> n <> 3 -> n <> 4 -> cx n = set_cap 1 a c n) /\ c' = set_cap 5 y cx.
Proof.
  unfold rx_front. cbn [rseq]. intros (s1 & c1 & A & s2 & c2 & B & s3 & c3 & C & s4 & c4 & D & s5 & c5 & E & s6 & c6 & F & G).
  destruct A as (c0 & A & A'). apply M_person in A as (a & -> & PA & ->). rewrite cap_text in A'. subst c1. apply M_text in B as [-> ->].
  pose proof (M_groups _ _ _ _ _ C) as GC. pose proof (M_groups _ _ _ _ _ D) as GD.
  apply (opt_no40 extra_no40) in C as (e & -> & EN). apply (opt_no40 title_no40) in D as (t & -> & TN). apply M_char in E as [-> ->].
  pose proof (M_chars _ _ _ _ _ F) as (y & -> & _). destruct (year_M y F eq_refl) as [Y ->]. apply M_text in G as [-> ->].
  exists a, (e ++ t), y. split; [rewrite <- !app_assoc; reflexivity|]. split; [exact PA|]. split; [rewrite in_app_iff; tauto|]. split; [exact Y|].
  exists c4. split; [|reflexivity]. intros n N2 N3 N4. rewrite GD, GC; [reflexivity| |]; cbn; intuition congruence.
Qed.
Lemma num41 : num 41%N = false. Proof. apply PC. Qed.
Lemma front_unique a T y J a' T' y' J' : person word a -> person word a' -> ~ In 40%N T -> ~ In 40%N T' -> year_text num y -> year_text num y' ->
  a ++ $", " ++ T ++ $"(" ++ y ++ $") " ++ J = a' ++ $", " ++ T' ++ $"(" ++ y' ++ $") " ++ J' -> a = a' /\ T = T' /\ y = y' /\ J = J'.
Proof.
  intros PA PA' TN TN' [_ Y] [_ Y'] E. apply person_unique in E as [-> E]; [|assumption|assumption].
  apply first_split in E as [-> E]; [|assumption|assumption]. apply first_split in E as [-> E]; [|exact (@not_in_run num _ _ num41 Y)|exact (@not_in_run num _ _ num41 Y')].
  cbn in E. injection E as ->. auto.
Qed.
Lemma middle_no40 T : middle T -> ~ In 40%N T.
Proof. intros [->|(t0 & _ & _ & N)]; [auto|exact N]. Qed.
(** the front matches what is written so *)
Lemma title_M t0 s c : t0 <> [] -> ~ In 40%N t0 -> M rx_title (t0 ++ $" " ++ s) c s (set_cap 4 (t0 ++ $" ") c).
Proof.
  intros NE N. rewrite app_assoc. apply M_grp. exists c. split; [|reflexivity]. rewrite <- app_assoc. exists ($" " ++ s), c. split; [|apply M_char; auto].
  apply M_run. exists t0. split; [reflexivity|]. split; [|split; [destruct t0; [congruence|cbn; lia]|split; [discriminate|reflexivity]]].
  apply Forall_forall. intros x I. destruct (N.eqb_spec x 40) as [->|]; [contradiction|reflexivity].
Qed.
Lemma year_take y s c : year_text num y -> M rx_year (y ++ s) c s (set_cap 5 y c).
Proof.
  intros [L Y]. apply M_grp. exists c. split; [|reflexivity]. apply M_run. exists y. split; [reflexivity|]. split; [apply Forall_forallb, Y|]. split; [lia|]. split; [|reflexivity]. intros h [= <-]. lia.
Qed.
Lemma front_M a T y J c : person word a -> middle T -> year_text num y -> exists c', M rx_front (a ++ $", " ++ T ++ $"(" ++ y ++ $") " ++ J) c J c'.
Proof.
  intros PA MT Y. unfold rx_front. cbn [rseq].
  assert (D : exists c4, M (ropt rx_title) (T ++ $"(" ++ y ++ $") " ++ J) (set_cap 1 a c) ($"(" ++ y ++ $") " ++ J) c4).
  { destruct MT as [->|(t0 & -> & NE & N)]; [exists (set_cap 1 a c); apply M_opt; left; auto|]. exists (set_cap 4 (t0 ++ $" ") (set_cap 1 a c)). apply M_opt. right. rewrite <- app_assoc.
    split; [rewrite !app_length; destruct t0; [congruence|cbn; lia]|]. apply title_M; [exact NE|]. intros I. apply N. apply in_or_app. auto. }
  destruct D as (c4 & D). eexists. eexists _, _. split; [apply M_grp; exists c; split; [apply M_person; exists a; auto|reflexivity]|].
  eexists _, _. split; [apply M_text; auto|]. eexists _, _. split; [apply M_opt; left; auto|]. eexists _, _. split; [exact D|].
  exists (y ++ $") " ++ J), c4. split; [apply M_char; auto|]. exists ($") " ++ J), (set_cap 5 y c4). split; [apply (@year_take y _ c4 Y)|]. apply M_text. auto.
Qed.

(** the source *)
Lemma tw_ext {A} (p q : A -> bool) l : (forall x, p x = q x) -> tw p l = tw q l /\ dw p l = dw q l.
Proof. intros E. induction l as [|x l [IH1 IH2]]; cbn; [auto|]. rewrite E. destruct (q x); [rewrite IH1, IH2; auto|auto]. Qed.
Lemma Takes_star {X} (p : char -> bool) s c : @Takes X (RRep true 0 None (RCls p)) s c (dw p s) c.
Proof. intros k x E. cbn [rmatch]. apply rep_all; [lia|lia|exact E]. Qed.
Lemma starts_split (t s : str) : starts_with t s = true -> s = t ++ skipn (length t) s.
Proof. intros E. apply starts_with_spec in E as (r & ->). rewrite skipn_app, skipn_all, Nat.sub_diag. reflexivity. Qed.
Lemma starts_none (t s r : str) : starts_with t s = false -> s <> t ++ r.
Proof. intros E ->. rewrite (proj2 (starts_with_spec t (t ++ r))) in E; [discriminate|eauto]. Qed.
Lemma dw_len {A} (p : A -> bool) l : length (dw p l) <= length l.
Proof. induction l as [|x l IH]; cbn; [lia|]. destruct (p x); cbn; lia. Qed.
Lemma set_same n a c : set_cap n a c n = Some a.
Proof. unfold set_cap. rewrite Nat.eqb_refl. reflexivity. Qed.
Lemma set_other n m a c : m <> n -> set_cap n a c m = c m.
Proof. unfold set_cap. destruct (Nat.eqb_spec m n); [congruence|reflexivity]. Qed.
Notation codes := (code_char word).
Lemma tw_code s : tw cod s = tw codes s. Proof. apply tw_ext, cod_eq. Qed.
Lemma dw_code s : dw cod s = dw codes s. Proof. apply tw_ext, cod_eq. Qed.
Lemma code41 : codes 41%N = false. Proof. unfold code_char. rewrite W41. reflexivity. Qed.
Definition rx_issue : rx := RGrp 9 (rseq [rtext $" ("; RGrp 10 (RRep true 0 None (RCls cod)); rchar 41%N]).
Lemma Takes_issue {X} s c i s2 : read_issue word s = (i, s2) -> c 10 = None -> exists c', @Takes X (ropt rx_issue) s c s2 c' /\ c' 10 = i /\ forall n, n <> 9 -> n <> 10 -> c' n = c n.
Proof.
  unfold read_issue. intros E C. destruct (starts_with $" (" s) eqn:S0.
  - apply starts_split in S0. change (length $" (") with 2 in S0. remember (skipn 2 s) as r eqn:R. clear R. subst s.
    destruct (dw codes r) as [|x r'] eqn:D; [|destruct (N.eqb_spec x 41) as [->|NX]].
    + injection E as <- <-. exists c. split; [|auto]. apply Skips_opt, Fails_none. intros s1 c1 (c2 & Q & _). cbn [rseq] in Q. destruct Q as (u & cu & A & v & cv & B & Q). apply M_text in A as [A _]. cbn in A. injection A as A. subst u.
      destruct B as (cb & B & _). apply M_run in B as (w & -> & F & _). apply M_char in Q as [-> _]. pose proof (@tw_app _ codes w (41%N :: s1)) as T. destruct T as [_ T]; [eapply Forall_impl; [|exact F]; intros y; cbn; rewrite cod_eq; auto|apply code41|]. discriminate (eq_trans (eq_sym D) T).
    + injection E as <- <-. pose proof (tw_dw codes r) as TD. rewrite D in TD.
      exists (set_cap 9 ($" (" ++ tw codes r ++ $")") (set_cap 10 (tw codes r) c)). split; [|split; [rewrite set_other, set_same; [reflexivity|discriminate]|intros n N9 N10; rewrite !set_other; auto]].
      apply Takes_opt; [rewrite TD; rewrite !app_length; cbn; lia|]. apply Takes_grp; [rewrite TD at 1; rewrite <- !app_assoc; reflexivity|]. cbn [rseq].
      eapply Takes_cat; [apply Takes_text|]. eapply Takes_cat; [eapply Takes_grp; [|apply Takes_star]; rewrite dw_code, D; exact TD|]. rewrite dw_code, D. apply Takes_cls. reflexivity.
    + injection E as <- <-. exists c. split; [|auto]. apply Skips_opt, Fails_none. intros s1 c1 (c2 & Q & _). cbn [rseq] in Q. destruct Q as (u & cu & A & v & cv & B & Q). apply M_text in A as [A _]. cbn in A. injection A as A. subst u.
      destruct B as (cb & B & _). apply M_run in B as (w & -> & F & _). apply M_char in Q as [-> _]. pose proof (@tw_app _ codes w (41%N :: s1)) as T. destruct T as [_ T]; [eapply Forall_impl; [|exact F]; intros y; cbn; rewrite cod_eq; auto|apply code41|]. injection (eq_trans (eq_sym D) T) as Z1 Z2. congruence.
  - injection E as <- <-. exists c. split; [|auto]. apply Skips_opt, Fails_grp. cbn [rseq]. apply Fails_cat, Fails_text, S0.
Qed.
Lemma Takes_volume {X} s c v s1 i s2 : read_volume word s = (v, s1) -> match v with Some _ => read_issue word s1 | None => (None, s1) end = (i, s2) -> c 8 = None -> c 10 = None ->
  exists c', @Takes X (ropt rx_volume) s c s2 c' /\ c' 8 = v /\ c' 10 = i /\ forall n, ~ 7 <= n <= 10 -> c' n = c n.
Proof.
  unfold read_volume. intros E F C8 C10. destruct (starts_with $", " s) eqn:S0.
  - apply starts_split in S0. change (length $", ") with 2 in S0. remember (skipn 2 s) as r eqn:R. clear R. subst s. destruct (tw codes r) as [|x v'] eqn:T.
    + injection E as <- <-. injection F as <- <-. exists c. split; [|auto]. apply Skips_opt, Fails_grp. cbn [rseq]. apply (@Fails_text_then X $", " _ r), Fails_cat, Fails_grp, Fails_plus. rewrite tw_code. exact T.
    + injection E as <- <-. pose proof (tw_dw codes r) as TD. rewrite T in TD.
      destruct (@Takes_issue X (dw codes r) (set_cap 8 (x :: v') c) i s2 F) as (c' & TI & CI & CO); [rewrite set_other; [exact C10|discriminate]|].
      assert (L : exists z, dw codes r = z ++ s2).
      { unfold read_issue in F. destruct (starts_with $" (" (dw codes r)) eqn:S1; [|injection F as _ <-; exists []; reflexivity]. apply starts_split in S1. change (length $" (") with 2 in S1.
        pose proof (tw_dw codes (skipn 2 (dw codes r))) as T2. destruct (dw codes (skipn 2 (dw codes r))) as [|y r'] eqn:D2; [injection F as _ <-; exists []; reflexivity|]. destruct (y =? 41)%N; [|injection F as _ <-; exists []; reflexivity].
        injection F as _ <-. rewrite S1, T2. exists ($" (" ++ tw codes (skipn 2 (dw codes r)) ++ [y]). rewrite <- !app_assoc. reflexivity. }
      destruct L as (z & L). exists (set_cap 7 ($", " ++ (x :: v') ++ z) c'). split; [|split; [rewrite set_other, CO, set_same; [reflexivity|discriminate|discriminate|discriminate]|split; [rewrite set_other; [exact CI|discriminate]|]]].
      * apply Takes_opt; [rewrite TD, L, !app_length; cbn; lia|]. apply Takes_grp; [rewrite TD at 1; rewrite L, <- !app_assoc; reflexivity|]. cbn [rseq]. eapply Takes_cat; [apply Takes_text|]. eapply Takes_cat; [|exact TI].
        eapply Takes_grp; [exact TD|]. rewrite <- dw_code. apply Takes_plus. rewrite tw_code, T. discriminate.
      * intros n N. rewrite set_other, CO, set_other; [reflexivity|lia|lia|lia|lia].
  - injection E as <- <-. injection F as <- <-. exists c. split; [|auto]. apply Skips_opt, Fails_grp. cbn [rseq]. apply Fails_cat, Fails_text, S0.
Qed.
Lemma Takes_page {X} s c p s1 : read_page word s = (p, s1) -> c 12 = None -> exists c', @Takes X (ropt rx_page) s c s1 c' /\ c' 12 = p /\ forall n, n <> 11 -> n <> 12 -> c' n = c n.
Proof.
  unfold read_page. intros E C. destruct (starts_with $", PP. " s) eqn:S0; [|destruct (starts_with $", P. " s) eqn:S1].
  - apply starts_split in S0. change (length $", PP. ") with 6 in S0. remember (skipn 6 s) as r eqn:R. clear R. subst s. injection E as <- <-. pose proof (tw_dw codes r) as TD.
    exists (set_cap 11 ($", PP. " ++ tw codes r) (set_cap 12 (tw codes r) c)). split; [|split; [rewrite set_other, set_same; [reflexivity|discriminate]|intros n N1 N2; rewrite !set_other; auto]].
    apply Takes_opt; [pose proof (dw_len codes r); rewrite app_length; cbn; lia|]. apply Takes_grp; [rewrite <- app_assoc, <- TD; reflexivity|]. cbn [rseq].
    change ($", PP. " ++ r) with ($", " ++ $"P" ++ $"P. " ++ r). eapply Takes_cat; [apply Takes_text|]. eapply Takes_cat; [apply (@Takes_opt X (rchar 80%N) ($"P" ++ $"P. " ++ r) c ($"P. " ++ r) c); [cbn; lia|apply Takes_cls; reflexivity]|].
    eapply Takes_cat; [apply Takes_text|]. apply Takes_grp; [exact TD|]. rewrite <- dw_code. apply Takes_star.
  - apply starts_split in S1. change (length $", P. ") with 5 in S1. remember (skipn 5 s) as r eqn:R. clear R. subst s. injection E as <- <-. pose proof (tw_dw codes r) as TD.
    exists (set_cap 11 ($", P. " ++ tw codes r) (set_cap 12 (tw codes r) c)). split; [|split; [rewrite set_other, set_same; [reflexivity|discriminate]|intros n N1 N2; rewrite !set_other; auto]].
    apply Takes_opt; [pose proof (dw_len codes r); rewrite app_length; cbn; lia|]. apply Takes_grp; [rewrite <- app_assoc, <- TD; reflexivity|]. cbn [rseq].
    change ($", P. " ++ r) with ($", " ++ $"P. " ++ r). eapply Takes_cat; [apply Takes_text|].
    assert (Q : @Takes X (RCat (rtext $"P. ") (RGrp 12 (RRep true 0 None (RCls cod)))) ($"P. " ++ r) c (dw codes r) (set_cap 12 (tw codes r) c)).
    { eapply Takes_cat; [apply Takes_text|]. apply Takes_grp; [exact TD|]. rewrite <- dw_code. apply Takes_star. }
    intros k x K. rewrite rmatch_cat. change ($"P. " ++ r) with (80%N :: $". " ++ r). unfold rchar. rewrite opt_cls. change (80 =? 80)%N with true. cbv iota. rewrite rmatch_cat, rtext_eq.
    change (starts_with $"P. " ($". " ++ r)) with false. cbv iota. cbn [orelse]. exact (Q k x K).
  - injection E as <- <-. exists c. split; [|auto]. apply Skips_opt, Fails_none. intros s1 c1 (c2 & Q & _). cbn [rseq] in Q. destruct Q as (u & cu & A & v & cv & B & w & cw & D & _).
    apply M_text in A as [-> ->]. apply M_text in D as [-> ->]. apply M_opt in B as [[<- _]|[_ B]]; [apply (@starts_none _ _ w S1); reflexivity|]. apply M_char in B as [-> _]. apply (@starts_none _ _ w S0). reflexivity.
Qed.
Lemma Takes_source {X} x r c : x <> 44%N -> (forall n, 6 <= n -> c n = None) -> let q := read_source word (x :: r) in
  exists s' c', @Takes X rx_source (x :: r) c s' c' /\ (forall n, n < 6 -> c' n = c n) /\
    c' 6 = Some (q_journal q) /\ c' 8 = q_volume q /\ c' 10 = q_issue q /\ c' 12 = q_page q /\ c' 13 = Some (q_misc q).
Proof.
  intros NX C. unfold read_source. set (s := x :: r).
  destruct (read_volume word (from_comma s)) as [v s1] eqn:E1. destruct (match v with Some _ => read_issue word s1 | None => (None, s1) end) as [i s2] eqn:E2. destruct (read_page word s2) as [p s3] eqn:E3. cbn zeta. cbn [q_journal q_volume q_issue q_page q_misc].
  set (c6 := set_cap 6 (up_to_comma s) c).
  destruct (@Takes_volume X (from_comma s) c6 v s1 i s2 E1 E2) as (c7 & T7 & V8 & V10 & V0); [unfold c6; rewrite set_other; [apply C; lia|lia]|unfold c6; rewrite set_other; [apply C; lia|lia]|].
  destruct (@Takes_page X s2 c7 p s3 E3) as (c8 & T8 & P12 & P0); [rewrite V0; [|lia]; unfold c6; rewrite set_other; [apply C; lia|lia]|].
  set (dot := fun y : char => negb (y =? 10)%N). exists (dw dot s3), (set_cap 13 (tw dot s3) c8). split; [|split; [|split; [|split; [|split; [|split]]]]].
  - assert (Z : forall z, not_comma z = negb (z =? 44)%N) by (intros z; reflexivity). pose proof (@tw_ext _ _ _ s Z) as [T1 T2].
    assert (FC : dw not_comma s = from_comma s) by exact T2. assert (TC : tw not_comma s <> []) by (intros T0; assert (T3 := eq_trans (eq_sym T1) T0); unfold s in T3; cbn [tw] in T3; destruct (N.eqb_spec x 44); [contradiction|discriminate]).
    unfold rx_source. cbn [rseq]. apply (@Takes_cat X _ _ s c (from_comma s) c6).
    + apply Takes_grp; [apply tw_dw|]. rewrite <- FC. apply Takes_plus, TC.
    + eapply Takes_cat; [exact T7|]. eapply Takes_cat; [exact T8|]. apply Takes_grp; [apply tw_dw|]. apply Takes_star.
  - intros n N. rewrite set_other, P0, V0; [unfold c6; apply set_other; lia|lia|lia|lia|lia].
  - rewrite set_other, P0, V0; [unfold c6; apply set_same|lia|lia|lia|lia].
  - rewrite set_other, P0; [exact V8|lia|lia|lia].
  - rewrite set_other, P0; [exact V10|lia|lia|lia].
  - rewrite set_other; [exact P12|lia].
  - apply set_same.
Qed.
(** the whole pattern on a reference *)
Theorem match_reference s a T y J : reference word num s a T y J -> exists g, re_match (scopus_cite_regex word num) s = Some g /\ let q := read_source word J in
  g 1 = Some a /\ g 5 = Some y /\ g 6 = Some (q_journal q) /\ g 8 = q_volume q /\ g 10 = q_issue q /\ g 12 = q_page q /\ g 13 = Some (q_misc q).
Proof.
  intros (-> & PA & MT & Y & x & r & -> & NX). set (s := a ++ $", " ++ T ++ $"(" ++ y ++ $") " ++ x :: r). set (q := read_source word (x :: r)).
  set (k := fun (s' : str) (c' : caps) => rmatch rx_source s' c' (fun _ c => Some c)).
  assert (K : forall c', (forall n, 6 <= n -> c' n = None) -> exists g, k (x :: r) c' = Some g /\ (forall n, n < 6 -> g n = c' n) /\ g 6 = Some (q_journal q) /\ g 8 = q_volume q /\ g 10 = q_issue q /\ g 12 = q_page q /\ g 13 = Some (q_misc q)).
  { intros c' C. destruct (@Takes_source caps x r c' NX C) as (s' & g & TK & G). exists g. split; [|exact G]. apply TK. reflexivity. }
  assert (INV : forall s' c', M rx_front s no_caps s' c' -> s' = x :: r /\ c' 1 = Some a /\ c' 5 = Some y /\ forall n, 6 <= n -> c' n = None).
  { intros s' c' F. apply front_inv in F as (a' & T' & y' & E & PA' & TN' & Y' & cx & CX & ->). apply front_unique in E as (<- & <- & <- & <-); try assumption; [|apply middle_no40, MT].
    split; [reflexivity|]. split; [rewrite set_other, CX by lia; apply set_same|]. split; [apply set_same|]. intros n N. rewrite set_other, CX, set_other by lia. reflexivity. }
  unfold re_match. rewrite regex_split. fold k. destruct (rmatch rx_front s no_caps k) as [g|] eqn:R.
  - apply rmatch_sound in R as (s' & c' & F & R). apply INV in F as (-> & C1 & C5 & C6). destruct (K c' C6) as (g' & R' & G0 & G). assert (g' = g) by congruence. subst g'. exists g. split; [reflexivity|]. split; [rewrite G0 by lia; exact C1|]. split; [rewrite G0 by lia; exact C5|exact G].
  - exfalso. destruct (@front_M a T y (x :: r) no_caps PA MT Y) as (c' & F). pose proof (INV _ _ F) as (_ & _ & _ & C6). destruct (K c' C6) as (g' & R' & _). apply (@rmatch_complete _ rx_front s no_caps (x :: r) c' k F); [congruence|exact R].
Qed.
(** nothing else matches *)
Lemma extra_blank s c s' c' : M rx_extra s c s' c' -> exists a t0, s = a ++ s' /\ a = t0 ++ $" " /\ t0 <> [].
Proof.
  intros (c1 & E & _). unfold rplus in E. cbn [M] in E. set (B := fun s0 c0 s'0 c'0 => exists c1, M rx_piece s0 c0 s'0 c1 /\ c'0 = set_cap 3 (firstn (length s0 - length s'0) s0) c1) in E.
  assert (G : forall lo hi s c s' c', Reps B lo hi s c s' c' -> (lo = 0 /\ s = s') \/ exists a t0, s = a ++ s' /\ a = t0 ++ $" " /\ t0 <> []).
  { clear. intros lo hi s c s' c' R. induction R as [hi s c|lo hi s c s1 c1 s2 c2 NZ B1 L R IH]; [left; auto|right].
    destruct B1 as (cp & P & _). apply M_piece in P as (a & -> & (u & sep & v & -> & UN & _) & _).
    set (p := u ++ sep ++ $" " ++ v ++ $"."). assert (PN : p <> []) by (unfold p; destruct u; [congruence|discriminate]).
    destruct IH as [[_ ->]|(a & t0 & -> & -> & NE)].
    - exists (p ++ $", "), (p ++ $","). split; [rewrite <- app_assoc; reflexivity|]. split; [rewrite <- app_assoc; reflexivity|]. destruct p; discriminate.
    - exists (p ++ $", " ++ t0 ++ $" "), (p ++ $", " ++ t0). split; [rewrite <- !app_assoc; reflexivity|]. split; [rewrite <- !app_assoc; reflexivity|]. destruct p; [congruence|discriminate]. }
  apply G in E as [[E _]|E]; [discriminate|exact E].
Qed.
Lemma title_blank s c s' c' : M rx_title s c s' c' -> exists a t0, s = a ++ s' /\ a = t0 ++ $" " /\ t0 <> [].
Proof.
  intros (c1 & (s1 & c2 & A & B) & _). apply M_run in A as (a & -> & _ & L & _). apply M_char in B as [-> _]. exists (a ++ $" "), a. split; [rewrite <- app_assoc; reflexivity|]. split; [reflexivity|]. destruct a; [cbn in L; lia|discriminate].
Qed.
Lemma front_form s c s' c' : M rx_front s c s' c' -> exists a T y, s = a ++ $", " ++ T ++ $"(" ++ y ++ $") " ++ s' /\ person word a /\ middle T /\ year_text num y.
Proof.
  unfold rx_front. cbn [rseq]. intros (s1 & c1 & A & s2 & c2 & B & s3 & c3 & C & s4 & c4 & D & s5 & c5 & E & s6 & c6 & F & G).
  destruct A as (c0 & A & A'). apply M_person in A as (a & -> & PA & ->). apply M_text in B as [-> ->]. apply M_char in E as [-> ->].
  pose proof (M_chars _ _ _ _ _ F) as (y & -> & _). destruct (year_M y F eq_refl) as [Y ->]. apply M_text in G as [-> ->].
  assert (CT : exists e, s2 = e ++ s3 /\ ~ In 40%N e /\ (e = [] \/ exists t0, e = t0 ++ $" " /\ t0 <> [])).
  { apply M_opt in C as [[-> _]|[_ C]]; [exists []; auto|]. pose proof (extra_no40 C) as (e & E & N). pose proof (extra_blank C) as (e' & t0 & E' & -> & NE). rewrite E in E'. apply app_inv_tail in E'. subst e. exists (t0 ++ $" "). split; [exact E|]. split; [exact N|]. right. exists t0. auto. }
  assert (DT : exists t, s3 = t ++ $"(" ++ y ++ $") " ++ s' /\ ~ In 40%N t /\ (t = [] \/ exists t0, t = t0 ++ $" " /\ t0 <> [])).
  { apply M_opt in D as [[<- _]|[_ D]]; [exists []; auto|]. pose proof (title_no40 D) as (e & E & N). pose proof (title_blank D) as (e' & t0 & E' & -> & NE). rewrite E in E'. apply app_inv_tail in E'. subst e. exists (t0 ++ $" "). split; [exact E|]. split; [exact N|]. right. exists t0. auto. }
  destruct CT as (e & -> & EN & EB). destruct DT as (t & -> & TN & TB).
  exists a, (e ++ t), y. split; [rewrite <- !app_assoc; reflexivity|]. split; [exact PA|]. split; [|exact Y].
  destruct TB as [->|(t0 & -> & NE)].
  - rewrite app_nil_r. destruct EB as [->|(t0 & -> & NE)]; [left; reflexivity|right; exists t0; auto].
  - right. exists (e ++ t0). split; [apply app_assoc|]. split; [destruct e; [exact NE|discriminate]|]. rewrite in_app_iff. tauto.
Qed.
Theorem match_only s g : re_match (scopus_cite_regex word num) s = Some g -> exists a T y J, reference word num s a T y J.
Proof.
  unfold re_match. rewrite regex_split. intros R. apply rmatch_sound in R as (s' & c' & F & R). apply front_form in F as (a & T & y & -> & PA & MT & Y).
  apply rmatch_sound in R as (s2 & c2 & S0 & _). unfold rx_source in S0. cbn [rseq] in S0. destruct S0 as (s3 & c3 & (c4 & S0 & _) & _). apply M_run in S0 as (j & -> & F & L & _).
  destruct j as [|x j]; [cbn in L; lia|]. exists a, T, y, ((x :: j) ++ s3). split; [reflexivity|]. split; [exact PA|]. split; [exact MT|]. split; [exact Y|]. exists x, (j ++ s3). split; [reflexivity|]. inversion F as [|? ? P _]; subst. intros ->. discriminate.
Qed.
(** further authors and the title *)
Definition rx_h1 : rx := RCat (RGrp 1 rx_person) (rtext $", ").
Definition rx_mid : rx := rseq [ropt rx_title; rchar 40%N; rx_year; rtext $") "].
Lemma regex_split3 {X} s c (k : str -> caps -> option X) : rmatch (scopus_cite_regex word num) s c k =
  rmatch rx_h1 s c (fun s1 c1 => rmatch (ropt rx_extra) s1 c1 (fun s2 c2 => rmatch rx_mid s2 c2 (fun s3 c3 => rmatch rx_source s3 c3 k))).
Proof. reflexivity. Qed.
Lemma Takes_h1 {X} a s c : person word a -> @Takes X rx_h1 (a ++ $", " ++ s) c s (set_cap 1 a c).
Proof.
  intros PA. apply Takes_unique.
  - exists ($", " ++ s), (set_cap 1 a c). split; [apply M_grp; exists c; split; [apply M_person; exists a; auto|reflexivity]|apply M_text; auto].
  - intros s1 c1 (s2 & c2 & (c3 & A & ->) & B). apply M_person in A as (b & E & PB & ->). apply M_text in B as [-> ->]. destruct (person_unique _ _ PA PB E) as [-> ->]. split; [reflexivity|]. rewrite cap_text. reflexivity.
Qed.
Lemma Takes_piece {X} a s c : person word a -> @Takes X (RGrp 3 rx_piece) ((a ++ $", ") ++ s) c s (set_cap 3 (a ++ $", ") c).
Proof.
  intros PA. apply Takes_unique.
  - apply M_grp. exists c. split; [|reflexivity]. apply M_piece. exists a. split; [rewrite <- app_assoc; reflexivity|auto].
  - intros s1 c1 (c3 & A & ->). apply M_piece in A as (b & E & PB & ->). rewrite <- app_assoc in E. destruct (person_unique _ _ PA PB E) as [-> ->]. split; [reflexivity|]. rewrite cap_text. reflexivity.
Qed.
Lemma rep_pieces {X} (s : str) : (forall c, @Fails X (RGrp 3 rx_piece) s c) -> forall l c, Forall (person word) l -> exists c', (forall n, n <> 3 -> c' n = c n) /\
  forall (k : str -> caps -> option X) x fuel lo, lo <= length l -> length (listed l ++ s) < fuel -> k s c' = Some x -> rep (rmatch (RGrp 3 rx_piece)) true fuel lo None (listed l ++ s) c k = Some x.
Proof.
  intros NF. induction l as [|a l IH]; intros c F.
  - exists c. split; [auto|]. intros k x [|fuel] lo L FU K; [lia|]. cbn [rep]. cbn [listed map concat app]. rewrite (NF c). cbn [orelse]. cbn [length] in L. replace lo with 0 by lia. exact K.
  - inversion F as [|? ? PA F']; subst. destruct (IH (set_cap 3 (a ++ $", ") c) F') as (c' & C & R). exists c'. split; [intros n N; rewrite C, set_other by exact N; reflexivity|].
    intros k x [|fuel] lo L FU K; [lia|]. cbn [rep]. change (listed (a :: l)) with ((a ++ $", ") ++ listed l) in *. rewrite <- (app_assoc (a ++ $", ")) in *.
    rewrite (@Takes_piece X a (listed l ++ s) c PA _ x); [reflexivity|]. cbv beta.
    assert (PN : 0 < length (a ++ $", ")) by (rewrite app_length; cbn; lia). rewrite app_length in FU. rewrite (app_length (a ++ $", ")).
    destruct (Nat.ltb_spec (length (listed l ++ s)) (length (a ++ $", ") + length (listed l ++ s))) as [_|Q]; [|lia]. apply R; [cbn in L; lia|lia|exact K].
Qed.
Lemma no_piece {X} t z c : ~ goes_on word t -> ~ In 40%N t -> @Fails X (RGrp 3 rx_piece) (t ++ $"(" ++ z) c.
Proof.
  intros C P. apply Fails_none. intros s1 c1 (c2 & A & _). apply M_piece in A as (a & E & PA & _). assert (AN : ~ In 40%N (a ++ $", ")) by (rewrite in_app_iff; pose proof (person_no40 PA); cbn; intuition discriminate).
  rewrite (app_assoc a) in E. destruct (@prefix_free 40%N (a ++ $", ") t s1 z AN P (eq_sym E)) as (d & -> & _). apply C. exists a, d. split; [exact PA|]. rewrite <- app_assoc. reflexivity.
Qed.
Lemma rep_fail {X} r s c : @Fails X r s c -> forall fuel (k : str -> caps -> option X), rep (rmatch r) true fuel 1 None s c k = None.
Proof. intros F [|fuel] k; cbn [rep]; [reflexivity|]. rewrite F. reflexivity. Qed.
Lemma Takes_extra {X} l t z c : Forall (person word) l -> ~ goes_on word t -> ~ In 40%N t -> c 2 = None -> exists c', (forall n, n <> 2 -> n <> 3 -> c' n = c n) /\ c' 2 = (match l with [] => None | _ => Some (listed l) end) /\
  @Takes X (ropt rx_extra) (listed l ++ t ++ $"(" ++ z) c (t ++ $"(" ++ z) c'.
Proof.
  intros F C P C2. set (s := t ++ $"(" ++ z) in *. assert (NP : forall c, @Fails X (RGrp 3 rx_piece) s c) by (intros c0; apply no_piece; assumption). destruct l as [|a l].
  - exists c. split; [auto|]. split; [exact C2|]. apply Skips_opt. apply Fails_grp. intros k0. apply (rep_fail (NP c)).
  - destruct (rep_pieces NP c F) as (c' & C' & R). exists (set_cap 2 (listed (a :: l)) c'). split; [intros n N2 N3; rewrite set_other by exact N2; apply C', N3|]. split; [apply set_same|].
    set (m := listed (a :: l)) in *. assert (ML : 0 < length m) by (unfold m; change (listed (a :: l)) with ((a ++ $", ") ++ listed l); rewrite !app_length; cbn; lia).
    apply Takes_opt; [rewrite app_length; lia|]. unfold rx_extra. apply Takes_grp; [reflexivity|]. intros k x K. unfold rplus. cbn [rmatch]. apply R; [cbn; lia|lia|exact K].
Qed.
Lemma Takes_mid {X} t y J c : middle t -> year_text num y -> @Takes X rx_mid (t ++ $"(" ++ y ++ $") " ++ J) c J (set_cap 5 y (match t with [] => c | _ => set_cap 4 t c end)).
Proof.
  intros MT Y. apply Takes_unique; unfold rx_mid; cbn [rseq].
  - exists ($"(" ++ y ++ $") " ++ J), (match t with [] => c | _ => set_cap 4 t c end). split.
    + destruct MT as [->|(t0 & -> & NE & N)]; [apply M_opt; left; auto|]. replace (match t0 ++ $" " with [] => c | _ => set_cap 4 (t0 ++ $" ") c end) with (set_cap 4 (t0 ++ $" ") c) by (destruct t0; reflexivity).
      apply M_opt. right. rewrite <- app_assoc. split; [rewrite !app_length; destruct t0; [congruence|cbn; lia]|]. apply title_M; [exact NE|]. intros I. apply N. apply in_or_app. auto.
    + exists (y ++ $") " ++ J), (match t with [] => c | _ => set_cap 4 t c end). split; [apply M_char; auto|]. exists ($") " ++ J). eexists. split; [apply (@year_take y _ _ Y)|]. apply M_text. auto.
  - intros s1 c1 (s4 & c4 & D & s5 & c5 & E & s6 & c6 & F & G). apply M_char in E as [-> ->]. pose proof (M_chars _ _ _ _ _ F) as (y' & -> & _). destruct (year_M y' F eq_refl) as [Y' ->]. apply M_text in G as [-> ->].
    pose proof (middle_no40 MT) as TN. apply M_opt in D as [[D ->]|[_ D]].
    + destruct t as [|z t]; [|exfalso; cbn in D; injection D as <- _; apply TN; cbn; auto]. cbn in D. injection D as D. apply first_split in D as [-> D]; [|exact (@not_in_run num _ _ num41 (proj2 Y'))|exact (@not_in_run num _ _ num41 (proj2 Y))]. injection D as ->. auto.
    + pose proof (title_no40 D) as (e & E & N). pose proof (title_blank D) as (e' & t0 & E' & -> & NE). rewrite E in E'. apply app_inv_tail in E'. subst e. apply first_split in E as [-> E]; [|exact TN|exact N].
      destruct D as (c7 & (s8 & c8 & D & D2) & ->). apply M_run in D as (? & _ & _ & _ & _ & ->). apply M_char in D2 as [_ ->]. apply first_split in E as [-> E]; [|exact (@not_in_run num _ _ num41 (proj2 Y))|exact (@not_in_run num _ _ num41 (proj2 Y'))]. injection E as ->. rewrite cap_text. split; [reflexivity|]. destruct t0; reflexivity.
Qed.
Theorem match_names a l t y x r s : s = a ++ $", " ++ listed l ++ t ++ $"(" ++ y ++ $") " ++ x :: r -> person word a -> Forall (person word) l -> middle t -> ~ goes_on word t -> year_text num y -> x <> 44%N ->
  exists g, re_match (scopus_cite_regex word num) s = Some g /\ g 2 = match l with [] => None | _ => Some (listed l) end /\ g 4 = match t with [] => None | _ => Some t end.
Proof.
  intros -> PA F MT C Y NX. destruct (@Takes_extra caps l t (y ++ $") " ++ x :: r) (set_cap 1 a no_caps) F C (middle_no40 MT) eq_refl) as (c2 & C2 & E2 & T2).
  set (c5 := set_cap 5 y (match t with [] => c2 | _ => set_cap 4 t c2 end)).
  destruct (@Takes_source caps x r c5 NX) as (s' & g & TS & G & _).
  { intros n N. unfold c5. rewrite set_other by lia. assert (c2 n = None) by (rewrite C2, set_other by lia; reflexivity). destruct t; [|rewrite set_other by lia]; assumption. }
  exists g. split; [|split].
  - unfold re_match. rewrite regex_split3. apply (@Takes_h1 caps a _ no_caps PA). apply T2. apply (@Takes_mid caps t y (x :: r) c2 MT Y). apply TS. reflexivity.
  - rewrite G by lia. unfold c5. rewrite set_other by lia. destruct t; [|rewrite set_other by lia]; exact E2.
  - rewrite G by lia. unfold c5. rewrite set_other by lia. destruct t; [rewrite C2 by lia; reflexivity|apply set_same].
Qed.
Lemma goes_on_dec t : goes_on word t \/ ~ goes_on word t.
Proof.
  destruct (rmatch rx_piece t no_caps (fun _ _ => Some tt)) as [x|] eqn:E.
  - left. apply rmatch_sound in E as (s' & c' & A & _). apply M_piece in A as (a & -> & PA & _). exists a, s'. auto.
  - right. intros (a & r & PA & ->). refine (@rmatch_complete unit rx_piece _ no_caps r no_caps (fun _ _ => Some tt) _ _ E); [apply M_piece; exists a; auto|discriminate].
Qed.
Lemma divided : forall n T, length T <= n -> exists l t, T = listed l ++ t /\ Forall (person word) l /\ ~ goes_on word t.
Proof.
  induction n as [|n IH]; intros T L.
  - destruct T; [|cbn in L; lia]. exists [], []. split; [reflexivity|]. split; [constructor|]. intros (a & r & _ & E). destruct a; discriminate.
  - destruct (goes_on_dec T) as [(a & r & PA & ->)|N].
    + destruct (IH r) as (l & t & -> & F & N); [rewrite !app_length in L; cbn in L; lia|]. exists (a :: l), t. split; [|split; [constructor; assumption|exact N]]. change (listed (a :: l)) with ((a ++ $", ") ++ listed l). rewrite <- !app_assoc. reflexivity.
    + exists [], T. split; [reflexivity|]. split; [constructor|exact N].
Qed.
Lemma middle_suffix (a t : str) : middle (a ++ t) -> middle t \/ t = $" ".
Proof.
  intros M0. destruct t as [|x t] using rev_ind; [left; left; reflexivity|]. clear IHt. destruct M0 as [E|(t0 & E & NE & N)]; [destruct a, t; discriminate|].
  rewrite app_assoc in E, N. apply app_inj_tail in E as [E ->]. destruct t as [|z t]; [right; reflexivity|]. left. right. exists (z :: t). split; [reflexivity|]. split; [discriminate|]. intros I0. apply N. rewrite <- app_assoc. apply in_or_app. right. exact I0.
Qed.
End Front.
