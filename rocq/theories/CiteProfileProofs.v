(** Proofs for C95. *)
From Coq Require Import String Lia.
From Verif Require Import Base PyStr Nx NxFacts RecordView SeriesSpec RecordViewFacts NetModel NetSpec NetFacts CiteNetModel CiteNetSpec CiteProfileModel CiteProfileSpec.
From Verif Require SeriesProofs GrantProofs.
Set Implicit Arguments.

(** ** The dictionary of a list of citations *)
Section Profile.
Context {C J : Type} `{EqDec J}.
Variable cite_id : C -> J.
Notation bump := (bump_cite cite_id).
Definition first_with (L : list C) (x : J) : option C := find (fun c => eqb x (cite_id c)) L.
Definition describes (L : list C) (d : profile (C:=C) (J:=J)) : Prop :=
  dkeys d = first_seen (map cite_id L) /\ forall x, dget x d = match first_with L x with Some c => Some (c, count x (map cite_id L)) | None => None end.
Lemma first_with_None L x : first_with L x = None <-> ~ In x (map cite_id L).
Proof.
  unfold first_with. split.
  - intros F I. apply in_map_iff in I. destruct I as (c & <- & I). pose proof (find_none _ _ F c I) as Q. cbn in Q. rewrite eqb_refl in Q. discriminate.
  - intros N. destruct (find _ L) as [c|] eqn:F; [|reflexivity]. apply find_some in F. destruct F as [I E]. apply eqb_eq in E. subst x. destruct N. apply in_map, I.
Qed.
Lemma find_app' {A} (f : A -> bool) l m : find f (l ++ m) = match find f l with Some x => Some x | None => find f m end.
Proof. induction l as [|x l IH]; [reflexivity|]. cbn [find app]. destruct (f x); [reflexivity|exact IH]. Qed.
Lemma describes_snoc L d c : describes L d -> describes (L ++ [c]) (bump d c).
Proof.
  intros (K & G). unfold bump_cite. pose proof (G (cite_id c)) as Gc. rewrite Gc. split.
  - rewrite map_app. cbn [map]. rewrite SeriesProofs.first_seen_snoc. destruct (first_with L (cite_id c)) as [c0|] eqn:F.
    + assert (I : In (cite_id c) (map cite_id L)). { destruct (mem (cite_id c) (map cite_id L)) eqn:M; [apply mem_In, M|]. apply mem_not_In in M. apply first_with_None in M. congruence. }
      rewrite (proj2 (mem_In _ _) I). rewrite dkeys_dset, K. assert (Q : mem (cite_id c) (first_seen (map cite_id L)) = true) by (apply mem_In, In_first_seen, I). rewrite dhas_dget, Gc. reflexivity.
    + apply first_with_None in F. rewrite (proj2 (mem_not_In _ _) F). rewrite dkeys_dset, dhas_dget, Gc, K. reflexivity.
  - intros x. replace (first_with (L ++ [c]) x) with (match first_with L x with Some x => Some x | None => find (fun c => eqb x (cite_id c)) [c] end) by (unfold first_with; rewrite find_app'; reflexivity). rewrite map_app, count_app. cbn [map count find].
    destruct (first_with L (cite_id c)) as [c0|] eqn:F.
    + rewrite dget_dset. destruct (eqb_spec x (cite_id c)) as [->|NE].
      * rewrite F. do 2 f_equal. lia.
      * rewrite G. destruct (first_with L x); [do 2 f_equal; lia|reflexivity].
    + rewrite dget_dset. destruct (eqb_spec x (cite_id c)) as [->|NE].
      * rewrite F. apply first_with_None in F. rewrite (proj2 (count_not_In _ _) F). reflexivity.
      * rewrite G. destruct (first_with L x); [do 2 f_equal; lia|reflexivity].
Qed.
Lemma describes_fold M : forall L d, describes L d -> describes (L ++ M) (fold_left bump M d).
Proof. induction M as [|c M IH]; intros L d D; [rewrite app_nil_r; exact D|]. cbn [fold_left]. replace (L ++ c :: M)%list with ((L ++ [c]) ++ M)%list by (rewrite <- app_assoc; reflexivity). apply IH, describes_snoc, D. Qed.
Lemma describes_nil : describes [] [].
Proof. split; reflexivity. Qed.
(** what is read off it *)
Lemma described_lists {A} (f : C -> nat -> A) L d : describes L d -> NoDup (dkeys d) ->
  map (fun e => f (fst (snd e)) (snd (snd e))) d = flat_map (fun x => match first_with L x with Some c => [f c (count x (map cite_id L))] | None => [] end) (first_seen (map cite_id L)).
Proof.
  intros (K & G) ND. rewrite <- K. assert (S : forall e, In e d -> dget (fst e) d = Some (snd e)) by (intros [k v] I; apply (In_dget k v); assumption).
  assert (Q : forall d', incl d' d -> map (fun e => f (fst (snd e)) (snd (snd e))) d' = flat_map (fun x => match first_with L x with Some c => [f c (count x (map cite_id L))] | None => [] end) (dkeys d')).
  { induction d' as [|e d' IH]; intros IN; [reflexivity|]. unfold dkeys. cbn [map flat_map]. fold (dkeys d'). rewrite <- IH by (intros x I; apply IN; right; exact I).
    pose proof (S e (IN e (or_introl eq_refl))) as Z. rewrite G in Z. destruct (first_with L (fst e)) as [c|]; [|discriminate]. injection Z as <-. reflexivity. }
  apply Q, incl_refl.
Qed.
End Profile.

(** ** References: a step is the number of the record, the author seen and the citations of the record *)
Section Steps.
Context {I C J : Type} `{EqDec I} `{EqDec J}.
Variable cite_id : C -> J.
Definition step := (nat * I * list C)%type.
Definition refs_heap := (dict I nat * dict nat (profile (C:=C) (J:=J)))%type.
Definition do_step (s : refs_heap) (e : step) : refs_heap :=
  let '(k, n, cs) := e in
  let refs := if dhas n (fst s) then fst s else dset n k (fst s) in
  match dget n refs with
  | Some q => (refs, dset q (fold_left (bump_cite cite_id) cs (match dget q (snd s) with Some d => d | None => [] end)) (snd s))
  | None => (refs, snd s)
  end.
Definition ref_of (es : list step) (n : I) : option nat := match find (fun e : step => eqb n (snd (fst e))) es with Some e => Some (fst (fst e)) | None => None end.
Definition taken (all es : list step) (q : nat) : list C := flat_map (fun e : step => if eqb (ref_of all (snd (fst e))) (Some q) then snd e else []) es.
Definition after_steps (es : list step) (s : refs_heap) : Prop :=
  (forall n, dget n (fst s) = ref_of es n) /\
  (forall q, describes cite_id (taken es es q) (match dget q (snd s) with Some d => d | None => [] end)).
Lemma ref_snoc es e n : ref_of (es ++ [e]) n = match ref_of es n with Some k => Some k | None => if eqb n (snd (fst e)) then Some (fst (fst e)) else None end.
Proof. unfold ref_of. rewrite find_app'. destruct (find _ es) as [x|]; [reflexivity|]. cbn [find]. destruct (eqb n (snd (fst e))); reflexivity. Qed.
Lemma ref_in es e : In e es -> exists k, ref_of es (snd (fst e)) = Some k.
Proof.
  intros K. unfold ref_of. destruct (find _ es) as [x|] eqn:F; [eauto|]. pose proof (find_none _ _ F e K) as Q. cbn in Q. rewrite eqb_refl in Q. discriminate.
Qed.
Lemma taken_snoc es e q : taken (es ++ [e]) (es ++ [e]) q = (taken es es q ++ if eqb (ref_of (es ++ [e]) (snd (fst e))) (Some q) then snd e else [])%list.
Proof.
  unfold taken at 1. rewrite flat_map_app. cbn [flat_map]. rewrite app_nil_r. f_equal. unfold taken.
  assert (G : forall l, incl l es -> flat_map (fun e0 : step => if eqb (ref_of (es ++ [e]) (snd (fst e0))) (Some q) then snd e0 else []) l = flat_map (fun e0 : step => if eqb (ref_of es (snd (fst e0))) (Some q) then snd e0 else []) l).
  { induction l as [|x l IH]; intros IN; [reflexivity|]. cbn [flat_map]. rewrite IH by (intros y K; apply IN; right; exact K). destruct (@ref_in es x) as (k & Q); [apply IN; left; reflexivity|]. rewrite ref_snoc, Q. reflexivity. }
  apply G, incl_refl.
Qed.
Lemma after_snoc es e s : after_steps es s -> after_steps (es ++ [e]) (do_step s e).
Proof.
  intros (A & B). destruct e as [[k n] cs]. unfold do_step. set (refs := if dhas n (fst s) then fst s else dset n k (fst s)).
  assert (R : forall m, dget m refs = ref_of (es ++ [(k, n, cs)]) m).
  { intros m. rewrite ref_snoc. cbn [fst snd]. unfold refs. rewrite dhas_dget. rewrite <- (A m). destruct (dget n (fst s)) as [x|] eqn:E.
    - destruct (dget m (fst s)) eqn:F; [reflexivity|]. destruct (eqb_spec m n) as [->|NE]; [congruence|reflexivity].
    - rewrite dget_dset. destruct (eqb_spec m n) as [->|NE]; [rewrite E; reflexivity|]. destruct (dget m (fst s)); reflexivity. }
  rewrite (R n). assert (Q : exists q, ref_of (es ++ [(k, n, cs)]) n = Some q). { apply (@ref_in (es ++ [(k, n, cs)]) (k, n, cs)). apply in_or_app. right. left. reflexivity. }
  destruct Q as (q & Q). rewrite Q. split; [exact R|]. intros q'. rewrite taken_snoc. cbn [fst snd]. match goal with |- context [eqb ?X (Some q')] => replace X with (Some q) by (symmetry; exact Q) end. rewrite dget_dset. destruct (eqb_spec q' q) as [->|NE].
  - rewrite eqb_refl. apply describes_fold, B.
  - assert (NQ : @eqb (option nat) _ (Some q) (Some q') = false) by (apply neq_eqb; congruence). rewrite NQ, app_nil_r. apply B.
Qed.
Lemma after_all es : forall es0 s, after_steps es0 s -> after_steps (es0 ++ es) (fold_left do_step es s).
Proof. induction es as [|e es IH]; intros es0 s A; [rewrite app_nil_r; exact A|]. cbn [fold_left]. replace (es0 ++ e :: es)%list with ((es0 ++ [e]) ++ es)%list by (rewrite <- app_assoc; reflexivity). apply IH, after_snoc, A. Qed.
Lemma after_none : after_steps [] ([], []).
Proof. split; [reflexivity|]. intros q. apply describes_nil. Qed.
End Steps.

(** ** The graph and the profiles do not get in each other's way *)
Section Graph.
Context {I C J : Type} `{EqDec I} `{EqDec J}.
Variable cite_id : C -> J.
Definition agree (g : graph I) (d : dict I nat) : Prop := forall n, has_node g n = dhas n d.
Lemma has_add (g : graph I) n a m : has_node (add_node n a g) m = eqb m n || has_node g m.
Proof. unfold add_node, has_node. destruct (nd g n); cbn [gnodes]; rewrite !dhas_dget, dget_dset; destruct (eqb m n); reflexivity. Qed.
Lemma has_incr (g g' : graph I) n k x m : node_incr n k x g = Ok g' -> has_node g' m = has_node g m.
Proof.
  unfold node_incr. destruct (nd g n) as [a|] eqn:E; [|discriminate]. destruct (dget k a) as [y|]; [|discriminate]. destruct (vadd y x) as [z|]; [|discriminate]. cbn [bind]. unfold node_set. rewrite E. intros Q. injection Q as <-.
  unfold has_node. cbn [gnodes]. rewrite !dhas_dget, dget_dset. destruct (eqb_spec m n) as [->|NE]; [|reflexivity]. unfold nd in E. rewrite E. reflexivity.
Qed.
Lemma has_see cnt a n (g g' : graph I) m : see_author cnt a n g = Ok g' -> has_node g' m = eqb m n || has_node g m.
Proof.
  unfold see_author. destruct (has_node g n) eqn:E; cbn [negb].
  - destruct cnt; intros Q; [rewrite (@has_incr _ _ _ _ _ m Q)|injection Q as <-]; (destruct (eqb_spec m n) as [->|NE]; [rewrite E|]; reflexivity).
  - intros Q. injection Q as <-. apply has_add.
Qed.
Lemma has_ensure (g : graph I) n m : has_node (ensure_node n g) m = eqb m n || has_node g m.
Proof.
  unfold ensure_node. destruct (nd g n) as [a|] eqn:E; [|unfold has_node; cbn [gnodes]; rewrite !dhas_dget, dget_dset; destruct (eqb m n); reflexivity].
  destruct (eqb_spec m n) as [->|NE]; [|reflexivity]. unfold has_node. rewrite dhas_dget. unfold nd in E. rewrite E. reflexivity.
Qed.
Lemma has_edge_add (g : graph I) u v a m : has_node g u = true -> has_node g v = true -> has_node (add_edge u v a g) m = has_node g m.
Proof.
  intros A B. unfold add_edge, put_edge. change (has_node (ensure_node v (ensure_node u g)) m = has_node g m). rewrite !has_ensure. destruct (eqb_spec m v) as [->|]; [rewrite B; reflexivity|]. destruct (eqb_spec m u) as [->|]; [rewrite A; reflexivity|reflexivity].
Qed.
Lemma has_join w u v (g g' : graph I) m : has_node g u = true -> has_node g v = true -> join_two w u v g = Ok g' -> has_node g' m = has_node g m.
Proof.
  intros A B. unfold join_two. destruct (has_edge g u v && w).
  - unfold edge_incr. destruct (ed g u v) as [a|]; [|discriminate]. destruct (dget weight a) as [y|]; [|discriminate]. destruct (vadd y (VInt 1)) as [z|]; [|discriminate]. cbn [bind]. intros Q. injection Q as <-. reflexivity.
  - destruct w; intros Q; injection Q as <-; apply has_edge_add; assumption.
Qed.
Notation doit := (do_step (I:=I) cite_id).
Definition pack (g : graph I) (s : refs_heap (I:=I) (C:=C) (J:=J)) : pstate := mkP g (fst s) (snd s).
Lemma see_split cnt a k cs n g s : agree g (fst s) ->
  see_profile cite_id cnt a k cs n (pack g s) = (let* g' := see_author cnt a n g in Ok (pack g' (doit s (k, n, cs)))) /\
  forall g', see_author cnt a n g = Ok g' -> agree g' (fst (doit s (k, n, cs))).
Proof.
  intros A. assert (Q : exists q, dget n (if dhas n (fst s) then fst s else dset n k (fst s)) = Some q).
  { destruct (dhas n (fst s)) eqn:E; [|exists k; apply dget_dset_same]. rewrite dhas_dget in E. destruct (dget n (fst s)) as [q|]; [eauto|discriminate]. }
  destruct Q as (q & Q). split.
  - unfold see_profile, pack. cbn [p_graph p_ref p_heap]. rewrite A. destruct (see_author cnt a n g) as [g'|e]; [|reflexivity]. cbn [bind]. unfold do_step. rewrite Q. reflexivity.
  - intros g' S m. rewrite (@has_see _ _ _ _ _ _ S). unfold do_step. rewrite Q. cbn [fst]. rewrite A. destruct (dhas n (fst s)) eqn:E.
    + destruct (eqb_spec m n) as [->|NE]; [rewrite E|]; reflexivity.
    + rewrite !dhas_dget, dget_dset. destruct (eqb m n); reflexivity.
Qed.
(** the authors in the order in which they are seen *)
Fixpoint seen_seq (l : list I) : list I := match l with [] => [] | n :: rest => n :: rest ++ seen_seq rest end.
Lemma inner_split cnt w a k cs n1 rest : forall g s, agree g (fst s) -> has_node g n1 = true ->
  let steps := map (fun n => (k, n, cs)) rest in
  iter (fun n2 st => let* s' := see_profile cite_id cnt a k cs n2 st in let* g := join_two w n1 n2 (p_graph s') in Ok (mkP g (p_ref s') (p_heap s'))) rest (pack g s) =
  (let* g' := iter (fun n2 g => let* g' := see_author cnt a n2 g in join_two w n1 n2 g') rest g in Ok (pack g' (fold_left doit steps s))) /\
  forall g', iter (fun n2 g => let* g' := see_author cnt a n2 g in join_two w n1 n2 g') rest g = Ok g' -> agree g' (fst (fold_left doit steps s)).
Proof.
  induction rest as [|n2 rest IH]; intros g s A N1 steps; [split; [reflexivity|intros g' Q; injection Q as <-; exact A]|].
  destruct (@see_split cnt a k cs n2 g s A) as (E & AG). cbn [iter map fold_left] in *. subst steps. cbn [map fold_left]. rewrite E. destruct (see_author cnt a n2 g) as [g1|e] eqn:S; [|split; [reflexivity|discriminate]]. cbn [bind].
  specialize (AG g1 eq_refl). assert (H1 : has_node g1 n1 = true) by (rewrite (@has_see _ _ _ _ _ _ S), N1; apply orb_true_r). assert (H2 : has_node g1 n2 = true) by (rewrite (@has_see _ _ _ _ _ _ S), eqb_refl; reflexivity).
  unfold pack at 1. cbn [p_graph p_ref p_heap]. destruct (join_two w n1 n2 g1) as [g2|e] eqn:JT; [|split; [reflexivity|discriminate]]. cbn [bind]. fold (pack g2 (doit s (k, n2, cs))).
  apply IH.
  - intros m. rewrite (@has_join _ _ _ _ _ _ H1 H2 JT). apply AG.
  - rewrite (@has_join _ _ _ _ _ _ H1 H2 JT). exact H1.
Qed.
Lemma list_split cnt w a k cs l : forall g s, agree g (fst s) ->
  let steps := map (fun n => (k, n, cs)) (seen_seq l) in
  author_profiles cite_id cnt w a k cs l (pack g s) = (let* g' := author_list cnt w a l g in Ok (pack g' (fold_left doit steps s))) /\
  forall g', author_list cnt w a l g = Ok g' -> agree g' (fst (fold_left doit steps s)).
Proof.
  induction l as [|n1 rest IH]; intros g s A steps; [split; [reflexivity|intros g' Q; injection Q as <-; exact A]|]. subst steps.
  cbn [author_profiles author_list seen_seq map fold_left]. destruct (@see_split cnt a k cs n1 g s A) as (E & AG). rewrite E. destruct (see_author cnt a n1 g) as [g1|e] eqn:S; [|split; [reflexivity|discriminate]]. cbn [bind].
  specialize (AG g1 eq_refl). destruct (@inner_split cnt w a k cs n1 rest g1 (doit s (k, n1, cs)) AG) as (E2 & AG2). { rewrite (@has_see _ _ _ _ _ _ S), eqb_refl. reflexivity. }
  rewrite E2. destruct (iter _ rest g1) as [g2|e] eqn:IT; [|split; [reflexivity|discriminate]]. cbn [bind]. rewrite map_app, fold_left_app. apply IH, AG2, eq_refl.
Qed.
Section Records.
Context {R : Type}.
Variables (authors : R -> list I) (journal : R -> bool) (details : R -> attrs) (cites : R -> list C).
Fixpoint all_steps (k : nat) (rs : list R) : list (step (I:=I) (C:=C)) :=
  match rs with [] => [] | r :: rs' => map (fun n => (k, n, cites r)) (seen_seq (authors r)) ++ all_steps (S k) rs' end.
Lemma all_split w dnj cnt rs : forall k g s, agree g (fst s) ->
  let kept := filter (fun r => negb dnj || journal r) rs in
  all_profiles cite_id authors journal details cites w dnj cnt k rs (pack g s) =
  (let* g' := iter (fun r g => if dnj && negb (journal r) then Ok g else author_list cnt w (author_attrs cnt details r) (authors r) g) rs g in Ok (pack g' (fold_left doit (all_steps k kept) s))) /\
  forall g', iter (fun r g => if dnj && negb (journal r) then Ok g else author_list cnt w (author_attrs cnt details r) (authors r) g) rs g = Ok g' -> agree g' (fst (fold_left doit (all_steps k kept) s)).
Proof.
  induction rs as [|r rs IH]; intros k g s A kept; [split; [reflexivity|intros g' Q; injection Q as <-; exact A]|]. subst kept. cbn [all_profiles iter filter].
  destruct (dnj && negb (journal r)) eqn:D.
  - assert (D' : negb dnj || journal r = false) by (destruct dnj, (journal r); try reflexivity; discriminate D). rewrite D'. cbn [bind]. apply IH, A.
  - assert (D' : negb dnj || journal r = true) by (destruct dnj, (journal r); try reflexivity; discriminate D). rewrite D'. cbn [all_steps]. rewrite fold_left_app.
    destruct (@list_split cnt w (author_attrs cnt details r) k (cites r) (authors r) g s A) as (E & AG). rewrite E. destruct (author_list _ _ _ _ g) as [g1|e]; [|split; [reflexivity|discriminate]]. cbn [bind]. apply IH, AG, eq_refl.
Qed.
End Records.
End Graph.

(** ** From steps to records *)
Section ToRecords.
Context {I R C J : Type} `{EqDec I} `{EqDec J}.
Variable cite_id : C -> J.
Variable cite_str : C -> str.
Variable authors : R -> list I.
Variable cites : R -> list C.
Fixpoint rep (m : nat) (l : list C) : list C := match m with 0 => [] | S m' => l ++ rep m' l end.
Lemma rep_plus m m' l : rep (m + m') l = (rep m l ++ rep m' l)%list.
Proof. induction m as [|m IH]; [reflexivity|]. cbn [rep plus]. rewrite IH, app_assoc. reflexivity. Qed.
Lemma in_seen_seq (n : I) l : In n (seen_seq l) <-> In n l.
Proof. induction l as [|x l IH]; [reflexivity|]. cbn [seen_seq]. split; intros K; (destruct K as [K|K]; [left; exact K|]); [|right; apply in_or_app; left; exact K]. right. apply in_app_or in K. destruct K as [K|K]; [exact K|apply IH, K]. Qed.
Lemma find_const k (cs : list C) (n : I) l : find (fun e : step => eqb n (snd (fst e))) (map (fun m => (k, m, cs)) l) = if mem n l then Some (k, n, cs) else None.
Proof. induction l as [|x l IH]; [reflexivity|]. cbn [map find fst snd]. change (mem n (x :: l)) with (eqb n x || mem n l). destruct (eqb_spec n x) as [->|NE]; [reflexivity|]. exact IH. Qed.
Lemma ref_records rs (n : I) : forall k, ref_of (all_steps authors cites k rs) n = first_from authors k n rs.
Proof.
  induction rs as [|r rs IH]; intros k; [reflexivity|]. cbn [all_steps first_from]. unfold ref_of in *. rewrite find_app', find_const.
  replace (mem n (seen_seq (authors r))) with (mem n (authors r)).
  - destruct (mem n (authors r)); [reflexivity|apply IH].
  - destruct (mem n (authors r)) eqn:M; symmetry; [apply mem_In, in_seen_seq, mem_In, M|]. apply mem_not_In. rewrite in_seen_seq. apply mem_not_In, M.
Qed.
Fixpoint number (p : I -> bool) (l : list I) : nat := match l with [] => 0 | x :: l' => (if p x then 1 else 0) + number p l' end.
Lemma number_app p l m : number p (l ++ m) = number p l + number p m.
Proof. induction l as [|x l IH]; [reflexivity|]. cbn [number app]. rewrite IH. lia. Qed.
Lemma positions_S p l : forall k, positions_of p (S k) l = positions_of p k l + number p l.
Proof. induction l as [|x l IH]; intros k; [reflexivity|]. cbn [positions_of number]. rewrite (IH (S k)). destruct (p x); lia. Qed.
Lemma number_seen p l : number p (seen_seq l) = positions_of p 1 l.
Proof. induction l as [|x l IH]; [reflexivity|]. cbn [seen_seq number positions_of]. rewrite number_app, IH, (positions_S p l 1). destruct (p x); lia. Qed.
Lemma block (p : I -> bool) k (cs : list C) l : flat_map (fun e : step (I:=I) (C:=C) => if p (snd (fst e)) then snd e else []) (map (fun n : I => (k, n, cs)) l) = rep (number p l) cs.
Proof. induction l as [|x l IH]; [reflexivity|]. cbn [map flat_map number fst snd]. rewrite IH. destruct (p x); reflexivity. Qed.
Lemma blocks (p : I -> bool) rs : forall k, flat_map (fun e : step (I:=I) (C:=C) => if p (snd (fst e)) then snd e else []) (all_steps authors cites k rs) = flat_map (fun r => rep (positions_of p 1 (authors r)) (cites r)) rs.
Proof. induction rs as [|r rs IH]; intros k; [reflexivity|]. cbn [all_steps flat_map]. rewrite flat_map_app, block, number_seen, IH. reflexivity. Qed.
Variable times : R -> nat.
Definition repeated (rs : list R) : list C := flat_map (fun r => rep (times r) (cites r)) rs.
Lemma count_rep x m l : count x (map cite_id (rep m l)) = m * count x (map cite_id l).
Proof. induction m as [|m IH]; [reflexivity|]. cbn [rep]. rewrite map_app, count_app, IH. cbn. lia. Qed.
Lemma count_repeated x rs : count x (map cite_id (repeated rs)) = times_cited cite_id cites times rs x.
Proof. unfold repeated, times_cited, total. induction rs as [|r rs IH]; [reflexivity|]. cbn [flat_map fold_right]. rewrite map_app, count_app, count_rep, IH. reflexivity. Qed.
Lemma find_rep {f : C -> bool} m l : find f (rep m l) = if m =? 0 then None else find f l.
Proof. destruct m as [|m]; [reflexivity|]. cbn [Nat.eqb]. induction m as [|m IH]; [cbn [rep]; rewrite app_nil_r; reflexivity|]. change (rep (S (S m)) l) with (l ++ rep (S m) l)%list. rewrite find_app', IH. destruct (find f l); reflexivity. Qed.
Lemma find_repeated (f : C -> bool) rs : find f (repeated rs) = find f (cites_taken cites times rs).
Proof. unfold repeated, cites_taken. induction rs as [|r rs IH]; [reflexivity|]. cbn [flat_map]. rewrite !find_app', find_rep, IH. destruct (times r =? 0); reflexivity. Qed.
Lemma first_seen_cong (a a' b b' : list J) : first_seen a = first_seen a' -> first_seen b = first_seen b' -> first_seen (a ++ b) = first_seen (a' ++ b').
Proof.
  intros A B. rewrite !GrantProofs.first_seen_app, A, B. f_equal. apply filter_ext_in. intros x _. f_equal.
  assert (Q : In x a <-> In x a') by (rewrite <- (In_first_seen a x), <- (In_first_seen a' x), A; reflexivity).
  destruct (mem x a) eqn:M; symmetry; [apply mem_In, Q, mem_In, M|]. apply mem_not_In. intros K. apply Q, mem_In in K. congruence.
Qed.
Lemma first_seen_rep m l : first_seen (map cite_id (rep m l)) = if m =? 0 then [] else first_seen (map cite_id l).
Proof.
  destruct m as [|m]; [reflexivity|]. cbn [Nat.eqb]. induction m as [|m IH]; [cbn [rep]; rewrite app_nil_r; reflexivity|]. change (rep (S (S m)) l) with (l ++ rep (S m) l)%list.
  rewrite map_app, GrantProofs.first_seen_app, IH.
  assert (G : forall q, incl q (map cite_id l) -> filter (fun x => negb (mem x (map cite_id l))) q = []).
  { induction q as [|y q IHq]; intros IN; [reflexivity|]. cbn [filter]. rewrite (proj2 (mem_In _ _) (IN y (or_introl eq_refl))). apply IHq. intros z K. apply IN. right. exact K. }
  rewrite G; [apply app_nil_r|]. intros y K. apply In_first_seen, K.
Qed.
Lemma first_seen_repeated rs : first_seen (map cite_id (repeated rs)) = shown_ids cite_id cites times rs.
Proof.
  unfold repeated, shown_ids, cites_taken. induction rs as [|r rs IH]; [reflexivity|]. cbn [flat_map]. rewrite !map_app. apply first_seen_cong; [|exact IH]. rewrite first_seen_rep. destruct (times r =? 0); reflexivity.
Qed.
Lemma shown_map {A} (f : option C -> nat -> A) (g : J -> A) rs :
  (forall x c, find (fun c => eqb x (cite_id c)) (cites_taken cites times rs) = Some c -> f (Some c) (times_cited cite_id cites times rs x) = g x) ->
  flat_map (fun x => match first_with cite_id (repeated rs) x with Some c => [f (Some c) (count x (map cite_id (repeated rs)))] | None => [] end) (first_seen (map cite_id (repeated rs))) =
  map g (shown_ids cite_id cites times rs).
Proof.
  intros G. rewrite first_seen_repeated. assert (IN : forall x, In x (shown_ids cite_id cites times rs) -> exists c, find (fun c => eqb x (cite_id c)) (cites_taken cites times rs) = Some c).
  { intros x K. unfold shown_ids in K. apply In_first_seen, in_map_iff in K. destruct K as (c & <- & K). destruct (find _ _) as [y|] eqn:F; [eauto|]. pose proof (find_none _ _ F c K) as Q. cbn in Q. rewrite eqb_refl in Q. discriminate. }
  induction (shown_ids cite_id cites times rs) as [|x l IH]; [reflexivity|]. cbn [flat_map map]. rewrite IH by (intros y K; apply IN; right; exact K).
  destruct (IN x (or_introl eq_refl)) as (c & F). unfold first_with. rewrite find_repeated, F, count_repeated, (G x c F). reflexivity.
Qed.
Lemma shown_by d rs : describes cite_id (repeated rs) d ->
  join $"|" (map (fun e => cite_str (fst (snd e))) d) = shown_cites cite_id cite_str cites times rs /\
  join $"|" (map (fun e => dec_nat (snd (snd e))) d) = shown_counts cite_id cites times rs.
Proof.
  intros D. assert (ND : NoDup (dkeys d)) by (rewrite (proj1 D); apply NoDup_first_seen). split.
  - unfold shown_cites. f_equal. rewrite (described_lists (fun c _ => cite_str c) D ND).
    apply (shown_map (fun o _ => match o with Some c => cite_str c | None => [] end)). intros x c F. unfold shown_text. rewrite F. reflexivity.
  - unfold shown_counts. f_equal. rewrite (described_lists (fun _ k => dec_nat k) D ND). apply (shown_map (fun _ k => dec_nat k)). reflexivity.
Qed.
End ToRecords.

(** ** The attributes *)
Section Show.
Context {I C J : Type} `{EqDec I} `{EqDec J}.
Variable cite_str : C -> str.
Notation showp := (show_profile (I:=I) (C:=C) (J:=J) cite_str).
Definition lists_of (s : pstate (I:=I) (C:=C) (J:=J)) (n : I) : dict J (C * nat) := match dget n (p_ref s) with Some q => match dget q (p_heap s) with Some d => d | None => [] end | None => [] end.
Definition with_profile (s : pstate (I:=I) (C:=C) (J:=J)) (n : I) (a : attrs) : attrs :=
  dset $"citeProfileCounts" (VStr (join $"|" (map (fun e => dec_nat (snd (snd e))) (lists_of s n)))) (dset $"citeProfileCites" (VStr (join $"|" (map (fun e => cite_str (fst (snd e))) (lists_of s n)))) a).
Lemma show_one s n g a : nd g n = Some a -> dhas n (p_ref s) = true -> WF g ->
  exists g', showp s n g = Ok g' /\ WF g' /\ gdir g' = gdir g /\ nodes g' = nodes g /\ (forall u v, ed g' u v = ed g u v) /\
    forall m, nd g' m = if eqb m n then Some (with_profile s n a) else nd g m.
Proof.
  intros N D W. unfold show_profile, with_profile, lists_of. rewrite dhas_dget in D. destruct (dget n (p_ref s)) as [q|]; [|discriminate].
  set (d := match dget q (p_heap s) with Some d => d | None => [] end). set (x := VStr _). set (y := VStr _).
  destruct (node_set n $"citeProfileCites" x g) as [g1|e] eqn:S1; [|unfold node_set in S1; rewrite N in S1; discriminate]. cbn [bind].
  assert (N1 : nd g1 n = Some (dset $"citeProfileCites" x a)). { unfold node_set in S1. rewrite N in S1. injection S1 as <-. unfold nd. cbn [gnodes]. apply dget_dset_same. }
  destruct (node_set n $"citeProfileCounts" y g1) as [g2|e] eqn:S2; [|unfold node_set in S2; rewrite N1 in S2; discriminate]. exists g2. split; [reflexivity|].
  split; [exact (WF_node_set _ _ _ (WF_node_set _ _ _ W S1) S2)|]. split; [rewrite (gdir_node_set _ _ _ _ S2); exact (gdir_node_set _ _ _ _ S1)|].
  split; [rewrite (nodes_node_set _ _ _ _ S2); exact (nodes_node_set _ _ _ _ S1)|]. split; [intros u v; rewrite (ed_node_set _ _ _ _ _ _ S2); exact (ed_node_set _ _ _ _ _ _ S1)|].
  intros m. unfold node_set in S1, S2. rewrite N in S1. rewrite N1 in S2. injection S1 as <-. injection S2 as <-. unfold nd. cbn [gnodes]. rewrite !dget_dset. destruct (eqb m n); reflexivity.
Qed.
Lemma show_all s ns : forall g, WF g -> NoDup ns -> (forall n, In n ns -> (exists a, nd g n = Some a) /\ dhas n (p_ref s) = true) ->
  exists g', iter (showp s) ns g = Ok g' /\ WF g' /\ gdir g' = gdir g /\ nodes g' = nodes g /\ (forall u v, ed g' u v = ed g u v) /\
    forall m, nd g' m = if mem m ns then match nd g m with Some a => Some (with_profile s m a) | None => None end else nd g m.
Proof.
  induction ns as [|n ns IH]; intros g W ND IN; [exists g; split; [reflexivity|]; split; [exact W|]; split; [reflexivity|]; split; [reflexivity|]; split; reflexivity|]. apply NoDup_cons_iff in ND. destruct ND as [NI ND'].
  destruct (IN n (or_introl eq_refl)) as ((a & N) & DH). destruct (show_one s n N DH W) as (g1 & Q & W1 & D1 & E1 & X1 & M1). cbn [iter]. rewrite Q. cbn [bind].
  destruct (IH g1 W1 ND') as (g2 & Q2 & W2 & D2 & E2 & X2 & M2).
  { intros m K. destruct (IN m (or_intror K)) as ((b & Nb) & DM). split; [|exact DM]. rewrite M1. destruct (eqb m n); eauto. }
  exists g2. split; [exact Q2|]. split; [exact W2|]. split; [congruence|]. split; [congruence|]. split; [intros u v; rewrite X2; apply X1|].
  intros m. rewrite M2, M1. change (mem m (n :: ns)) with (eqb m n || mem m ns). destruct (eqb_spec m n) as [->|NE]; cbn [orb]; [|reflexivity]. rewrite (proj2 (mem_not_In _ _) NI), N. reflexivity.
Qed.
End Show.

Section Main.
Context {I R C J : Type} `{EqDec I} `{EqDec J}.
Variable cite_id : C -> J.
Variable cite_str : C -> str.
Lemma profiles_spec (authors : R -> list I) journal (details : R -> attrs) cites w dnj cnt rs g0 :
  co_author authors journal details w dnj cnt rs = Ok g0 -> WF g0 -> 
  let rs' := filter (fun r => negb dnj || journal r) rs in
  exists g, co_author_profiles cite_id cite_str authors journal details cites w dnj cnt rs = Ok g /\ WF g /\ gdir g = gdir g0 /\ nodes g = nodes g0 /\ (forall u v, ed g u v = ed g0 u v) /\
    forall n, nd g n = match nd g0 n with
                       | Some a => Some (dset $"citeProfileCounts" (VStr (shown_counts cite_id cites (listed_together authors rs' n) rs'))
                                        (dset $"citeProfileCites" (VStr (shown_cites cite_id cite_str cites (listed_together authors rs' n) rs')) a))
                       | None => None
                       end.
Proof.
  intros Q W rs'. unfold co_author in Q.
  destruct (@all_split I C J _ _ cite_id R authors journal details cites w dnj cnt rs 0 (empty_graph false) ([], [])) as (E & AG); [intros n; reflexivity|]. fold rs' in E, AG.
  unfold co_author_profiles. change (mkP (empty_graph false) [] []) with (@pack I C J (empty_graph false) ([], [])). rewrite E, Q. cbn [bind]. specialize (AG g0 Q).
  pose proof (after_all (all_steps authors cites 0 rs') (after_none cite_id)) as (AR & AH). cbn [app] in AR, AH. set (sh := fold_left _ _ _) in *. clearbody sh. cbn [p_graph pack].
  destruct (@show_all I C J _ cite_str (pack g0 sh) (nodes g0) g0 W) as (g & Q2 & W2 & D2 & E2 & X2 & M2).
  - apply (wf_nodup W).
  - intros n K. split; [apply nd_In, K|]. cbn [pack p_ref]. rewrite <- AG. unfold has_node. apply dhas_spec, K.
  - exists g. split; [exact Q2|]. split; [exact W2|]. split; [exact D2|]. split; [exact E2|]. split; [exact X2|]. intros n. rewrite M2. destruct (nd g0 n) as [a|] eqn:N.
    + assert (K : In n (nodes g0)) by (apply nd_In; eauto). rewrite (proj2 (mem_In _ _) K). f_equal. unfold with_profile.
      assert (DN : exists q, dget n (fst sh) = Some q). { apply dhas_spec in K. change (has_node g0 n = true) in K. rewrite AG, dhas_dget in K. destruct (dget n (fst sh)); [eauto|discriminate]. }
      destruct DN as (q & DN). pose proof DN as FF. rewrite AR, ref_records in FF. unfold lists_of, pack. cbn [p_ref p_heap]. rewrite DN.
      specialize (AH q). unfold taken in AH. rewrite (blocks authors cites (fun m => eqb (ref_of (all_steps authors cites 0 rs') m) (Some q)) rs' 0) in AH.
      replace (flat_map _ rs') with (repeated cites (listed_together authors rs' n) rs') in AH.
      * destruct (shown_by cite_str _ _ _ AH) as (S1 & S2). rewrite <- S1, <- S2. reflexivity.
      * unfold repeated. apply flat_map_ext. intros r. f_equal. unfold listed_together. generalize 1. induction (authors r) as [|x l IH]; intros k; [reflexivity|]. cbn [positions_of]. rewrite IH. f_equal. rewrite ref_records. unfold together. rewrite FF, (eqb_sym (Some q)). reflexivity.
    + destruct (mem n (nodes g0)); reflexivity.
Qed.
End Main.
