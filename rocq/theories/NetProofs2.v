(** networkTwoMode and networkMultiMode as sequences of steps. *)
From Coq Require Import String Lia.
From Verif Require Import Base PyStr Nx NxFacts RecordView SeriesSpec RecordViewFacts NetModel NetSpec NetFacts NetProofs.
Set Implicit Arguments.

Inductive kind := KFirst | KSecond | KMulti.
Section Proofs.
Context {N : Type} `{EqDec N}.
Variables (nc rt : bool).

Definition do_two (t : kind * str) : N -> graph N -> res (graph N) :=
  match fst t with KFirst => tick_first nc rt (snd t) | KSecond => tick_second nc rt (snd t) | KMulti => tick_multi nc rt (snd t) end.
Definition typed (tag : str) (a : attrs) : attrs := if rt then dset type_ (VStr tag) a else a.
Definition eff_two (t : kind * str) (o : option attrs) : attrs :=
  let (k, tag) := t in
  if nc then
    match o with
    | None => match k with KSecond => typed tag [(cnt_, VInt 1)] | _ => typed tag [] end
    | Some a => match add1 a with Some b => b | None => typed tag (dset cnt_ (VInt 1) a) end
    end
  else
    match o with
    | None => typed tag []
    | Some a =>
      if rt then
        match k with
        | KMulti => match dget type_ a with Some (VStr t) => dset type_ (VStr (t ++ tag)) a | _ => dset type_ (VStr tag) a end
        | _ => if dhas type_ a then a else dset type_ (VStr tag) a
        end
      else a
    end.
Lemma plain_typed tag a : plain a -> plain (typed tag a).
Proof. intros P. unfold typed. destruct rt; [apply plain_type, P|exact P]. Qed.
Lemma two_ok t o : fine plain o -> plain (eff_two t o).
Proof.
  destruct t as [k tag]. intros F. unfold eff_two. destruct o as [a|]; cbn in F.
  - destruct nc.
    + destruct (add1 a) eqn:E; [eapply plain_add1; eassumption|apply plain_typed, plain_cnt, F].
    + destruct rt; [|exact F]. destruct k; try (destruct (dhas type_ a); [exact F|apply plain_type, F]).
      destruct (dget type_ a) as [[]|]; apply plain_type, F.
  - destruct nc; [|apply plain_typed, plain_nil]. destruct k; apply plain_typed; try apply plain_nil. apply (@plain_cnt [] 1%Z plain_nil).
Qed.
Lemma typed_spec tag n a g g' : setp g n a g' -> exists g'', (if rt then node_set n type_ (VStr tag) g' else Ok g') = Ok g'' /\ setp (N:=N) g n (typed tag a) g''.
Proof.
  intros S. unfold typed. destruct rt; [|eauto]. pose proof S as (W & _). destruct (@set_present N _ g' n type_ (VStr tag) a W (setp_nd S)) as (g2 & Q & S2).
  exists g2. split; [exact Q|]. eapply setp_trans; eassumption.
Qed.
Lemma two_spec t n (g : graph N) : WF g -> fine plain (nd g n) -> exists g', do_two t n g = Ok g' /\ setp g n (eff_two t (nd g n)) g'.
Proof.
  destruct t as [k tag]. intros W F. unfold do_two, eff_two; cbn [fst snd].
  assert (ADD : nd g n = None -> setp g n (typed tag []) (add_node n (if rt then [(type_, VStr tag)] else []) g)).
  { intros E. pose proof (add_setp n (if rt then [(type_, VStr tag)] else []) W) as S. rewrite E in S. unfold typed. destruct rt; exact S. }
  assert (F1 : nc = true -> exists g', tick_first nc rt tag n g = Ok g' /\
     setp g n (match nd g n with None => typed tag [] | Some a => match add1 a with Some b => b | None => typed tag (dset cnt_ (VInt 1) a) end end) g').
  { intros ->. unfold tick_first. destruct (nd g n) as [a|] eqn:E.
    - destruct (add1_cases F) as [(c & C & A)|(C & A)]; rewrite A.
      + destruct (@incr_present N _ g n cnt_ (VInt 1) _ (VInt c) (VInt (c + 1)) W E C eq_refl) as (g2 & Q & S2). rewrite Q. eauto.
      + rewrite (@incr_no_attr N _ g n cnt_ (VInt 1) _ E C). destruct (@set_present N _ g n cnt_ (VInt 1) _ W E) as (g2 & Q & S2). rewrite Q. apply typed_spec, S2.
    - rewrite (@incr_missing N _ g n cnt_ (VInt 1) E), (@set_missing N _ g n cnt_ (VInt 1) E). eauto. }
  assert (F2 : nc = false -> exists g', tick_first false rt tag n g = Ok g' /\
     setp g n (match nd g n with None => typed tag [] | Some a => if rt then (if dhas type_ a then a else dset type_ (VStr tag) a) else a end) g').
  { intros ->. unfold tick_first. rewrite has_node_nd. destruct (nd g n) as [a|] eqn:E; [|eauto].
    destruct rt; [|exists g; split; [reflexivity|apply setp_refl; assumption]].
    destruct (dhas type_ a); [exists g; split; [reflexivity|apply setp_refl; assumption]|]. apply set_present; assumption. }
  destruct k.
  - destruct nc; [specialize (F1 eq_refl)|specialize (F2 eq_refl)]; destruct (nd g n); assumption.
  - unfold tick_second. destruct nc; [|specialize (F2 eq_refl); destruct (nd g n); assumption].
    destruct (nd g n) as [a|] eqn:E.
    + destruct (add1_cases F) as [(c & C & A)|(C & A)]; rewrite A.
      * destruct (@incr_present N _ g n cnt_ (VInt 1) _ (VInt c) (VInt (c + 1)) W E C eq_refl) as (g2 & Q & S2). rewrite Q. eauto.
      * rewrite (@incr_no_attr N _ g n cnt_ (VInt 1) _ E C). destruct (@set_present N _ g n cnt_ (VInt 1) _ W E) as (g2 & Q & S2). rewrite Q. apply typed_spec, S2.
    + rewrite (@incr_missing N _ g n cnt_ (VInt 1) E), (@set_missing N _ g n cnt_ (VInt 1) E). apply typed_spec.
      pose proof (add_setp n [(cnt_, VInt 1)] W) as S. rewrite E in S. exact S.
  - unfold tick_multi. destruct nc; [specialize (F1 eq_refl); destruct (nd g n); assumption|]. rewrite has_node_nd. destruct (nd g n) as [a|] eqn:E; [|eauto].
    destruct rt; [|exists g; split; [reflexivity|apply setp_refl; assumption]].
    pose proof F as [_ [T|[t T]]]; rewrite T.
    + rewrite (@incr_no_attr N _ g n type_ (VStr tag) _ E T). apply set_present; assumption.
    + destruct (@incr_present N _ g n type_ (VStr tag) _ (VStr t) (VStr (t ++ tag)) W E T eq_refl) as (g2 & Q & S2). rewrite Q. eauto.
Qed.

(** ** what the steps leave at a node *)
Definition events := list (event (N := N) (kind * str)).
Definition misses (o : option (event (N := N) (kind * str))) : nat :=
  match o with Some (Tick (KSecond, _) _) => 0 | Some (Tick _ _) => 1 | _ => 0 end.
Definition missed (n : N) (es : events) : nat := misses (find (mentions n) es).
Lemma find_snoc {A} (f : A -> bool) l x : find f (l ++ [x]) = match find f l with Some y => Some y | None => if f x then Some x else None end.
Proof. induction l as [|y l IH]; cbn; [reflexivity|]. destruct (f y); [reflexivity|exact IH]. Qed.
Lemma find_existsb {A} (f : A -> bool) l : (match find f l with Some _ => true | None => false end) = existsb f l.
Proof. induction l as [|y l IH]; cbn; [reflexivity|]. destruct (f y); [reflexivity|exact IH]. Qed.
Lemma missed_ticks n es : missed n es <= ticks n es.
Proof.
  unfold missed. destruct (find (mentions n) es) as [e|] eqn:F; [|cbn; lia]. apply find_some in F. destruct F as [I M].
  destruct e as [u v|[k tag] m]; [cbn; lia|]. cbn in M.
  assert (1 <= ticks n es).
  { clear -I M. induction es as [|e es IH]; [destruct I|]. unfold ticks, total in *. cbn [fold_right]. destruct I as [->|I]; [rewrite M; lia|]. specialize (IH I). lia. }
  destruct k; cbn; lia.
Qed.
Lemma no_mention_no_tick {T} (n : N) (es : list (event T)) : existsb (mentions n) es = false -> ticks n es = 0.
Proof.
  induction es as [|e es IH]; [reflexivity|]. cbn. intros Q. apply orb_false_iff in Q. destruct Q as [Q1 Q2]. unfold ticks, total in *. cbn [fold_right].
  rewrite (IH Q2). destruct e; cbn in *; [reflexivity|]. rewrite Q1. reflexivity.
Qed.
Lemma typed_cnt tag a : dget cnt_ (typed tag a) = dget cnt_ a.
Proof. unfold typed. destruct rt; [apply dget_dset_other; discriminate|reflexivity]. Qed.
Lemma two_count n (es : events) : nc = true ->
  fold_left (eff_ev eff_two n) es None = None /\ existsb (mentions n) es = false \/
  exists a, fold_left (eff_ev eff_two n) es None = Some a /\ existsb (mentions n) es = true /\
    dget cnt_ a = positive_count (ticks n es - missed n es).
Proof.
  intros Hnc. induction es as [|e es IH] using rev_ind; [left; auto|]. rewrite fold_left_app, existsb_app, ticks_app, ticks_one. cbn [fold_left existsb]. rewrite orb_false_r.
  unfold missed in *. rewrite find_snoc. pose proof (missed_ticks n es) as MT. unfold missed in MT. pose proof (find_existsb (mentions n) es) as FE.
  destruct IH as [(IH & X)|(a & IH & X & C)]; rewrite IH, X; rewrite X in FE; destruct (find (mentions n) es) as [f|]; try discriminate; cbn [orb].
  - rewrite (no_mention_no_tick _ _ X). destruct e as [u v|[k tag] m]; cbn [eff_ev mentions].
    + destruct (eqb n u || eqb n v); [|left; auto]. right. eexists; split; [reflexivity|]. auto.
    + destruct (eqb n m); [|left; auto]. right. eexists; split; [reflexivity|]. split; [reflexivity|]. unfold eff_two. rewrite Hnc. destruct k; rewrite typed_cnt; reflexivity.
  - right. destruct e as [u v|[k tag] m]; cbn [eff_ev].
    + rewrite Nat.add_0_r. destruct (eqb n u || eqb n v); exists a; auto.
    + destruct (eqb n m); [|rewrite Nat.add_0_r; exists a; auto]. eexists; split; [reflexivity|]. split; [reflexivity|]. unfold eff_two. rewrite Hnc.
      unfold add1. rewrite C. unfold positive_count. replace (ticks n es + 1 - misses (Some f)) with (S (ticks n es - misses (Some f))) by lia. cbn [Nat.eqb].
      destruct (Nat.eqb_spec (ticks n es - misses (Some f)) 0) as [Z0|Z0].
      * rewrite typed_cnt, dget_dset_same, Z0. reflexivity.
      * rewrite dget_dset_same. do 2 f_equal. lia.
Qed.
Lemma two_present n (es : events) : (fold_left (eff_ev eff_two n) es None = None) <-> existsb (mentions n) es = false.
Proof.
  induction es as [|e es IH] using rev_ind; [cbn; tauto|]. rewrite fold_left_app, existsb_app. cbn [fold_left existsb]. rewrite orb_false_r.
  destruct e as [u v|[k tag] m]; cbn [eff_ev mentions].
  - destruct (eqb n u || eqb n v); rewrite ?orb_true_r, ?orb_false_r; [split; discriminate|exact IH].
  - destruct (eqb n m); rewrite ?orb_true_r, ?orb_false_r; [split; discriminate|exact IH].
Qed.
(** with recordType the type is a tag the node was counted under *)
Lemma two_types n (es : events) : rt = true -> (nc = true \/ forall t m, In (Tick t m) es -> fst t <> KMulti) ->
  forall a, fold_left (eff_ev eff_two n) es None = Some a ->
    (forall x, dget type_ a = Some x -> exists k tag, x = VStr tag /\ In (Tick (k, tag) n) es) /\
    (0 < ticks n es -> dget type_ a <> None) /\
    (forall k, In k (dkeys a) -> k = cnt_ \/ k = type_) /\ (nc = false -> dget cnt_ a = None).
Proof.
  intros Hrt. induction es as [|e es IH] using rev_ind; intros OK a; [discriminate|].
  assert (OK' : nc = true \/ forall t m, In (Tick t m) es -> fst t <> KMulti) by (destruct OK as [OK|OK]; [left; exact OK | right; intros t m I; apply (OK t m), in_or_app; left; exact I]).
  specialize (IH OK'). rewrite fold_left_app, ticks_app, ticks_one. cbn [fold_left].
  assert (LIFT : forall x, (exists k tag, x = VStr tag /\ In (Tick (k, tag) n) es) -> exists k tag, x = VStr tag /\ In (Tick (k, tag) n) (es ++ [e])).
  { intros x (k & tag & Q & I). exists k, tag. split; [exact Q|]. apply in_or_app; left; exact I. }
  destruct e as [u v|[k tag] m]; cbn [eff_ev].
  - rewrite Nat.add_0_r. intros Q. destruct (fold_left (eff_ev eff_two n) es None) as [b|] eqn:E.
    + assert (a = b) as -> by (destruct (eqb n u || eqb n v); cbn in Q; congruence). destruct (IH b eq_refl) as (A & B & C). split; [auto|]. auto.
    + destruct (eqb n u || eqb n v); [|discriminate]. cbn in Q. injection Q as <-. split; [intros x Q; discriminate|]. split; [|split; [intros ? []|reflexivity]].
      intros T. apply two_present in E. rewrite (no_mention_no_tick _ _ E) in T. lia.
  - destruct (eqb_spec n m) as [<-|NE].
    + intros Q. injection Q as <-.
      assert (NEW : forall b, (forall k', In k' (dkeys b) -> k' = cnt_ \/ k' = type_) -> (nc = false -> dget cnt_ b = None) ->
        (forall x, dget type_ (typed tag b) = Some x -> exists k' tag', x = VStr tag' /\ In (Tick (k', tag') n) (es ++ [Tick (k, tag) n])) /\
        (0 < ticks n es + 1 -> dget type_ (typed tag b) <> None) /\
        (forall k', In k' (dkeys (typed tag b)) -> k' = cnt_ \/ k' = type_) /\ (nc = false -> dget cnt_ (typed tag b) = None)).
      { intros b Kb Cb. unfold typed. rewrite Hrt. split; [|split; [|split]].
        - intros x. rewrite dget_dset_same. intros Q. injection Q as <-. exists k, tag. split; [reflexivity|]. apply in_or_app; right; left; reflexivity.
        - intros _. rewrite dget_dset_same. discriminate.
        - intros k' I. apply In_dkeys_dset in I. destruct I as [I|I]; auto.
        - intros Q. rewrite dget_dset_other by discriminate. auto. }
      assert (CASE : exists o, fold_left (eff_ev eff_two n) es None = o /\ match o with Some b => True | None => True end) by (eexists; split; [reflexivity|]; destruct (fold_left _ _ _); exact I).
      destruct CASE as (o & Eo & _). rewrite Eo in *. unfold eff_two. destruct o as [b|].
      * destruct (IH b eq_refl) as (A & B & C & D). destruct nc eqn:Hnc.
        -- unfold add1. destruct (dget cnt_ b) as [[z| | | ]|] eqn:Cn.
           ++ split; [|split; [|split]].
              ** intros x. rewrite dget_dset_other by discriminate. intros Q. apply LIFT, A, Q.
              ** intros _. rewrite dget_dset_other by discriminate. apply B.
                 destruct (two_count n es Hnc) as [(Q & _)|(b' & Q & _ & Cb)]; [rewrite Eo in Q; discriminate|]. rewrite Eo in Q. injection Q as ->.
                 rewrite Cn in Cb. unfold positive_count in Cb. destruct (Nat.eqb_spec (ticks n es - missed n es) 0); [discriminate|lia].
              ** intros k' I. apply In_dkeys_dset in I. destruct I as [->|I]; auto.
              ** discriminate.
           ++ apply NEW; [|discriminate]. intros k' I. apply In_dkeys_dset in I. destruct I as [->|I]; auto.
           ++ apply NEW; [|discriminate]. intros k' I. apply In_dkeys_dset in I. destruct I as [->|I]; auto.
           ++ apply NEW; [|discriminate]. intros k' I. apply In_dkeys_dset in I. destruct I as [->|I]; auto.
           ++ apply NEW; [|discriminate]. intros k' I. apply In_dkeys_dset in I. destruct I as [->|I]; auto.
        -- rewrite Hrt. assert (HK : k <> KMulti). { destruct OK as [OK|OK]; [discriminate|]. apply (OK (k, tag) n). apply in_or_app; right; left; reflexivity. }
           assert (G : (forall x, dget type_ (if dhas type_ b then b else dset type_ (VStr tag) b) = Some x -> exists k' tag', x = VStr tag' /\ In (Tick (k', tag') n) (es ++ [Tick (k, tag) n])) /\
             (0 < ticks n es + 1 -> dget type_ (if dhas type_ b then b else dset type_ (VStr tag) b) <> None) /\
             (forall k', In k' (dkeys (if dhas type_ b then b else dset type_ (VStr tag) b)) -> k' = cnt_ \/ k' = type_) /\ (false = false -> dget cnt_ (if dhas type_ b then b else dset type_ (VStr tag) b) = None)).
           { destruct (dhas type_ b) eqn:Dh.
             - split; [auto|]. split; [|auto]. intros _. rewrite dhas_dget in Dh. destruct (dget type_ b); discriminate.
             - unfold typed in NEW. rewrite Hrt in NEW. apply NEW; auto. }
           destruct k; [exact G|exact G|congruence].
      * destruct nc; [|apply NEW; [intros ? [] | reflexivity]].
        destruct k; apply NEW; try discriminate; [intros ? [] | | intros ? []]. cbn. intros k' [<-|[]]; auto.
    + rewrite Nat.add_0_r. intros Q. destruct (IH a Q) as (A & B & C). split; [auto|]. auto.
Qed.
(** networkMultiMode without counts concatenates the tags *)
Definition tags_of (n : N) (es : events) : str := concat (map (fun e => match e with Tick (_, tag) m => if eqb n m then tag else [] | Link _ _ => [] end) es).
Lemma tags_snoc n es e : tags_of n (es ++ [e]) = tags_of n es ++ match e with Tick (_, tag) m => if eqb n m then tag else [] | Link _ _ => [] end.
Proof. unfold tags_of. rewrite map_app, concat_app. cbn [map concat]. rewrite app_nil_r. reflexivity. Qed.
Lemma multi_types n (es : events) : rt = true -> nc = false -> (forall t m, In (Tick t m) es -> fst t = KMulti) ->
  match fold_left (eff_ev eff_two n) es None with
  | None => existsb (mentions n) es = false
  | Some a => if ticks n es =? 0 then a = [] else a = [(type_, VStr (tags_of n es))]
  end.
Proof.
  intros Hrt Hnc. induction es as [|e es IH] using rev_ind; intros OK; [reflexivity|].
  assert (OK' : forall t m, In (Tick t m) es -> fst t = KMulti) by (intros t m I; apply (OK t m), in_or_app; left; exact I).
  specialize (IH OK'). rewrite fold_left_app, ticks_app, ticks_one, existsb_app, tags_snoc. cbn [fold_left existsb]. rewrite orb_false_r.
  destruct e as [u v|[k tag] m]; cbn [eff_ev mentions].
  - rewrite Nat.add_0_r, app_nil_r. destruct (eqb n u || eqb n v).
    + destruct (fold_left _ es None) as [a|] eqn:E; cbn [or_empty]; [exact IH|]. rewrite (no_mention_no_tick _ _ IH). reflexivity.
    + rewrite orb_false_r. exact IH.
  - destruct (eqb n m) eqn:NM; [|rewrite Nat.add_0_r, orb_false_r, app_nil_r; exact IH].
    assert (k = KMulti) as -> by (apply (OK (k, tag) m); apply in_or_app; right; left; reflexivity).
    assert (EFF : forall o, eff_two (KMulti, tag) o = match o with None => typed tag [] | Some a => match dget type_ a with Some (VStr t) => dset type_ (VStr (t ++ tag)) a | _ => dset type_ (VStr tag) a end end)
      by (intros o; unfold eff_two; rewrite Hnc, Hrt; reflexivity).
    rewrite EFF. destruct (Nat.eqb_spec (ticks n es + 1) 0); [lia|].
    assert (T0 : ticks n es = 0 -> tags_of n es = []).
    { clear. unfold tags_of, ticks, total. induction es as [|e es IH]; [reflexivity|]. cbn [fold_right map concat]. destruct e as [u v|[k tag] m]; [exact IH|].
      destruct (eqb n m); [intros; lia|]. cbn. apply IH. }
    destruct (fold_left _ es None) as [a|] eqn:E.
    + destruct (Nat.eqb_spec (ticks n es) 0) as [Z0|Z0]; subst a.
      * rewrite (T0 Z0). reflexivity.
      * cbn [dget]. rewrite eqb_refl. cbn [dset]. rewrite eqb_refl. reflexivity.
    + rewrite (T0 (no_mention_no_tick _ _ IH)). unfold typed. rewrite Hrt. reflexivity.
Qed.

(** the first mention in a sequence made of one part per record *)
Lemma find_app' {A} (f : A -> bool) l m : find f (l ++ m) = match find f l with Some x => Some x | None => find f m end.
Proof. induction l as [|x l IH]; cbn; [reflexivity|]. destruct (f x); [reflexivity|exact IH]. Qed.
Lemma missed_flat {R} (h : R -> events) (P : R -> bool) n rs : (forall r, existsb (mentions n) (h r) = P r) ->
  missed n (flat_map h rs) = match find P rs with Some r => missed n (h r) | None => 0 end.
Proof.
  intros HP. unfold missed. induction rs as [|r rs IH]; [reflexivity|]. cbn [flat_map find]. rewrite find_app'. rewrite <- (HP r), <- find_existsb.
  destruct (find (mentions n) (h r)) eqn:Fd; [rewrite Fd; reflexivity|exact IH].
Qed.

(** ** two modes *)
Definition ev_two (t1 t2 : str) (c1 c2 : list N) : events :=
  flat_map (fun n1 => map (Link n1) c2 ++ [Tick (KFirst, t1) n1]) c1 ++ map (Tick (KSecond, t2)) c2.
Lemma two_record_ev w t1 t2 c1 c2 g : two_record nc rt w t1 t2 c1 c2 g = iter (ev w do_two) (ev_two t1 t2 c1 c2) g.
Proof.
  unfold two_record, ev_two. rewrite iter_app, iter_flat.
  replace (iter (fun b => iter (ev w do_two) (map (Link b) c2 ++ [Tick (KFirst, t1) b])) c1 g)
    with (iter (fun n1 g0 => let* g' := iter (touch w n1) c2 g0 in tick_first nc rt t1 n1 g') c1 g).
  - destruct (iter _ c1 g) as [g1|]; [|reflexivity]. cbn [bind]. rewrite iter_map. apply iter_ext. reflexivity.
  - apply iter_ext. intros n1 g0. rewrite iter_app, iter_map. change (iter (fun b => ev w do_two (Link n1 b)) c2 g0) with (iter (touch w n1) c2 g0).
    destruct (iter (touch w n1) c2 g0) as [g1|]; [|reflexivity]. cbn [bind iter ev]. unfold do_two; cbn. destruct (tick_first nc rt t1 n1 g1); reflexivity.
Qed.
Lemma ticks_two n t1 t2 c1 c2 : ticks n (ev_two t1 t2 c1 c2) = count n c1 + count n c2.
Proof.
  unfold ev_two. rewrite ticks_app, ticks_map. f_equal. rewrite ticks_flat. induction c1 as [|x c1 IH]; [reflexivity|]. unfold total in *. cbn [fold_right count]. rewrite IH.
  rewrite ticks_app, ticks_links, ticks_one. reflexivity.
Qed.
Lemma links_ticks {T} (t : T) l : links_of (N:=N) (map (Tick t) l) = [].
Proof. induction l as [|x l IH]; [reflexivity|]. unfold links_of in *. cbn. exact IH. Qed.
Lemma lk_bipartite d (c1 c2 : list N) u v :
  total (fun n1 => lk d (map (fun n2 => (n1, n2)) c2) u v) c1 = if d then pairs_from_to u v c1 c2 else pairs_between u v c1 c2.
Proof.
  induction c1 as [|x c1 IH]; [unfold pairs_from_to, pairs_between; destruct d, (eqb u v); reflexivity|].
  unfold total in *. cbn [fold_right]. rewrite IH, lk_from. unfold pairs_from_to, pairs_between. cbn [count]. rewrite (eqb_sym x u), (eqb_sym x v).
  destruct d; [destruct (eqb u x); cbn; lia|]. destruct (eqb_spec u v) as [->|NE]; [destruct (eqb v x); cbn; lia|].
  destruct (eqb_spec u x) as [->|NU]; [rewrite (neq_eqb (x:=v) (y:=x)) by congruence; cbn; lia|]. destruct (eqb v x); cbn; lia.
Qed.
Lemma links_two d t1 t2 c1 c2 u v : lk d (links_of (ev_two t1 t2 c1 c2)) u v = if d then pairs_from_to u v c1 c2 else pairs_between u v c1 c2.
Proof.
  unfold ev_two. rewrite links_app, links_ticks, app_nil_r, lk_flat, <- lk_bipartite. apply total_ext. intros n1 _.
  rewrite links_app, links_map_link. unfold links_of. cbn [flat_map]. rewrite app_nil_r. reflexivity.
Qed.
Lemma mentions_links {T} n n1 (l : list N) : existsb (mentions (T:=T) n) (map (Link n1) l) = match l with [] => false | _ => eqb n n1 || mem n l end.
Proof.
  induction l as [|x l IH]; [reflexivity|]. cbn [map existsb mentions]. rewrite IH. unfold mem. cbn [existsb]. destruct l as [|y l]; [cbn; rewrite !orb_false_r; reflexivity|].
  cbn [existsb]. destruct (eqb n n1), (eqb n x); reflexivity.
Qed.
Lemma mentions_ticks {T} n (t : T) (l : list N) : existsb (mentions n) (map (Tick t) l) = mem n l.
Proof. induction l as [|x l IH]; [reflexivity|]. cbn [map existsb mentions]. rewrite IH. reflexivity. Qed.
Lemma mentions_two n t1 t2 c1 c2 : existsb (mentions n) (ev_two t1 t2 c1 c2) = mem n c1 || mem n c2.
Proof.
  unfold ev_two. rewrite existsb_app, mentions_ticks. induction c1 as [|x c1 IH]; [reflexivity|]. cbn [flat_map]. rewrite !existsb_app, mentions_links. cbn [existsb mentions]. rewrite orb_false_r.
  unfold mem in *. cbn [existsb]. rewrite <- !orb_assoc, IH. destruct c2 as [|y c2]; [cbn; rewrite !orb_false_r; reflexivity|].
  destruct (eqb n x), (existsb (eqb n) (y :: c2)), (existsb (eqb n) c1); reflexivity.
Qed.
Lemma missed_two n t1 t2 c1 c2 : mem n c1 || mem n c2 = true -> missed n (ev_two t1 t2 c1 c2) = match c2 with [] => 1 | _ => 0 end.
Proof.
  intros M. unfold missed. destruct c2 as [|y c2].
  - unfold mem in M. cbn [existsb] in M. rewrite orb_false_r in M. unfold ev_two. cbn [map app]. rewrite app_nil_r. induction c1 as [|x c1 IH]; [discriminate|]. cbn [flat_map map app find mentions].
    cbn [existsb] in M. destruct (eqb n x); [reflexivity|]. apply IH, M.
  - unfold ev_two. induction c1 as [|x c1 IH].
    + cbn [flat_map app]. cbn [map find mentions]. destruct (eqb n y); [reflexivity|]. clear. induction c2 as [|z c2 IH]; [reflexivity|]. cbn [map find mentions]. destruct (eqb n z); [reflexivity|exact IH].
    + cbn [flat_map]. rewrite <- !app_assoc, find_app'. pose proof (mentions_links (T:=kind*str) n x (y :: c2)) as ML. rewrite <- find_existsb in ML.
      destruct (find (mentions n) (map (Link x) (y :: c2))) as [e|] eqn:F.
      * apply find_some in F. destruct F as [I _]. apply in_map_iff in I. destruct I as (z & <- & _). reflexivity.
      * symmetry in ML. apply orb_false_iff in ML. destruct ML as [ML1 ML2]. cbn [app find mentions]. rewrite ML1. apply IH.
        unfold mem in *. cbn [existsb] in M. rewrite ML1 in M. exact M.
Qed.

(** ** many modes *)
Fixpoint ev_multi (contents : list (str * list N)) : events :=
  match contents with
  | [] => []
  | (tag, vs) :: rest => flat_map (fun n1 => flat_map (fun tvs => map (Link n1) (snd tvs)) rest ++ [Tick (KMulti, tag) n1]) vs ++ ev_multi rest
  end.
Lemma multi_lists_ev w contents : forall g, multi_lists nc rt w contents g = iter (ev w do_two) (ev_multi contents) g.
Proof.
  induction contents as [|[tag vs] rest IH]; intros g; [reflexivity|]. cbn [multi_lists ev_multi]. rewrite iter_app, iter_flat.
  replace (iter (fun b => iter (ev w do_two) (flat_map (fun tvs => map (Link b) (snd tvs)) rest ++ [Tick (KMulti, tag) b])) vs g)
    with (iter (fun n1 g0 => let* g' := iter (fun tvs : str * list N => iter (touch w n1) (snd tvs)) rest g0 in tick_multi nc rt tag n1 g') vs g).
  - destruct (iter _ vs g) as [g1|]; [|reflexivity]. cbn [bind]. apply IH.
  - apply iter_ext. intros n1 g0. rewrite iter_app, iter_flat.
    replace (iter (fun b => iter (ev w do_two) (map (Link n1) (snd b))) rest g0) with (iter (fun tvs : str * list N => iter (touch w n1) (snd tvs)) rest g0).
    + destruct (iter _ rest g0) as [g1|]; [|reflexivity]. cbn [bind iter ev]. unfold do_two; cbn. destruct (tick_multi nc rt tag n1 g1); reflexivity.
    + apply iter_ext. intros tvs g1. rewrite iter_map. reflexivity.
Qed.
Lemma ticks_multi n contents : ticks n (ev_multi contents) = total (fun tvs => count n (snd tvs)) contents.
Proof.
  induction contents as [|[tag vs] rest IH]; [reflexivity|]. cbn [ev_multi]. rewrite ticks_app, IH. unfold total at 2. cbn [fold_right snd]. f_equal.
  rewrite ticks_flat. induction vs as [|x vs IHv]; [reflexivity|]. unfold total in *. cbn [fold_right count]. rewrite IHv, ticks_app, ticks_one, ticks_flat. f_equal.
  transitivity (0 + if eqb n x then 1 else 0); [|reflexivity]. f_equal. clear. induction rest as [|y rest IH]; [reflexivity|]. unfold total in *. cbn [fold_right]. rewrite IH, ticks_links. reflexivity.
Qed.
Lemma links_multi contents u v : lk false (links_of (ev_multi contents)) u v = pairs_across u v (map snd contents).
Proof.
  induction contents as [|[tag vs] rest IH]; [reflexivity|]. cbn [ev_multi map snd pairs_across]. rewrite links_app, lk_app, IH. f_equal.
  rewrite lk_flat. transitivity (total (fun n1 => total (fun l => lk false (map (fun n2 => (n1, n2)) l) u v) (map snd rest)) vs).
  - apply total_ext. intros n1 _. rewrite links_app, lk_app. unfold links_of at 2. cbn [flat_map]. unfold lk at 2. cbn [total fold_right]. rewrite Nat.add_0_r. rewrite lk_flat.
    clear. induction rest as [|y rest IH]; [reflexivity|]. unfold total in *. cbn [fold_right map]. rewrite IH, links_map_link. reflexivity.
  - clear. generalize (map snd rest) as ls. intros ls. induction ls as [|l ls IH].
    + unfold total at 2 3. cbn [fold_right]. apply total_zero.
    + unfold total at 2 3. cbn [fold_right]. fold (total (pairs_between u v vs) ls). rewrite <- IH. rewrite <- (lk_bipartite false). rewrite <- total_plus. apply total_ext. reflexivity.
Qed.
Definition in_some (n : N) (contents : list (str * list N)) : bool := existsb (fun tvs => mem n (snd tvs)) contents.
Lemma mentions_block {T} n n1 (rest : list (str * list N)) : Forall (fun tvs => snd tvs <> []) rest ->
  existsb (mentions (T:=T) n) (flat_map (fun tvs => map (Link n1) (snd tvs)) rest) = match rest with [] => false | _ => eqb n n1 || in_some n rest end.
Proof.
  intros F. induction F as [|[t vs] rest NE F IH]; [reflexivity|]. cbn [flat_map snd]. rewrite existsb_app, mentions_links, IH. cbn in NE. destruct vs as [|x vs]; [congruence|].
  unfold in_some. cbn [existsb snd]. destruct rest as [|p rest]; [cbn; rewrite !orb_false_r; reflexivity|].
  destruct (eqb n n1), (mem n (x :: vs)); reflexivity.
Qed.
Lemma mentions_multi n contents : Forall (fun tvs => snd tvs <> []) contents -> existsb (mentions n) (ev_multi contents) = in_some n contents.
Proof.
  intros F. induction F as [|[t vs] rest NE F IH]; [reflexivity|]. cbn [ev_multi]. rewrite existsb_app, IH. unfold in_some. cbn [existsb snd]. fold (in_some n rest).
  clear NE IH. induction vs as [|x vs IH]; [reflexivity|]. cbn [flat_map]. rewrite !existsb_app, (mentions_block n x F). cbn [existsb mentions]. rewrite orb_false_r, <- orb_assoc, IH.
  unfold mem. cbn [existsb]. destruct rest as [|p rest]; [rewrite orb_assoc; reflexivity|]. destruct (eqb n x), (in_some n (p :: rest)), (existsb (eqb n) vs); reflexivity.
Qed.
Lemma missed_multi n contents : Forall (fun tvs => snd tvs <> []) contents -> in_some n contents = true ->
  missed n (ev_multi contents) = match contents with [_] => 1 | _ => 0 end.
Proof.
  intros F M. destruct contents as [|[t vs] rest]; [discriminate|]. inversion F as [|? ? NE F']; subst. cbn in NE. unfold missed. cbn [ev_multi].
  unfold in_some in M. cbn [existsb snd] in M. fold (in_some n rest) in M. destruct rest as [|p rest].
  - cbn [ev_multi]. rewrite app_nil_r. cbn in M. rewrite orb_false_r in M. clear NE F. induction vs as [|x vs IH]; [discriminate|]. cbn [flat_map app find mentions].
    unfold mem in M. cbn [existsb] in M. destruct (eqb n x); [reflexivity|]. apply IH, M.
  - assert (M' : mem n vs = true \/ (in_some n (p :: rest) = true /\ vs <> [])) by (apply orb_true_iff in M; destruct M; auto).
    clear M NE F. change (misses (find (mentions n) (flat_map (fun n1 => flat_map (fun tvs => map (Link n1) (snd tvs)) (p :: rest) ++ [Tick (KMulti, t) n1]) vs ++ ev_multi (p :: rest))) = 0).
    assert (MBx : forall x, existsb (mentions (T:=kind*str) n) (flat_map (fun tvs => map (Link x) (snd tvs)) (p :: rest)) = eqb n x || in_some n (p :: rest)) by (intros x; apply (mentions_block n x F')).
    clear F'. remember (p :: rest) as pr eqn:Epr. clear Epr.
    induction vs as [|x vs IH]; [destruct M' as [M'|[_ M']]; [discriminate|congruence]|].
    cbn [flat_map]. rewrite <- !app_assoc, find_app'. pose proof (MBx x) as MB. rewrite <- find_existsb in MB.
    destruct (find (mentions n) (flat_map (fun tvs => map (Link x) (snd tvs)) pr)) as [e|] eqn:Fd.
    + apply find_some in Fd. destruct Fd as [I _]. apply in_flat_map in I. destruct I as (q & _ & I). apply in_map_iff in I. destruct I as (z & <- & _). reflexivity.
    + symmetry in MB. apply orb_false_iff in MB. destruct MB as [MB1 MB2]. cbn [app find mentions]. rewrite MB1. apply IH. left.
      destruct M' as [M'|[M' _]]; [|congruence]. unfold mem in *. cbn [existsb] in M'. rewrite MB1 in M'. exact M'.
Qed.
Lemma tags_app n (a b : events) : tags_of n (a ++ b) = tags_of n a ++ tags_of n b.
Proof. unfold tags_of. rewrite map_app. apply concat_app. Qed.
Lemma tags_flat {R} n (h : R -> events) rs : tags_of n (flat_map h rs) = flat_map (fun r => tags_of n (h r)) rs.
Proof. induction rs as [|r rs IH]; [reflexivity|]. cbn [flat_map]. rewrite tags_app, IH. reflexivity. Qed.
Lemma tags_links n (x : N) l : tags_of n (map (Link x) l) = [].
Proof. induction l as [|y l IH]; [reflexivity|]. exact IH. Qed.
Lemma flat_map_nil {A B} (f : A -> list B) l : (forall x, f x = []) -> flat_map f l = [].
Proof. intros Z. induction l as [|x l IH]; [reflexivity|]. cbn [flat_map]. rewrite Z, IH. reflexivity. Qed.
Lemma flat_map_same {A B} (f h : A -> list B) l : (forall x, f x = h x) -> flat_map f l = flat_map h l.
Proof. intros Z. induction l as [|x l IH]; [reflexivity|]. cbn [flat_map]. rewrite Z, IH. reflexivity. Qed.
Lemma tags_multi n contents : tags_of n (ev_multi contents) = flat_map (fun tv : str * list N => flat_map (fun m => if eqb n m then fst tv else []) (snd tv)) contents.
Proof.
  induction contents as [|[tag vs] rest IH]; [reflexivity|]. cbn [ev_multi]. rewrite tags_app, IH.
  change (flat_map (fun tv : str * list N => flat_map (fun m => if eqb n m then fst tv else []) (snd tv)) ((tag, vs) :: rest))
    with (flat_map (fun m => if eqb n m then tag else []) vs ++ flat_map (fun tv : str * list N => flat_map (fun m => if eqb n m then fst tv else []) (snd tv)) rest).
  f_equal. rewrite tags_flat. apply flat_map_same. intros x. rewrite tags_app, tags_flat, flat_map_nil by (intros y; apply tags_links).
  unfold tags_of. cbn. apply app_nil_r.
Qed.
End Proofs.
