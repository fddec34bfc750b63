(** Steps on a graph whose edges have keys. *)
From Coq Require Import String Lia.
From Verif Require Import Base PyStr Nx NxFacts RecordView SeriesSpec RecordViewFacts NetModel NetSpec NetFacts NetProofs NetProofs2 KeyNetModel.
Set Implicit Arguments.

Section Facts.
Context {N K : Type} `{EqDec N} `{EqDec K}.
Definition same_key (d : bool) (u v : N) (k : K) (e : N * N * K) : bool := same_edge d (fst (fst e)) (snd (fst e)) u v && eqb (snd e) k.
Definition klk (d : bool) (L : list (N * N * K)) (u v : N) (k : K) : nat := total (fun e => if same_key d u v k e then 1 else 0) L.
Lemma klk_app d L M u v k : klk d (L ++ M) u v k = klk d L u v k + klk d M u v k.
Proof. apply total_app. Qed.
Lemma at_same d u v k e : at_key d u v k e = same_key d u v k (fst e).
Proof.
  destruct e as [[[x y] k'] w]. unfold at_key, same_key, same_edge. cbn [fst snd]. rewrite (eqb_sym k k'), andb_comm. reflexivity.
Qed.
Lemma same_key_true d u v k e : same_key d u v k e = true -> forall e', same_key d u v k e' = same_key d (fst (fst e)) (snd (fst e)) (snd e) e'.
Proof.
  unfold same_key. intros Q e'. apply andb_true_iff in Q. destruct Q as [Q1 Q2]. apply eqb_eq in Q2. subst k. f_equal.
  apply same_edge_true in Q1. destruct Q1 as [[-> ->]|(-> & -> & ->)]; [reflexivity|]. rewrite same_edge_sym. reflexivity.
Qed.
Definition met (w : bool) (n : nat) : list (option Z) := if n =? 0 then [] else [if w then Some (Z.of_nat n) else None].
Definition tallied_k (w d : bool) (L : list (N * N * K)) (l : list (N * N * K * option Z)) : Prop :=
  forall u v k, map snd (filter (at_key d u v k) l) = met w (klk d L u v k).
Lemma same_refl d u v k : same_key d u v k (u, v, k) = true.
Proof. unfold same_key. cbn [fst snd]. rewrite same_edge_refl, eqb_refl. reflexivity. Qed.
Lemma klk_one d u v k x y k' : klk d [(u, v, k)] x y k' = if same_key d x y k' (u, v, k) then 1 else 0.
Proof. unfold klk, total. cbn. apply Nat.add_0_r. Qed.
Lemma has_met w d L l u v k : tallied_k w d L l -> existsb (at_key d u v k) l = negb (klk d L u v k =? 0).
Proof.
  intros T. specialize (T u v k). unfold met in T. destruct (klk d L u v k =? 0); cbn [negb].
  - destruct (existsb (at_key d u v k) l) eqn:E; [|reflexivity]. apply existsb_exists in E. destruct E as (e & I & A). apply map_eq_nil in T. assert (In e (filter (at_key d u v k) l)) as X by (apply filter_In; auto). rewrite T in X. destruct X.
  - apply existsb_exists. destruct (filter (at_key d u v k) l) as [|e m] eqn:F; [discriminate|]. exists e. apply (filter_In (at_key d u v k)). rewrite F. left. reflexivity.
Qed.
Lemma klk_same d L u v k x y k' : same_key d x y k' (u, v, k) = true -> klk d L x y k' = klk d L u v k.
Proof. intros Q. unfold klk. apply total_ext. intros e _. rewrite (same_key_true _ _ _ _ _ Q). reflexivity. Qed.
Lemma filter_same d l u v k x y k' : same_key d x y k' (u, v, k) = true -> filter (at_key d x y k') l = filter (at_key d u v k) l.
Proof. intros Q. apply filter_ext. intros e. rewrite !at_same, (same_key_true _ _ _ _ _ Q). reflexivity. Qed.
Lemma add_tallied w d L l u v k : tallied_k w d L l -> klk d L u v k = 0 -> tallied_k w d (L ++ [(u, v, k)]) (l ++ [(u, v, k, if w then Some 1%Z else None)]).
Proof.
  intros T Z0 x y k'. rewrite filter_app, map_app, klk_app, klk_one. rewrite T. cbn [filter]. rewrite at_same. cbn [fst]. destruct (same_key d x y k' (u, v, k)) eqn:Q.
  - rewrite (klk_same _ _ _ _ _ _ _ _ Q), Z0. reflexivity.
  - rewrite Nat.add_0_r, app_nil_r. reflexivity.
Qed.
Lemma keep_tallied d L l u v k : tallied_k false d L l -> klk d L u v k <> 0 -> tallied_k false d (L ++ [(u, v, k)]) l.
Proof.
  intros T NZ x y k'. rewrite klk_app, klk_one, T. destruct (same_key d x y k' (u, v, k)) eqn:Q; [|rewrite Nat.add_0_r; reflexivity].
  rewrite (klk_same _ _ _ _ _ _ _ _ Q). unfold met. destruct (Nat.eqb_spec (klk d L u v k) 0); [lia|]. destruct (Nat.eqb_spec (klk d L u v k + 1) 0); [lia|reflexivity].
Qed.
Lemma incr_split d (u v : N) (k : K) l z m : map snd (filter (at_key d u v k) l) = [Some z] -> incr_key d u v k l = Ok m ->
  exists a e b, l = a ++ (e, Some z) :: b /\ m = a ++ (e, Some (z + 1)%Z) :: b /\ same_key d u v k e = true /\ filter (at_key d u v k) a = [] /\ filter (at_key d u v k) b = [].
Proof.
  revert m. induction l as [|e l IH]; intros m F E; [discriminate|]. cbn [filter incr_key] in *. destruct (at_key d u v k e) eqn:A.
  - cbn [map] in F. injection F as F1 F2. rewrite F1 in E. injection E as <-. exists [], (fst e), l. rewrite at_same in A. destruct e as [e w]. cbn [fst snd] in *. subst w. apply map_eq_nil in F2. auto 10.
  - destruct (incr_key d u v k l) as [m'|]; [|discriminate]. injection E as <-. destruct (IH m' F eq_refl) as (a & e' & b & -> & -> & S & FA & FB). exists (e :: a), e', b. cbn [filter]. rewrite A. auto 10.
Qed.
Lemma incr_ok d (u v : N) (k : K) l z : map snd (filter (at_key d u v k) l) = [Some z] -> exists m, incr_key d u v k l = Ok m.
Proof.
  induction l as [|e l IH]; intros F; [discriminate|]. cbn [filter incr_key] in *. destruct (at_key d u v k e) eqn:A.
  - cbn [map] in F. injection F as F1 F2. rewrite F1. eauto.
  - destruct (IH F) as (m & ->). cbn. eauto.
Qed.
Lemma incr_tallied d L l u v k : tallied_k true d L l -> klk d L u v k <> 0 -> exists m, incr_key d u v k l = Ok m /\ tallied_k true d (L ++ [(u, v, k)]) m.
Proof.
  intros T NZ. pose proof (T u v k) as Tu. unfold met in Tu. destruct (Nat.eqb_spec (klk d L u v k) 0) as [Z0|_]; [lia|].
  destruct (incr_ok _ _ _ _ _ Tu) as (m & E). exists m. split; [exact E|]. destruct (incr_split _ _ _ _ _ Tu E) as (a & e & b & -> & -> & S & FA & FB).
  intros x y k'. rewrite klk_app, klk_one. pose proof (T x y k') as Tx. rewrite filter_app in *. cbn [filter] in *. rewrite at_same in *. cbn [fst] in *.
  assert (SE : same_key d x y k' e = same_key d x y k' (u, v, k)).
  { destruct e as [[x0 y0] k0]. pose proof (same_key_true _ _ _ _ _ S (u, v, k)) as S1. rewrite same_refl in S1. cbn [fst snd] in S1. symmetry in S1.
    destruct (same_key d x y k' (x0, y0, k0)) eqn:A; [rewrite (same_key_true _ _ _ _ _ A); symmetry; exact S1|]. destruct (same_key d x y k' (u, v, k)) eqn:B; [|reflexivity].
    rewrite (same_key_true _ _ _ _ _ B) in A. cbn [fst snd] in A. rewrite A in S. discriminate. }
  rewrite SE in *. destruct (same_key d x y k' (u, v, k)) eqn:Q.
  - rewrite (filter_same _ a _ _ _ _ _ _ Q), (filter_same _ b _ _ _ _ _ _ Q), FA, FB. cbn. rewrite (klk_same _ _ _ _ _ _ _ _ Q). unfold met. destruct (Nat.eqb_spec (klk d L u v k + 1) 0); [lia|]. do 2 f_equal. lia.
  - rewrite Nat.add_0_r. exact Tx.
Qed.

(** ** sequences of steps *)
Inductive kevent (T : Type) := KLink (u v : N) (k : K) | KTick (t : T) (n : N).
Arguments KLink {T} u v k.
Arguments KTick {T} t n.
Section Run.
Context {T : Type} (w : bool) (do : T -> N -> graph N -> res (graph N)) (eff : T -> option attrs -> attrs) (ok : attrs -> Prop).
Hypothesis ok_nil : ok [].
Hypothesis ok_eff : forall t o, fine ok o -> ok (eff t o).
Hypothesis do_spec : forall t n g, WF g -> fine ok (nd g n) ->
  exists g', do t n g = Ok g' /\ WF g' /\ gdir g' = gdir g /\ (forall u v, ed g' u v = ed g u v) /\
    forall m, nd g' m = if eqb m n then Some (eff t (nd g n)) else nd g m.
Variable strict : bool.
Definition touch_k := if strict then touch_level (N:=N) (K:=K) else touch_two (N:=N) (K:=K).
Definition kev (e : kevent T) (g : mgraph N K) : res (mgraph N K) :=
  match e with KLink u v k => touch_k w u v k g | KTick t n => on_base (do t n) g end.
Definition touches (es : list (kevent T)) : list (N * N * K) := flat_map (fun e => match e with KLink u v k => [(u, v, k)] | KTick _ _ => [] end) es.
Definition erase (e : kevent T) : event (N:=N) T := match e with KLink u v _ => Link u v | KTick t n => Tick t n end.
Record good (L : list (N * N * K)) (g : mgraph N K) : Prop :=
  { g_wf : WF (base g); g_tally : tallied_k w (gdir (base g)) L (keyed g); g_fine : forall n, fine ok (nd (base g) n);
    g_ends : forall e, In e (keyed g) -> nd (base g) (fst (fst (fst e))) <> None /\ nd (base g) (snd (fst (fst e))) <> None }.
Lemma ends_there L g u v k : good L g -> klk (gdir (base g)) L u v k <> 0 -> forall n, n = u \/ n = v -> nd (base g) n <> None.
Proof.
  intros [W TL F E] NZ. pose proof (has_met u v k TL) as HM. destruct (Nat.eqb_spec (klk (gdir (base g)) L u v k) 0); [congruence|]. cbn [negb] in HM.
  apply existsb_exists in HM. destruct HM as (e & I & A). destruct (E e I) as [E1 E2]. rewrite at_same in A. unfold same_key in A. apply andb_true_iff in A. destruct A as [A _].
  apply same_edge_true in A. destruct A as [[-> ->]|(_ & -> & ->)]; intros m [->| ->]; assumption.
Qed.
Lemma kev_spec e L g : good L g -> 
  (strict = true -> w = true -> forall u v k, e = KLink u v k -> klk (gdir (base g)) L u v k = 0) ->
  exists g', kev e g = Ok g' /\ good (L ++ touches [e]) g' /\ gdir (base g') = gdir (base g) /\ forall n, nd (base g') n = eff_ev eff n (nd (base g) n) (erase e).
Proof.
  intros G ST. pose proof G as [W TL F EN]. destruct e as [u v k|t n]; cbn [kev touches flat_map app erase eff_ev].
  - assert (PRES : klk (gdir (base g)) L u v k = 0 -> exists g', Ok (add_key u v k (if w then Some 1%Z else None) g) = Ok g' /\ good (L ++ [(u, v, k)]) g' /\ gdir (base g') = gdir (base g)
       /\ forall n, nd (base g') n = if eqb n u || eqb n v then Some (or_empty (nd (base g) n)) else nd (base g) n).
    { intros Z0. eexists. split; [reflexivity|]. destruct (ensure2 u v W) as (N1 & E1 & W1 & D1). cbn [add_key base keyed]. split; [|auto]. constructor; cbn [add_key base keyed].
      - exact W1.
      - rewrite D1. apply add_tallied; assumption.
      - intros m. rewrite N1. destruct (eqb m u || eqb m v); [|apply F]. specialize (F m). destruct (nd (base g) m); [exact F|exact ok_nil].
      - intros e I. rewrite !N1. apply in_app_iff in I. destruct I as [I|[<-|[]]].
        + destruct (EN e I) as [E2 E3]. split; destruct (_ || _); congruence.
        + cbn [fst snd]. rewrite !eqb_refl, orb_true_r. cbn [orb]. split; discriminate. }
    assert (SAME : forall l, tallied_k w (gdir (base g)) (L ++ [(u, v, k)]) l -> map fst l = map fst (keyed g) -> klk (gdir (base g)) L u v k <> 0 ->
       exists g', Ok (mkM (base g) l) = Ok g' /\ good (L ++ [(u, v, k)]) g' /\ gdir (base g') = gdir (base g)
       /\ forall n, nd (base g') n = if eqb n u || eqb n v then Some (or_empty (nd (base g) n)) else nd (base g) n).
    { intros l Tg MF NZ. eexists. split; [reflexivity|]. pose proof (@ends_there L g u v k G NZ) as P. cbn [base]. split; [|split; [reflexivity|]].
      - constructor; cbn [base keyed]; try assumption. intros e I. apply (in_map fst) in I. rewrite MF in I. apply in_map_iff in I. destruct I as (e' & <- & I). apply EN, I.
      - intros n. destruct (eqb_spec n u) as [->|Nu]; [cbn [orb]; specialize (P u (or_introl eq_refl)); destruct (nd (base g) u); [reflexivity|congruence]|].
        destruct (eqb_spec n v) as [->|Nv]; [cbn [orb]; specialize (P v (or_intror eq_refl)); destruct (nd (base g) v); [reflexivity|congruence]|reflexivity]. }
    assert (KEEP : w = false -> klk (gdir (base g)) L u v k <> 0 -> exists g', Ok g = Ok g' /\ good (L ++ [(u, v, k)]) g' /\ gdir (base g') = gdir (base g)
       /\ forall n, nd (base g') n = if eqb n u || eqb n v then Some (or_empty (nd (base g) n)) else nd (base g) n).
    { intros Hw NZ. destruct g as [b l]. apply SAME; [|reflexivity|exact NZ]. clear - TL NZ Hw. revert TL. rewrite Hw. intros TL. apply keep_tallied; assumption. }
    unfold touch_k. destruct strict; [unfold touch_level|unfold touch_two]; unfold has_key; rewrite (has_met u v k TL); destruct (Nat.eqb_spec (klk (gdir (base g)) L u v k) 0) as [Z0|NZ]; cbn [negb]; try (apply PRES, Z0).
    + destruct (bool_dec w true) as [Hw|Hw]; [destruct NZ; apply (ST eq_refl Hw u v k eq_refl)|]. apply not_true_is_false in Hw. pose proof (KEEP Hw NZ) as X. clear - X Hw. revert X. rewrite Hw. auto.
    + destruct (bool_dec w true) as [Hw|Hw].
      * assert (TL' : tallied_k true (gdir (base g)) L (keyed g)) by (clear - TL Hw; revert TL; rewrite Hw; auto). destruct (incr_tallied u v k TL' NZ) as (m & EM & TM).
        assert (MF : map fst m = map fst (keyed g)).
        { pose proof (TL' u v k) as Tu. unfold met in Tu. destruct (Nat.eqb_spec (klk (gdir (base g)) L u v k) 0) as [Z0|_]; [lia|]. destruct (incr_split _ _ _ _ _ Tu EM) as (a & e & b & -> & -> & _). rewrite !map_app. reflexivity. }
        assert (TM' : tallied_k w (gdir (base g)) (L ++ [(u, v, k)]) m) by (clear - TM Hw; rewrite Hw; exact TM).
        rewrite EM. cbn [bind]. pose proof (SAME m TM' MF NZ) as X. clear - X Hw. revert X. rewrite Hw. auto.
      * apply not_true_is_false in Hw. pose proof (KEEP Hw NZ) as X. clear - X Hw. revert X. rewrite Hw. auto.
  - destruct (do_spec t n W (F n)) as (b & E & W1 & D1 & E1 & N1). unfold on_base. rewrite E. cbn [bind]. eexists. split; [reflexivity|]. cbn [base]. rewrite app_nil_r. split; [|split; [exact D1|]].
    + constructor; cbn [base keyed]; [exact W1|rewrite D1; exact TL| |].
      * intros m. rewrite N1. destruct (eqb_spec m n) as [->|]; [cbn; apply ok_eff, F|apply F].
      * intros e I. rewrite !N1. destruct (EN e I) as [E2 E3]. split; destruct (eqb _ _); congruence.
    + intros m. rewrite N1. destruct (eqb_spec m n) as [->|]; reflexivity.
Qed.
Lemma touches_app es fs : touches (es ++ fs) = touches es ++ touches fs.
Proof. apply flat_map_app. Qed.
Lemma krun_spec es : forall L g, good L g -> (strict = true -> w = true -> forall u v k, klk (gdir (base g)) (L ++ touches es) u v k <= 1) ->
  exists g', iter kev es g = Ok g' /\ good (L ++ touches es) g' /\ gdir (base g') = gdir (base g) /\ forall n, nd (base g') n = fold_left (eff_ev eff n) (map erase es) (nd (base g) n).
Proof.
  induction es as [|e es IH]; intros L g G ST.
  - exists g. cbn. rewrite app_nil_r. auto.
  - assert (TE : L ++ touches (e :: es) = (L ++ touches [e]) ++ touches es) by (rewrite <- app_assoc, <- touches_app; reflexivity).
    destruct (@kev_spec e L g G) as (g1 & E1 & G1 & D1 & N1).
    { intros S1 W1 u v k ->. specialize (ST S1 W1 u v k). rewrite TE, !klk_app in ST. cbn [touches flat_map app] in ST. rewrite klk_one, same_refl in ST. lia. }
    rewrite TE in ST. rewrite <- D1 in ST. destruct (IH _ g1 G1 ST) as (g2 & E2 & G2 & D2 & N2). exists g2. cbn [iter]. rewrite E1. cbn [bind]. split; [exact E2|]. rewrite TE. split; [exact G2|]. split; [congruence|]. intros n. rewrite N2, N1. reflexivity.
Qed.
(** a strict run with a key met twice fails *)
Lemma krun_bad es : strict = true -> w = true -> forall L g, good L g -> (exists u v k, klk (gdir (base g)) L u v k <= 1 /\ 2 <= klk (gdir (base g)) (L ++ touches es) u v k) ->
  iter kev es g = Raise ValueError.
Proof.
  intros S1 W1. induction es as [|e es IH]; intros L g G (u & v & k & LE & GE).
  - cbn in GE. rewrite app_nil_r in GE. lia.
  - assert (TE : L ++ touches (e :: es) = (L ++ touches [e]) ++ touches es) by (rewrite <- app_assoc, <- touches_app; reflexivity).
    destruct e as [x y k'|t n].
    + destruct (Nat.eq_dec (klk (gdir (base g)) L x y k') 0) as [Z0|NZ].
      * destruct (@kev_spec (KLink x y k') L g G) as (g1 & E1 & G1 & D1 & N1); [intros _ _ a b c Q; injection Q as <- <- <-; exact Z0|]. cbn [iter]. rewrite E1. cbn [bind]. apply (IH _ _ G1). exists u, v, k. rewrite D1, <- TE. split; [|exact GE].
        rewrite klk_app. cbn [touches flat_map app]. rewrite klk_one. destruct (same_key (gdir (base g)) u v k (x, y, k')) eqn:Q; [|lia]. rewrite (klk_same _ _ _ _ _ _ _ _ Q), Z0. lia.
      * cbn [iter kev]. unfold touch_k. rewrite S1, W1. unfold touch_level, has_key. rewrite (has_met x y k' (g_tally G)). destruct (Nat.eqb_spec (klk (gdir (base g)) L x y k') 0); [congruence|]. reflexivity.
    + destruct (@kev_spec (KTick t n) L g G) as (g1 & E1 & G1 & D1 & N1); [discriminate|]. cbn [iter]. rewrite E1. cbn [bind]. apply (IH _ _ G1). exists u, v, k. rewrite D1, <- TE. split; [|exact GE]. cbn [touches flat_map]. rewrite app_nil_r. exact LE.
Qed.
Lemma good_empty d : good [] (empty_mgraph d).
Proof. constructor; cbn [base keyed empty_mgraph]; [apply WF_empty|intros u v k; reflexivity|intros n; exact Logic.I|intros e []]. Qed.

(** steps without keys, each link made once for each key *)
Definition expand (ks : list K) (es : list (event (N:=N) T)) : list (kevent T) :=
  flat_map (fun e => match e with Link u v => map (KLink u v) ks | Tick t n => [KTick t n] end) es.
Lemma expand_app ks es fs : expand ks (es ++ fs) = expand ks es ++ expand ks fs.
Proof. apply flat_map_app. Qed.
Lemma klk_expand d ks es u v k : klk d (touches (expand ks es)) u v k = lk d (links_of es) u v * count k ks.
Proof.
  induction es as [|e es IH]; [reflexivity|]. cbn [expand flat_map]. rewrite touches_app, klk_app. fold (expand ks es). rewrite IH. destruct e as [x y|t n].
  - change (lk d (links_of (Link x y :: es)) u v) with ((if same_edge d x y u v then 1 else 0) + lk d (links_of es) u v). rewrite Nat.mul_add_distr_r. apply Nat.add_cancel_r. clear.
    induction ks as [|k0 ks IHk]; [cbn; lia|]. change (klk d (touches (map (KLink x y) (k0 :: ks))) u v k) with ((if same_key d u v k (x, y, k0) then 1 else 0) + klk d (touches (map (KLink x y) ks)) u v k). rewrite IHk. cbn [count]. unfold same_key. cbn [fst snd]. rewrite (eqb_sym k0 k). destruct (same_edge d x y u v), (eqb k k0); cbn; lia.
  - reflexivity.
Qed.
Lemma erase_expand ks es : map erase (expand ks es) = flat_map (fun e => match e with Link u v => repeat (Link u v) (length ks) | Tick t n => [Tick t n] end) es.
Proof.
  induction es as [|e es IH]; [reflexivity|]. cbn [expand flat_map]. rewrite map_app. fold (expand ks es). rewrite IH. f_equal. destruct e as [x y|t n]; [|reflexivity]. clear. induction ks as [|k ks IH]; [reflexivity|]. cbn. rewrite IH. reflexivity.
Qed.
End Run.
End Facts.
Arguments KLink {N K T} u v k.
Arguments KTick {N K T} t n.
