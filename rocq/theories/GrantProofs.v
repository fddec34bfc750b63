(** Proofs about NSERC grants. *)
From Coq Require Import List ZArith Lia Bool Arith.
From Coq Require Import String.
From Verif Require Import Base PyStr SeriesSpec GrantModel GrantSpec.
Import ListNotations.
Local Open Scope list_scope.

Definition texts (d : gfields) : Prop := NoDup (dkeys d) /\ forall f v, In (f, v) d -> exists s, v = GText s.
Definition glue (a b : str) : str := match b with [] => a | _ => match a with [] => b | _ => a ++ $"; " ++ b end end.
Lemma glue_assoc a b c : glue (glue a b) c = glue a (glue b c).
Proof.
  destruct c as [|z c]; [reflexivity|]. destruct b as [|y b]; [reflexivity|]. destruct a as [|x a]; [reflexivity|]. cbn [glue app].
  change (glue (x :: a) (y :: b)) with (x :: a ++ $"; " ++ y :: b). cbn [glue]. rewrite <- !app_assoc. reflexivity.
Qed.
Lemma glue_nil a : glue [] a = a.
Proof. destruct a; reflexivity. Qed.
Lemma join_glue (l m : list str) : forallb not_empty l = true -> forallb not_empty m = true -> join $"; " (l ++ m) = glue (join $"; " l) (join $"; " m).
Proof.
  intros Fl Fm. induction l as [|x l IH]; [cbn [app join]; symmetry; apply glue_nil|]. cbn [forallb] in Fl. apply andb_prop in Fl as [Fx Fl]. specialize (IH Fl). destruct x as [|cx x]; [discriminate|].
  destruct l as [|y l].
  - cbn [app]. destruct m as [|z m]; [reflexivity|]. cbn [forallb] in Fm. apply andb_prop in Fm as [Fz _]. destruct z as [|cz z]; [discriminate|]. change (join $"; " ((cx :: x) :: (cz :: z) :: m)) with ((cx :: x) ++ $"; " ++ join $"; " ((cz :: z) :: m)).
    change (join $"; " [cx :: x]) with (cx :: x). destruct (join $"; " ((cz :: z) :: m)) as [|q J] eqn:E; [exfalso; destruct m; discriminate E|]. unfold str, char in *. rewrite ?E. reflexivity.
  - change (join $"; " (((cx :: x) :: y :: l) ++ m)) with ((cx :: x) ++ $"; " ++ join $"; " ((y :: l) ++ m)). rewrite IH. change (join $"; " ((cx :: x) :: y :: l)) with ((cx :: x) ++ $"; " ++ join $"; " (y :: l)).
    destruct (join $"; " m) as [|q J]; [reflexivity|]. destruct (join $"; " (y :: l)) as [|q' J'] eqn:E.
    + exfalso. cbn [forallb] in Fl. apply andb_prop in Fl as [Fy _]. destruct y; [discriminate|]. destruct l; discriminate E.
    + cbn [glue app]. rewrite <- !app_assoc. cbn [app]. reflexivity.
Qed.
Lemma merged_app f a b : merged f (a ++ b) = glue (merged f a) (merged f b).
Proof.
  unfold merged. rewrite map_app, filter_app. apply join_glue; apply forallb_forall; intros x I1; apply filter_In in I1; tauto.
Qed.
Lemma merged_one f r : merged f [r] = text_of f r.
Proof. unfold merged. cbn [map filter]. destruct (text_of f r); reflexivity. Qed.

Lemma dget_text d f : texts d -> dget f d = None \/ exists s, dget f d = Some (GText s).
Proof. intros [_ T]. destruct (dget f d) as [v|] eqn:E; [right|left; reflexivity]. apply dget_In in E. destruct (T _ _ E) as [s ->]. eauto. Qed.
Lemma texts_dset d f s : texts d -> texts (dset f (GText s) d).
Proof.
  intros [ND T]. split; [apply NoDup_dset; exact ND|]. intros g v I1. destruct (eq_dec g f) as [->|NE].
  - pose proof (In_dget _ _ _ (NoDup_dset f (GText s) d ND) I1) as E. rewrite dget_dset_same in E. injection E as <-. eauto.
  - pose proof (In_dget _ _ _ (NoDup_dset f (GText s) d ND) I1) as E. rewrite dget_dset_other in E by exact NE. apply dget_In in E. eauto.
Qed.
Lemma text_dset d f s g : text_of g (dset f (GText s) d) = if eqb g f then s else text_of g d.
Proof. unfold text_of. destruct (eqb_spec g f) as [->|NE]; [rewrite dget_dset_same; reflexivity|rewrite dget_dset_other by exact NE; reflexivity]. Qed.
Lemma update_spec : forall items d, texts items -> texts d -> exists d', update_fields items d = (d', None) /\ texts d' /\ forall f, text_of f d' = glue (text_of f d) (text_of f items).
Proof.
  induction items as [|[f v] items IH]; intros d TI TD.
  - exists d. split; [reflexivity|]. split; [exact TD|]. reflexivity.
  - assert (TI' : texts items). { destruct TI as [ND T]. inversion ND; subst. split; [assumption|]. intros g w I1. apply (T g w). now right. }
    destruct TI as [ND T]. destruct (T f v (or_introl eq_refl)) as [s ->]. inversion ND as [|? ? NF _]; subst.
    assert (NT : text_of f items = []). { unfold text_of. rewrite (proj2 (dget_None f items) NF). reflexivity. }
    assert (TX : forall g, text_of g ((f, GText s) :: items) = if eqb g f then s else text_of g items) by (intros g; unfold text_of; cbn [dget]; destruct (eqb g f); reflexivity).
    cbn [update_fields]. destruct (eqb_spec (GText s) (GText [])) as [E|NE].
    + injection E as ->. destruct (IH d TI' TD) as (d' & E & T' & X). exists d'. split; [exact E|]. split; [exact T'|]. intros g. rewrite X, TX. destruct (eqb_spec g f) as [->|]; [rewrite NT; reflexivity|reflexivity].
    + destruct s as [|c s]; [congruence|].
      assert (ST : forall u, glue (text_of f d) (c :: s) = u -> exists d', update_fields items (dset f (GText u) d) = (d', None) /\ texts d' /\ forall g, text_of g d' = glue (text_of g d) (text_of g ((f, GText (c :: s)) :: items))).
      { intros u U. destruct (IH (dset f (GText u) d) TI' (texts_dset d f u TD)) as (d' & E & T' & X). exists d'. split; [exact E|]. split; [exact T'|]. intros g. rewrite X, text_dset, TX. destruct (eqb_spec g f) as [->|]; [|reflexivity]. rewrite NT. symmetry. exact U. }
      destruct (dget_text d f TD) as [G|[u G]]; rewrite G.
      * apply ST. unfold text_of. rewrite G. reflexivity.
      * destruct u as [|cu u]; apply ST; unfold text_of; rewrite G; reflexivity.
Qed.

Definition pre (c : str) : str := $"NSERC:" ++ c.
Lemma pre_inj c c' : pre c = pre c' -> c = c'.
Proof. apply app_inv_head. Qed.
Definition gm (c : str) (d : gfields) : member := mkMember (KGood NSERCG (pre c)) (mkGrant NSERCG (pre c) false None d).
Definition mem_of (l : dict str gfields) : gset := map (fun x => gm (fst x) (snd x)) l.
Lemma gfinds_gm c d c' d' : gfinds (m_grant (gm c d)) (gm c' d') = eqb c c'.
Proof.
  unfold gfinds, gm. cbn. destruct (eqb_spec c c') as [->|NE]; [rewrite !eqb_refl; reflexivity|]. rewrite (@neq_eqb gkey _ (KGood NSERCG (pre c')) (KGood NSERCG (pre c))); [reflexivity|]. intros E. injection E as E. apply NE. symmetry. first [exact E | exact (pre_inj _ _ E)].
Qed.
Lemma gmem_gm c d l : gmem (m_grant (gm c d)) (mem_of l) = dhas c l.
Proof.
  rewrite dhas_dget. induction l as [|[c' d'] l IH]; [reflexivity|]. unfold gmem in *. cbn [mem_of map existsb fst snd dget]. rewrite gfinds_gm. destruct (eqb c c'); [reflexivity|exact IH].
Qed.
Lemma nserc_good hash l r : row_ok r -> nserc hash l r = m_grant (gm (cle r) r).
Proof. intros (_ & _ & c & NE & E). unfold nserc, cle, text_of. rewrite E. destruct c; [congruence|reflexivity]. Qed.
Lemma row_texts r : row_ok r -> texts r.
Proof. intros (ND & T & _). split; assumption. Qed.
Lemma update_first_spec c r : texts r -> forall l d, dget c l = Some d -> texts d ->
  exists d', update_first (m_grant (gm c r)) (mem_of l) = (mem_of (dset c d' l), None) /\ texts d' /\ forall f, text_of f d' = glue (text_of f d) (text_of f r).
Proof.
  intros TR. induction l as [|[c' d0] l IH]; intros d G TD; [discriminate|]. cbn [dget] in G. cbn [mem_of map fst snd update_first dset]. destruct (eqb_spec c c') as [->|NE].
  - injection G as ->. unfold gm at 1. cbn [m_grant]. rewrite eqb_refl. unfold nserc_update. cbn [g_data g_kind g_id g_bad g_err m_key m_grant gm].
    destruct (update_spec r d TR TD) as (d' & E & T' & X). rewrite E. exists d'. split; [reflexivity|]. split; assumption.
  - replace (eqb (gkey_of (m_grant (gm c' d0))) (gkey_of (m_grant (gm c r)))) with false.
    + destruct (IH d G TD) as (d' & E & T' & X). exists d'. split; [|split; assumption]. unfold mem_of in E. rewrite E. reflexivity.
    + symmetry. apply neq_eqb. cbn. intros E. injection E as E. apply NE. symmetry. first [exact E | exact (pre_inj _ _ E)].
Qed.

(** ** One file *)
Definition kept (rows : list gfields) (l : dict str gfields) : Prop :=
  map fst l = first_seen (map cle rows) /\ forall c d, In (c, d) l -> texts d /\ forall f, text_of f d = merged f (rows_with c rows).
Lemma first_seen_In {A} `{EqDec A} (x : A) l : In x (first_seen l) <-> In x l.
Proof.
  induction l as [|y l IH]; [reflexivity|]. cbn [first_seen In]. rewrite filter_In, IH. destruct (eqb_spec x y) as [->|NE]; cbn; [tauto|]. split; intros [E|E]; try (left; congruence); try (right; tauto).
Qed.
Lemma first_seen_NoDup {A} `{EqDec A} (l : list A) : NoDup (first_seen l).
Proof.
  induction l as [|y l IH]; [constructor|]. cbn [first_seen]. constructor; [|apply NoDup_filter; exact IH]. rewrite filter_In, eqb_refl. intros [_ E]. discriminate.
Qed.
Lemma filter_filter {A} (p q : A -> bool) l : filter p (filter q l) = filter (fun x => q x && p x) l.
Proof. induction l as [|x l IH]; [reflexivity|]. cbn [filter]. destruct (q x); cbn [filter andb]; [destruct (p x)|]; rewrite IH; reflexivity. Qed.
Lemma first_seen_app {A} `{EqDec A} (l m : list A) : first_seen (l ++ m) = first_seen l ++ filter (fun x => negb (mem x l)) (first_seen m).
Proof.
  induction l as [|y l IH]; cbn [app first_seen].
  - induction (first_seen m) as [|z k IHk]; [reflexivity|]. cbn in *. f_equal. exact IHk.
  - rewrite IH, filter_app. f_equal. f_equal. rewrite filter_filter. apply filter_ext. intros x. unfold mem. cbn [existsb]. destruct (existsb (eqb x) l), (eqb x y); reflexivity.
Qed.
Lemma kept_NoDup rows l : kept rows l -> NoDup (dkeys l).
Proof. intros [E _]. unfold dkeys. rewrite E. apply first_seen_NoDup. Qed.
Lemma rows_with_app c a b : rows_with c (a ++ b) = rows_with c a ++ rows_with c b.
Proof. apply filter_app. Qed.
Lemma rows_with_none c rows : ~ In c (map cle rows) -> rows_with c rows = [].
Proof.
  induction rows as [|r rows IH]; intros N; [reflexivity|]. unfold rows_with in *. cbn [filter]. destruct (eqb_spec (cle r) c) as [E|_]; [exfalso; apply N; left; exact E|]. apply IH. intros I1. apply N. now right.
Qed.
Lemma dkeys_dset_in {V} (c : str) (v : V) l : In c (dkeys l) -> dkeys (dset c v l) = dkeys l.
Proof. intros I1. rewrite dkeys_dset. apply dhas_spec in I1. rewrite I1. reflexivity. Qed.
Lemma file_spec hash : forall rows done l, Forall row_ok (map snd rows) -> kept done l ->
  exists l', nserc_rows hash rows None (mem_of l) = (mem_of l', None) /\ kept (done ++ map snd rows) l'.
Proof.
  induction rows as [|[ln r] rows IH]; intros done l F K.
  - exists l. cbn [map]. rewrite app_nil_r. split; [reflexivity|exact K].
  - cbn [map snd] in F. inversion F as [|? ? R F']; subst. cbn [nserc_rows]. rewrite (nserc_good hash ln r R). pose proof (row_texts r R) as TR. pose proof (kept_NoDup done l K) as ND. destruct K as [K1 K2].
    assert (SN : forall l1, kept (done ++ [r]) l1 -> exists l', nserc_rows hash rows None (mem_of l1) = (mem_of l', None) /\ kept (done ++ map snd ((ln, r) :: rows)) l').
    { intros l1 K. destruct (IH (done ++ [r]) l1 F' K) as (l' & E & K'). exists l'. split; [exact E|]. cbn [map snd]. rewrite <- app_assoc in K'. exact K'. }
    assert (FS : first_seen (map cle (done ++ [r])) = if mem (cle r) (map cle done) then first_seen (map cle done) else first_seen (map cle done) ++ [cle r]).
    { rewrite map_app, first_seen_app. cbn [map first_seen filter]. destruct (mem (cle r) (map cle done)); cbn [negb]; [apply app_nil_r|reflexivity]. }
    rewrite gmem_gm. rewrite dhas_dget. destruct (dget (cle r) l) as [d|] eqn:G.
    + destruct (K2 _ _ (dget_In _ _ G)) as [TD X]. destruct (update_first_spec (cle r) r TR l d G TD) as (d' & E & T' & X'). rewrite E. apply SN.
      assert (I1 : In (cle r) (dkeys l)) by (eapply dget_Some_key; exact G). split.
      * change (map fst (dset (cle r) d' l)) with (dkeys (dset (cle r) d' l)). rewrite (dkeys_dset_in _ _ _ I1). unfold dkeys in *. rewrite K1 in I1 |- *. rewrite first_seen_In in I1. apply mem_In in I1. rewrite FS, I1. reflexivity.
      * intros c d0 I2. pose proof (In_dget _ _ _ (NoDup_dset _ d' _ ND) I2) as G0. destruct (eq_dec c (cle r)) as [->|NE].
        -- rewrite dget_dset_same in G0. injection G0 as <-. split; [exact T'|]. intros f. rewrite X', X, rows_with_app, merged_app. unfold rows_with at 3. cbn [filter]. rewrite eqb_refl, merged_one. reflexivity.
        -- rewrite dget_dset_other in G0 by exact NE. destruct (K2 _ _ (dget_In _ _ G0)) as [T0 X0]. split; [exact T0|]. intros f. rewrite X0, rows_with_app. unfold rows_with at 3. cbn [filter]. destruct (eqb_spec (cle r) c); [congruence|]. rewrite app_nil_r. reflexivity.
    + assert (GA : gadd (m_grant (gm (cle r) r)) (mem_of l) = mem_of (l ++ [(cle r, r)])) by (unfold gadd; rewrite gmem_gm, dhas_dget, G; unfold mem_of; rewrite map_app; reflexivity). rewrite GA. apply SN.
      apply dget_None in G. unfold dkeys in G. rewrite K1, first_seen_In in G. pose proof (proj2 (mem_not_In (cle r) (map cle done)) G) as M. split.
      * rewrite map_app, K1, FS, M. reflexivity.
      * intros c d0 I2. apply in_app_iff in I2 as [I2|[I2|[]]].
        -- destruct (K2 _ _ I2) as [T0 X0]. split; [exact T0|]. intros f. rewrite X0, rows_with_app. unfold rows_with at 3. cbn [filter]. destruct (eqb_spec (cle r) c) as [E|_]; [|rewrite app_nil_r; reflexivity]. exfalso. apply G. rewrite E. rewrite <- first_seen_In, <- K1. apply in_map_iff. exists (c, d0). auto.
        -- injection I2 as <- <-. split; [exact TR|]. intros f. rewrite rows_with_app, (rows_with_none _ _ G). unfold rows_with. cbn [filter app]. rewrite eqb_refl, merged_one. reflexivity.
Qed.
Lemma kept_nil : kept [] [].
Proof. split; [reflexivity|]. intros c d []. Qed.
Lemma kept_merges rows l : kept rows l -> merges rows (map m_grant (mem_of l)).
Proof.
  intros [K1 K2]. unfold merges. rewrite <- K1. unfold mem_of. rewrite map_map. revert K2. clear K1. induction l as [|[c d] l IH]; intros K2; [constructor|]. cbn [map fst snd]. constructor.
  - split; [reflexivity|]. split; [reflexivity|]. split; [reflexivity|]. apply (K2 c d). now left.
  - apply IH. intros; apply K2; now right.
Qed.

(** ** Several files *)
Definition shared (new s : dict str gfields) : dict str gfields := filter (fun x => dhas (fst x) s) new.
Lemma overlap_spec s : forall new o, NoDup (dkeys o ++ map (fun x => pre (fst x)) (shared new s)) ->
  fold_left (fun o m => if gmem (m_grant m) (mem_of s) then dset (g_id (m_grant m)) (m_grant m) o else o) (mem_of new) o = o ++ map (fun x => (pre (fst x), m_grant (gm (fst x) (snd x)))) (shared new s).
Proof.
  induction new as [|[c d] new IH]; intros o ND; [cbn; rewrite app_nil_r; reflexivity|]. cbn [mem_of map fold_left fst snd]. rewrite gmem_gm. unfold shared in *. cbn [filter fst] in *. destruct (dhas c s).
  - cbn [map fst snd] in *. change (g_id (m_grant (gm c d))) with (pre c). assert (NK : ~ In (pre c) (dkeys o)). { intros I1. apply NoDup_remove_2 in ND. apply ND. apply in_app_iff. left. exact I1. }
    assert (E : dset (pre c) (m_grant (gm c d)) o = o ++ [(pre c, m_grant (gm c d))]).
    { clear -NK. induction o as [|[k v] o IH]; [reflexivity|]. cbn [dset]. destruct (eqb_spec (pre c) k) as [E|_]; [exfalso; apply NK; left; symmetry; exact E|]. cbn [app]. rewrite IH; [reflexivity|]. intros I1. apply NK. now right. }
    rewrite E. fold (mem_of new). rewrite IH; [rewrite <- app_assoc; reflexivity|]. unfold dkeys. rewrite map_app. cbn [map fst]. rewrite <- app_assoc. exact ND.
  - fold (mem_of new). apply IH. exact ND.
Qed.
Lemma filter_all {A} (p : A -> bool) l : (forall x, In x l -> p x = true) -> filter p l = l.
Proof. induction l as [|x l IH]; intros F; [reflexivity|]. cbn [filter]. rewrite (F x (or_introl eq_refl)), IH; [reflexivity|]. intros; apply F; now right. Qed.
Lemma dkeys_filter (p : str -> bool) (q : str * gfields -> bool) l : (forall k v, q (k, v) = p k) -> dkeys (filter q l) = filter p (dkeys l).
Proof. intros Q. induction l as [|[k v] l IH]; [reflexivity|]. cbn [filter dkeys map fst]. rewrite Q. unfold dkeys in IH. destruct (p k); cbn [map fst]; rewrite IH; reflexivity. Qed.
Lemma gremove_spec c d : forall l, NoDup (dkeys l) -> In c (dkeys l) -> gremove (m_grant (gm c d)) (mem_of l) = Ok (mem_of (filter (fun x => negb (eqb (fst x) c)) l)).
Proof.
  induction l as [|[c' d'] l IH]; intros ND I1; [destruct I1|]. inversion ND as [|? ? NI ND']; subst. cbn [mem_of map fst snd gremove filter]. rewrite gfinds_gm, (eqb_sym c' c). destruct (eqb_spec c c') as [<-|NE]; cbn [negb].
  - f_equal. unfold mem_of. f_equal. rewrite filter_all; [reflexivity|].  intros [k v] I2. cbn. destruct (eqb_spec k c) as [->|]; [|reflexivity]. exfalso. apply NI. apply in_map_iff. exists (c, v). auto.
  - destruct I1 as [E|I1]; [exfalso; apply NE; symmetry; exact E|]. unfold mem_of in IH. rewrite (IH ND' I1). reflexivity.
Qed.
Lemma remove_all_spec : forall sub l, NoDup (dkeys l) -> NoDup (map fst sub) -> (forall x, In x sub -> In (fst x) (dkeys l)) ->
  remove_all (map (fun x => m_grant (gm (fst x) (snd x))) sub) (mem_of l) = Ok (mem_of (filter (fun x => negb (mem (fst x) (map fst sub))) l)).
Proof.
  induction sub as [|[c d] sub IH]; intros l ND NS SB.
  - cbn. f_equal. f_equal. induction l as [|x l IHl]; [reflexivity|]. cbn. f_equal. apply IHl; [inversion ND; assumption|]. intros x0 [].
  - cbn [map remove_all fst snd]. inversion NS as [|? ? NC NS']; subst. rewrite (gremove_spec c d l ND (SB _ (or_introl eq_refl))). cbn [bind].
    rewrite IH.
    + f_equal. f_equal. rewrite filter_filter. apply filter_ext. intros [k v]. unfold mem. cbn [existsb map fst]. destruct (eqb k c), (existsb (eqb k) (map fst sub)); reflexivity.
    + rewrite (dkeys_filter (fun k => negb (eqb k c))) by reflexivity. apply NoDup_filter. exact ND.
    + exact NS'.
    + intros x I1. rewrite (dkeys_filter (fun k => negb (eqb k c))) by reflexivity. apply filter_In. split; [apply SB; now right|]. destruct (eqb_spec (fst x) c) as [E|]; [|reflexivity]. exfalso. apply NC. rewrite <- E. apply in_map. exact I1.
Qed.
Lemma dget_pre (sub : dict str gfields) c : dget (pre c) (map (fun x => (pre (fst x), m_grant (gm (fst x) (snd x)))) sub) = option_map (fun d => m_grant (gm c d)) (dget c sub).
Proof.
  induction sub as [|[c' d] sub IH]; [reflexivity|]. cbn [map dget fst snd]. destruct (eqb_spec c c') as [->|NE]; [rewrite eqb_refl; reflexivity|]. destruct (eqb_spec (pre c) (pre c')) as [E|_]; [exfalso; exact (NE (pre_inj _ _ E))|exact IH].
Qed.
Lemma update_all_spec (sub : dict str gfields) : (forall c d, In (c, d) sub -> texts d) -> forall l, (forall c d, In (c, d) l -> texts d) ->
  exists l', update_all (map (fun x => (pre (fst x), m_grant (gm (fst x) (snd x)))) sub) (mem_of l) = Ok (mem_of l') /\
    Forall2 (fun x y => fst x = fst y /\ texts (snd y) /\ forall f, text_of f (snd y) = glue (text_of f (snd x)) (match dget (fst x) sub with Some d => text_of f d | None => [] end)) l l'.
Proof.
  intros TS. pose proof (dget_pre sub) as DG. set (o := map (fun x => (pre (fst x), m_grant (gm (fst x) (snd x)))) sub) in *. clearbody o. induction l as [|[c d] l IH]; intros TL; [exists []; split; [reflexivity|constructor]|].
  destruct (IH (fun c d I1 => TL c d (or_intror I1))) as (l' & E & F). cbn [mem_of map update_all fst snd m_grant gm g_id g_kind m_key]. rewrite DG. fold (mem_of l). destruct (dget c sub) as [d1|] eqn:G; cbn [option_map].
  - unfold nserc_update. cbn [g_data m_grant gm g_kind g_id g_bad g_err]. destruct (update_spec d1 d) as (d' & E' & T' & X); [apply (TS c); apply dget_In; exact G|apply (TL c); now left|]. rewrite E', E. cbn [bind]. exists ((c, d') :: l'). split; [reflexivity|]. constructor; [|exact F]. cbn [fst snd]. rewrite G. split; [reflexivity|]. split; assumption.
  - rewrite E. cbn [bind]. exists ((c, d) :: l'). split; [reflexivity|]. constructor; [|exact F]. cbn [fst snd]. rewrite G. split; [reflexivity|]. split; [apply (TL c); now left|reflexivity].
Qed.
Lemma gjoin_new : forall t s, (forall c, In c (dkeys t) -> ~ In c (dkeys s)) -> NoDup (dkeys t) -> gjoin (mem_of s) (mem_of t) = mem_of (s ++ t).
Proof.
  induction t as [|[c d] t IH]; intros s DJ ND; [rewrite app_nil_r; reflexivity|]. inversion ND as [|? ? NI ND']; subst. unfold gjoin in *. cbn [mem_of map fold_left fst snd].
  assert (X : existsb (fun m' => eqb (m_key m') (m_key (gm c d)) && eqb (gkey_of (m_grant m')) (gkey_of (m_grant (gm c d)))) (mem_of s) = false).
  { pose proof (gmem_gm c d s) as M. unfold gmem, gfinds in M. transitivity (dhas c s); [exact M|]. destruct (dhas c s) eqn:Q; [|reflexivity]. apply dhas_spec in Q. exfalso. apply (DJ c); [now left|exact Q]. }
  rewrite X. fold (mem_of t). replace (mem_of s ++ [gm c d]) with (mem_of (s ++ [(c, d)])) by (unfold mem_of; rewrite map_app; reflexivity). rewrite IH; [rewrite <- app_assoc; reflexivity| |exact ND'].
  intros k I1 I2. unfold dkeys in I2. rewrite map_app in I2. apply in_app_iff in I2 as [I2|[I2|[]]]; [apply (DJ k); [now right|exact I2]|]. cbn in I2. subst k. exact (NI I1).
Qed.
Lemma update_all_nil : forall s, update_all [] s = Ok s.
Proof. induction s as [|m s IH]; [reflexivity|]. cbn [update_all dget]. rewrite IH. reflexivity. Qed.
Lemma meets_shared l1 l2 : meets (mem_of l1) (mem_of l2) = existsb (fun x => dhas (fst x) l1) l2.
Proof. unfold meets, mem_of at 2. induction l2 as [|[c d] l2 IH]; [reflexivity|]. cbn [map existsb fst snd]. rewrite IH. f_equal. exact (gmem_gm c d l1). Qed.
Lemma merge_same l1 l2 : merge_nserc (mem_of l1) (mem_of l2) = merge_body (mem_of l1) (mem_of l2).
Proof.
  unfold merge_nserc. rewrite meets_shared. destruct (existsb _ l2) eqn:E; [reflexivity|]. unfold merge_body, overlap. rewrite overlap_spec; replace (shared l2 l1) with (@nil (str * gfields)).
  - cbn [map app dvals remove_all bind]. rewrite update_all_nil. reflexivity.
  - unfold shared. induction l2 as [|x l2 IH]; [reflexivity|]. cbn [existsb filter] in *. apply orb_false_elim in E as [-> E]. exact (IH E).
  - constructor.
  - unfold shared. induction l2 as [|x l2 IH]; [reflexivity|]. cbn [existsb filter] in *. apply orb_false_elim in E as [-> E]. exact (IH E).
Qed.
Lemma merge_spec rows1 rows2 l1 l2 : kept rows1 l1 -> kept rows2 l2 -> exists l, merge_nserc (mem_of l1) (mem_of l2) = Ok (mem_of l) /\ kept (rows1 ++ rows2) l.
Proof.
  intros K1 K2. pose proof (kept_NoDup _ _ K1) as ND1. pose proof (kept_NoDup _ _ K2) as ND2. destruct K1 as [A1 B1], K2 as [A2 B2].
  assert (NS : NoDup (dkeys (shared l2 l1))) by (unfold shared; rewrite (dkeys_filter (fun k => dhas k l1)) by reflexivity; apply NoDup_filter; exact ND2).
  rewrite merge_same. unfold merge_body, overlap. rewrite overlap_spec.
  2: { cbn [dkeys map app]. rewrite <- (map_map fst pre). apply FinFun.Injective_map_NoDup; [intros x y; apply pre_inj|exact NS]. }
  cbn [app]. unfold dvals. rewrite map_map. cbn [snd]. rewrite remove_all_spec; [|exact ND2|exact NS|].
  2: { intros x I1. unfold shared in I1. apply filter_In in I1. apply in_map. apply I1. }
  cbn [bind]. destruct (update_all_spec (shared l2 l1)) with (l := l1) as (l1' & E & F).
  { intros c d I1. unfold shared in I1. apply filter_In in I1. apply (B2 c d). apply I1. }
  { intros c d I1. apply (B1 c d I1). }
  rewrite E. cbn [bind].
  assert (KE : dkeys l1' = dkeys l1). { clear -F. induction F as [|x y l l' [E _] F IH]; [reflexivity|]. cbn. unfold dkeys in IH. rewrite IH, E. reflexivity. }
  set (rest := filter (fun x : str * gfields => negb (mem (fst x) (map fst (shared l2 l1)))) l2).
  assert (RK : forall k, In k (dkeys rest) -> ~ In k (dkeys l1)).
  { intros k I1 I2. unfold rest in I1. rewrite (dkeys_filter (fun k => negb (mem k (map fst (shared l2 l1))))) in I1 by reflexivity. apply filter_In in I1 as [I1 N]. apply negb_true_iff in N. apply mem_not_In in N. apply N. change (map fst (shared l2 l1)) with (dkeys (shared l2 l1)). unfold shared. rewrite (dkeys_filter (fun k => dhas k l1)) by reflexivity. apply filter_In. split; [exact I1|]. apply dhas_spec. exact I2. }
  exists (l1' ++ rest). split.
  - f_equal. apply gjoin_new.
    + intros k I1. rewrite KE. apply RK. exact I1.
    + unfold rest. rewrite (dkeys_filter (fun k => negb (mem k (map fst (shared l2 l1))))) by reflexivity. apply NoDup_filter. exact ND2.
  - split.
    + rewrite map_app. unfold dkeys in KE. rewrite KE, A1, map_app, first_seen_app. f_equal. rewrite <- A2. change (map fst rest) with (dkeys rest). unfold rest. rewrite (dkeys_filter (fun k => negb (mem k (map fst (shared l2 l1))))) by reflexivity. apply filter_ext_in. intros k I1. f_equal.
      destruct (mem k (map cle rows1)) eqn:M.
      * apply mem_In. change (map fst (shared l2 l1)) with (dkeys (shared l2 l1)). unfold shared. rewrite (dkeys_filter (fun k => dhas k l1)) by reflexivity. apply filter_In. split; [exact I1|]. apply dhas_spec. unfold dkeys. rewrite A1. apply first_seen_In. apply mem_In. exact M.
      * apply mem_not_In. intros I2. change (map fst (shared l2 l1)) with (dkeys (shared l2 l1)) in I2. unfold shared in I2. rewrite (dkeys_filter (fun k => dhas k l1)) in I2 by reflexivity. apply filter_In in I2 as [_ I2]. apply dhas_spec in I2. unfold dkeys in I2. rewrite A1 in I2. apply (proj1 (first_seen_In _ _)) in I2. apply mem_not_In in M. exact (M I2).
    + intros c d I1. apply in_app_iff in I1 as [I1|I1].
      * assert (X : exists d0, In (c, d0) l1 /\ texts d /\ forall f, text_of f d = glue (text_of f d0) (match dget c (shared l2 l1) with Some d1 => text_of f d1 | None => [] end)).
        { clear -F I1. generalize dependent (shared l2 l1). intros sh F. induction F as [|[c0 d0] [c1 d1] l l' [E [T X]] F IH]; [destruct I1|]. cbn [fst snd] in *. destruct I1 as [I1|I1]; [injection I1 as <- <-; subst c0; exists d0; split; [left; reflexivity|]; split; [exact T|exact X]|]. destruct (IH I1) as (d2 & I2 & Y). exists d2. split; [now right|exact Y]. }
        destruct X as (d0 & I0 & TD & X). split; [exact TD|]. intros f. rewrite X, rows_with_app, merged_app. destruct (B1 c d0 I0) as [_ X0]. rewrite X0. f_equal.
        destruct (dget c (shared l2 l1)) as [d1|] eqn:G.
        -- apply dget_In in G. unfold shared in G. apply filter_In in G. apply (B2 c d1). apply G.
        -- apply dget_None in G. rewrite rows_with_none; [reflexivity|]. intros I2. apply G. unfold shared. rewrite (dkeys_filter (fun k => dhas k l1)) by reflexivity. apply filter_In. split; [unfold dkeys; rewrite A2; apply first_seen_In; exact I2|]. apply dhas_spec. apply in_map_iff. exists (c, d0). auto.
      * assert (NI : ~ In c (dkeys l1)) by (apply RK; apply in_map_iff; exists (c, d); auto). unfold rest in I1. apply filter_In in I1 as [I1 _]. destruct (B2 c d I1) as [TD X]. split; [exact TD|]. intros f. rewrite X, rows_with_app, merged_app, (rows_with_none c rows1); [cbn; symmetry; apply glue_nil|]. intros I2. apply NI. unfold dkeys. rewrite A1. apply first_seen_In. exact I2.
Qed.
Lemma files_spec hash : forall files done l errs, Forall (fun x => Forall row_ok (map snd (fst (snd x))) /\ snd (snd x) = None) files -> kept done l ->
  exists l', nserc_files hash files (mem_of l) errs = Ok (mem_of l', errs) /\ kept (done ++ flat_map (fun x => map snd (fst (snd x))) files) l'.
Proof.
  induction files as [|[f [rows ended]] files IH]; intros done l errs F K.
  - exists l. cbn. rewrite app_nil_r. split; [reflexivity|exact K].
  - inversion F as [|? ? [R E] F']; subst. cbn [fst snd] in *. subst ended. cbn [nserc_files]. destruct (file_spec hash rows [] [] R kept_nil) as (l2 & E2 & K2). unfold nserc_file. change (@nil member) with (mem_of []). rewrite E2. cbn [app] in K2.
    destruct (merge_spec _ _ _ _ K K2) as (l3 & E3 & K3). rewrite E3. cbn [bind]. destruct (IH _ _ errs F' K3) as (l' & E4 & K4). exists l'. split; [exact E4|]. cbn [flat_map fst snd]. rewrite app_assoc. exact K4.
Qed.
