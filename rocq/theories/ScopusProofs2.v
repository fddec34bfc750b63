(** Proofs about Scopus records: writing, and files. *)
From Coq Require Import List Lia Bool Arith.
From Coq Require Import String.
From Verif Require Import Base PyStr Regex CollectionProofs JournalModel JournalProofs WosProofs ScopusModel ScopusSpec ScopusSpec2 ScopusProofs.
Import ListNotations.
Local Open Scope list_scope.

Lemma header_nodup : NoDup scopus_header.
Proof. apply nodupb_NoDup. vm_compute. reflexivity. Qed.
Definition quoted_cells (d : sfields) : list cell := map (fun k => Quoted (sget k d)) scopus_header.
Lemma write_line d : write_scopus d ++ [nl] = line_of ([] ++ map cell_text (quoted_cells d)).
Proof. unfold line_of, write_scopus, quoted_cells. rewrite map_map. reflexivity. Qed.
Lemma round d : (forall k, In k scopus_header -> value_ok (column k d)) -> exists d', scopus_parse None (write_scopus d ++ [nl]) = Ok d' /\ filled d d'.
Proof.
  intros O. destruct (parse_cells scopus_header [] (quoted_cells d) header_nodup) as (d' & P & H1 & H2).
  - unfold quoted_cells. apply map_length.
  - unfold quoted_cells. apply Forall_map. apply Forall_forall. intros k I1. apply O, I1.
  - exists d'. split; [unfold scopus_parse; rewrite write_line; exact P|]. intros k. destruct (in_dec eq_dec k scopus_header) as [I1|NI]; [|apply H2, NI].
    apply In_nth_error in I1 as [i NI]. apply (H1 i k (Quoted (sget k d)) NI). unfold quoted_cells. exact (map_nth_error (fun k => Quoted (sget k d)) i scopus_header NI).
Qed.
Lemma EID_in : In $"EID" scopus_header.
Proof. apply mem_In. vm_compute. reflexivity. Qed.
Lemma round_record r : swritable r -> exists txt r', write_srec r = Ok txt /\ scopus_record None (txt ++ [nl]) = r' /\ same_srec r' r.
Proof.
  intros (B & ER & (e & GE & SE) & O). destruct (round (sdata r) O) as (d' & P & FD). exists (write_scopus (sdata r)), (mkSrec (sid r) d' false None). split; [unfold write_srec; rewrite B; reflexivity|]. split.
  - unfold scopus_record. rewrite P. unfold srec_of. rewrite (FD $"EID"). destruct (in_dec eq_dec $"EID" scopus_header) as [_|NI]; [|exfalso; apply NI, EID_in]. unfold column. rewrite GE, SE. reflexivity.
  - split; [reflexivity|]. cbn. split; [congruence|]. split; [congruence|exact FD].
Qed.
Lemma write_chars d c : In c (write_scopus d) -> c = comma \/ c = quo \/ exists k, In k scopus_header /\ In c (column k d).
Proof.
  unfold write_scopus. set (f := fun k => [quo] ++ sget k d ++ [quo]).
  assert (G : forall ks, (forall k, In k ks -> In k scopus_header) -> In c (join [comma] (map f ks)) -> c = comma \/ c = quo \/ exists k, In k scopus_header /\ In c (column k d)).
  { assert (F : forall k, In k scopus_header -> In c (f k) -> c = comma \/ c = quo \/ exists k, In k scopus_header /\ In c (column k d)).
    { intros k IK. unfold f. rewrite !in_app_iff. cbn. intros [[<-|[]]|[I1|[<-|[]]]]; [tauto| |tauto]. right. right. exists k. auto. }
    induction ks as [|k [|k' ks] IH]; intros S1 I1; [destruct I1|apply (F k); [apply S1; left; reflexivity|exact I1]|].
    change (join [comma] (map f (k :: k' :: ks))) with (f k ++ [comma] ++ join [comma] (map f (k' :: ks))) in I1. rewrite !in_app_iff in I1. destruct I1 as [I1|[[<-|[]]|I1]]; [apply (F k); [apply S1; left; reflexivity|exact I1]|tauto|]. apply IH; [|exact I1]. intros x I2. apply S1. right. exact I2. }
  apply G. auto.
Qed.
Lemma records_rows : forall rs, Forall swritable rs -> Forall one_line rs -> NoDup (map sid rs) ->
  exists L rs', write_srecs rs = Ok (concat L) /\ Forall full_line L /\ (forall l, In l L -> ~ In cr l) /\ Forall2 same_srec rs' rs /\
    forall recs, (forall r, In r rs -> ~ In (SGood (sid r)) (map skey_of recs)) -> fold_left (fun s l => sadd (scopus_record None l) s) L recs = recs ++ rs'.
Proof.
  induction rs as [|r rs IH]; intros F O ND.
  - exists [], []. split; [reflexivity|]. split; [constructor|]. split; [intros l []|]. split; [constructor|]. intros recs _. rewrite app_nil_r. reflexivity.
  - inversion F as [|? ? W F']; subst. inversion O as [|? ? OL O']; subst. cbn [map] in ND. inversion ND as [|? ? NI ND']; subst. destruct (IH F' O' ND') as (L & rs' & E1 & E2 & E3 & E4 & E5). clear IH.
    destruct (round_record r W) as (txt & r' & W1 & W2 & W3). exists ((txt ++ [nl]) :: L), (r' :: rs').
    assert (TX : txt = write_scopus (sdata r)) by (unfold write_srec in W1; destruct (sbad r); congruence).
    assert (NN : ~ In nl txt /\ ~ In cr txt).
    { rewrite TX. split; intros I1; apply write_chars in I1 as [C|[C|(k & IK & IC)]]; try discriminate; destruct (OL k IK) as [A B]; contradiction. }
    split; [|split; [|split; [|split]]].
    + cbn [write_srecs]. rewrite W1. cbn [bind]. rewrite E1. cbn [bind concat]. rewrite <- app_assoc. reflexivity.
    + constructor; [exists txt; split; [reflexivity|apply NN]|exact E2].
    + intros l [<-|I1]; [|apply E3, I1]. rewrite in_app_iff. intros [I1|[C|[]]]; [apply NN, I1|discriminate].
    + constructor; assumption.
    + intros recs NK. cbn [fold_left]. rewrite W2. assert (MK : skey_of r' = SGood (sid r)).
      { destruct W3 as (A & B & _). unfold skey_of. rewrite B, A. destruct W as [-> _]. reflexivity. }
      replace (sadd r' recs) with (recs ++ [r']).
      * rewrite E5; [rewrite <- app_assoc; reflexivity|]. intros x I1. rewrite map_app, in_app_iff. cbn [map In]. intros [C|[C|[]]]; [apply (NK x (or_intror I1) C)|]. rewrite MK in C. injection C as C. apply NI. rewrite C. apply in_map. exact I1.
      * unfold sadd. replace (mem (skey_of r') (map skey_of recs)) with false; [reflexivity|]. symmetry. apply mem_not_In. rewrite MK. apply NK. left. reflexivity.
Qed.
Definition header_line : str := join [comma] scopus_header ++ [nl].
Lemma header_read : header_of header_line = scopus_header.
Proof. vm_compute. reflexivity. Qed.
Lemma sfile_back rs : rs <> [] -> Forall swritable rs -> Forall one_line rs -> NoDup (map sid rs) ->
  exists txt rs', write_sfile rs = Ok txt /\ is_scopus_file txt = true /\ scopus_file txt = rs' /\ Forall2 same_srec rs' rs.
Proof.
  intros NE F O ND. destruct (records_rows rs F O ND) as (L & rs' & E1 & E2 & E3 & E4 & E5). exists (bom :: concat (header_line :: L)), rs'.
  assert (HF : full_line header_line) by (exists (join [comma] scopus_header); split; [reflexivity|]; apply mem_not_In; vm_compute; reflexivity).
  assert (HC : ~ In cr header_line) by (apply mem_not_In; vm_compute; reflexivity).
  assert (TR : translate (bom :: concat (header_line :: L)) = bom :: concat (header_line :: L)).
  { apply translate_id. intros [C|I1]; [discriminate|]. apply in_concat in I1 as (l & [<-|IL] & IC); [contradiction|apply (E3 l IL IC)]. }
  assert (LN : lines (concat (header_line :: L)) = header_line :: L).
  { assert (FL : Forall full_line (header_line :: L)) by (constructor; assumption). pose proof (@lines_app_full (header_line :: L) [] FL) as LA. rewrite app_nil_r in LA. rewrite LA. apply app_nil_r. }
  split; [|split; [|split]].
  - unfold write_sfile. destruct rs; [congruence|]. rewrite E1. cbn [bind concat]. unfold header_line. rewrite <- app_assoc. reflexivity.
  - unfold is_scopus_file. rewrite TR. change (eqb bom bom) with true. cbn [andb]. rewrite LN. cbn [nth existsb]. rewrite header_read. replace (sym_diff scopus_header scopus_header) with 0 by (vm_compute; reflexivity). reflexivity.
  - unfold scopus_file. rewrite TR. cbn [tl]. rewrite LN. rewrite header_read. replace (sym_diff scopus_header scopus_header) with 0 by (vm_compute; reflexivity). cbn [Nat.eqb tl]. rewrite E5; [reflexivity|]. intros r _ [].
  - exact E4.
Qed.
