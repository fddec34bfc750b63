(** * C18: the detailed information of the nodes of co-citation networks. *)
From Coq Require Import String Lia Permutation Sorting.Sorted.
From Verif Require Import Base PyStr Nx NxFacts RecordView RecordViewFacts NetModel NetSpec CiteNetModel CiteNetSpec PropertiesNet PropertiesCite YearsSpec YearsProofs.
Set Implicit Arguments.

(** a field of a record as an attribute: texts are as they are, lists are sorted and joined with bars *)
Definition shows_field (t : tval) (v : val) : Prop :=
  match t with
  | TStr s => v = VStr s
  | TList l => exists l', Permutation l l' /\ StronglySorted text_before l' /\ v = VStr (join $"|" l')
  | TVal w => v = w
  end.
Lemma detail_shows t : shows_field t (detail_val t).
Proof.
  destruct t as [s|l|v]; cbn [shows_field detail_val]; try reflexivity. exists (ssort (fun x => x) str_le l). split; [apply ssort_perm|]. split; [|reflexivity].
  pose proof (@ssort_ordered str str (fun x => x) str_le str_le_total str_le_trans l) as S. unfold ordered in S. induction S as [|x m S IH F]; constructor; [exact IH|].
  eapply Forall_impl; [|exact F]. intros y. apply str_le_text.
Qed.
(** C18: with detailed information the nodes of works that are records of the collection show the fields asked for. *)
Theorem C18_detailed :
  forall (I C R : Type) (E : EqDec I) (api : cite_api C I) (rapi : rec_api R C) (upper : str -> str) (o : opts) (rs : list R) g,
    (forall r c, In r rs -> In c (cites rapi r) -> selected api rapi upper o rs c = true -> usable api rapi o rs c) ->
    co_citation api rapi upper o rs = Ok g -> o_type o = Full -> o_info o = true -> o_detailed o = true ->
    forall n, is_node g n -> exists r c, In r rs /\ In c (cites rapi r) /\ selected api rapi upper o rs c = true /\ cid api c = n /\
      forall s t, record_of api rapi rs c = Some s -> In t (o_values o) -> ~ In t [$"count"; $"fullCite"; $"citations"; $"inCore"] ->
        exists v, node_attr g n t = Some v /\ shows_field (rget rapi s t) v.
Proof.
  intros I C R E api rapi upper o rs g U Q TY IN DE n K. destruct (@C18_attributes I C R E api rapi upper o rs g U Q n K) as (r & c & R1 & R2 & R3 & R4 & R5). exists r, c. split; [exact R1|]. split; [exact R2|]. split; [exact R3|].
  split; [unfold name_of in R4; rewrite TY in R4; congruence|]. intros s t RO IT NT. exists (detail_val (rget rapi s t)). split; [|apply detail_shows].
  rewrite R5 by (intros ->; apply NT; left; reflexivity). unfold node_shows. rewrite TY, IN, DE, RO. cbn [negb].
  rewrite (@neq_eqb str _ t $"fullCite") by (intros ->; apply NT; right; left; reflexivity). rewrite (@neq_eqb str _ t $"citations") by (intros ->; apply NT; right; right; left; reflexivity).
  rewrite (@neq_eqb str _ t $"inCore") by (intros ->; apply NT; right; right; right; left; reflexivity). rewrite !andb_false_r.
  assert (NZ : (length (o_values o) =? 0) = false) by (destruct (o_values o); [destruct IT|reflexivity]). rewrite NZ. replace (mem t (o_values o)) with true by (symmetry; apply mem_In; exact IT). reflexivity.
Qed.
Print Assumptions C18_detailed.

(** a work of the collection with two keywords, which are shown in order *)
Definition kw_rec : rec_api (cit * list cit) cit := {| own := fst; cites := snd; rid := fun r => cit_text (fst r); rget := fun _ t => if eqb t $"DE" then TList [$"trees"; $"bees"] else TStr $"t" |}.
Definition kw_opts : opts := {| o_type := Full; o_anon := false; o_journals := false; o_words := []; o_core := false; o_info := true; o_full := false; o_values := [$"DE"; $"TI"]; o_detailed := true; o_cr := false; o_count := true; o_weighted := true |}.
Example C18_detailed_ex :
  (forall r c, In r [r1; r2; r3] -> In c (cites kw_rec r) -> usable ex_api kw_rec kw_opts [r1; r2; r3] c) /\
  exists g, co_citation ex_api kw_rec ex_up kw_opts [r1; r2; r3] = Ok g /\ node_attr g $"b/J" $"DE" = Some (VStr $"bees|trees") /\ node_attr g $"b/J" $"TI" = Some (VStr $"t") /\ node_attr g $"c/K" $"DE" = None.
Proof.
  split; [intros r c _ _; split; [discriminate|intros (_ & _ & X & _); discriminate X]|]. apply ok_ex. vm_compute. repeat split.
Qed.
