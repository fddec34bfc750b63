(** C111: what citations and collections show as texts. *)
From Coq Require Import List ZArith Lia Bool Arith.
From Coq Require Import String.
From Verif Require Import Base PyStr CitationModel CitationSpec PropertiesCitation CollectionModel CollectionSpec CollectionExamples CiteShowModel.
Import ListNotations.
Local Open Scope list_scope.

Section Cites.
Variables upper title : str -> str.
Variables word num : char -> bool.
Variable int_of : str -> Z.
Notation make := (make_cite upper title word num int_of).

(** the ID of C28 *)
Inductive id_of_text : bool -> str -> str -> Prop :=
| id_wos : forall s c, wos_citation upper title s = Ok c -> id_of_text false s (c_id c)
| id_scopus : forall s, id_of_text true s (s_id (scopus_citation word num int_of upper s)).
Lemma made fast scopus s : exists c, make fast scopus s = Ok c /\ o_original c = (if fast then None else Some s) /\ id_of_text scopus s (o_id c) /\
  forall fast', make fast' scopus s = Ok (mkObj (o_id c) (if fast' then None else Some s)).
Proof.
  unfold make_cite. destruct scopus.
  - eexists. split; [reflexivity|]. split; [destruct fast; reflexivity|]. split; [first [apply id_scopus|apply (id_wos s c E)]|]. intros []; reflexivity.
  - destruct (C28_parse upper title s) as (c & E & _). rewrite E. cbn [bind]. eexists. split; [reflexivity|]. split; [destruct fast; reflexivity|]. split; [first [apply id_scopus|apply (id_wos s c E)]|]. intros []; reflexivity.
Qed.
(** C111: a citation can be made of every text, and with the usual setting it shows that very text, in lists so that different texts stay different. *)
Theorem C111_cites : forall scopus s t, exists c d, make false scopus s = Ok c /\ make false scopus t = Ok d /\ str_of_cite false c = Ok s /\
  (repr_of_cite false c = repr_of_cite false d <-> s = t).
Proof.
  intros scopus s t. destruct (made false scopus s) as (c & E & O & _ & _), (made false scopus t) as (d & E' & O' & _ & _). exists c, d. split; [exact E|]. split; [exact E'|].
  unfold str_of_cite, repr_of_cite, original_of. rewrite O, O'. cbn [bind]. split; [reflexivity|]. split; [|intros ->; reflexivity].
  intros Q. injection Q as Q. apply app_inv_tail in Q. exact Q.
Qed.
(** C111: with FAST_CITES citations of the same text have the same ID as without and are equal to them, and their texts are equal exactly if their IDs are: hence
    the texts of equal citations are equal, unless different IDs have the same hash. *)
Theorem C111_fast : forall scopus s t, exists c d c', make true scopus s = Ok c /\ make true scopus t = Ok d /\ make false scopus s = Ok c' /\
  id_of_text scopus s (o_id c) /\ o_id c = o_id c' /\ (forall hash, same_cite hash c c' = true) /\ str_of_cite true c = Ok (o_id c') /\
  (repr_of_cite true c = repr_of_cite true d <-> o_id c = o_id d) /\
  (forall hash, (forall a b, hash a = hash b -> a = b) -> (same_cite hash c d = true <-> str_of_cite true c = str_of_cite true d)).
Proof.
  intros scopus s t. destruct (made true scopus s) as (c & E & O & ID & B), (made true scopus t) as (d & E' & O' & _ & _). exists c, d, (mkObj (o_id c) (Some s)).
  split; [exact E|]. split; [exact E'|]. split; [exact (B false)|]. split; [exact ID|]. split; [reflexivity|]. split; [intros hash; apply Z.eqb_refl|]. split; [reflexivity|]. split.
  - unfold repr_of_cite. split; [|intros ->; reflexivity]. intros Q. injection Q as Q. apply app_inv_tail in Q. exact Q.
  - intros hash I. unfold same_cite, str_of_cite. rewrite Z.eqb_eq. split; [intros Q; rewrite (I _ _ Q); reflexivity|intros Q; injection Q as ->; reflexivity].
Qed.
(** False: that the setting can be changed at any time.  A citation made with FAST_CITES and shown without has no text at all, whatever it was made of. *)
Theorem C111_switched_refuted : forall scopus s, exists c, make true scopus s = Ok c /\ str_of_cite false c = Raise AttributeError /\ repr_of_cite false c = Raise AttributeError.
Proof.
  intros scopus s. destruct (made true scopus s) as (c & E & O & _ & _). exists c. split; [exact E|]. unfold str_of_cite, repr_of_cite, original_of. rewrite O. auto.
Qed.
(** The other way round is no error: the ID is shown. *)
Theorem C111_switched_partial : forall scopus s, exists c, make false scopus s = Ok c /\ str_of_cite true c = Ok (o_id c) /\ make true scopus s = Ok (mkObj (o_id c) None).
Proof. intros scopus s. destruct (made false scopus s) as (c & E & _ & _ & B). exists c. split; [exact E|]. split; [reflexivity|]. exact (B true). Qed.
End Cites.

(** ** Collections *)
Lemma first_of (a b x y : str) s : ~ In s a -> ~ In s b -> a ++ s :: x = b ++ s :: y -> a = b /\ x = y.
Proof.
  intros NA NB E. revert b NB E. induction a as [|u a IH]; intros b NB E.
  - destruct b as [|v b]; cbn in E; [injection E as E; auto|]. injection E as E1 E2. exfalso. apply NB. left. congruence.
  - destruct b as [|v b]; cbn in E; injection E as E1 E2; [exfalso; apply NA; left; congruence|]. subst v. destruct (IH (fun J => NA (or_intror J)) b (fun J => NB (or_intror J)) E2) as (-> & ->). auto.
Qed.
Lemma class_inj k k' : coll_class_name k = coll_class_name k' -> k = k'.
Proof. destruct k, k'; intros Q; try reflexivity; discriminate Q. Qed.
(** C111: both texts of a collection say its class and its name, and nothing else: two collections show the same exactly if they agree in both. *)
Theorem C111_collections : forall (E E' : Type) k k' (a : coll E) (b : coll E'),
  (coll_repr k a = coll_repr k' b <-> k = k' /\ cname a = cname b) /\ (coll_str k a = coll_str k' b <-> k = k' /\ cname a = cname b).
Proof.
  intros E E' k k' a b. unfold coll_repr, coll_str. split; (split; [|intros (-> & ->); reflexivity]); intros Q.
  - apply app_inv_head in Q. change ($" object " ++ cname a ++ $">") with (32%N :: $"object " ++ cname a ++ $">") in Q. change ($" object " ++ cname b ++ $">") with (32%N :: $"object " ++ cname b ++ $">") in Q.
    apply first_of in Q; [|destruct k; vm_compute; intuition discriminate|destruct k'; vm_compute; intuition discriminate]. destruct Q as (Q & X). apply class_inj in Q. apply app_inv_head in X. apply app_inv_tail in X. auto.
  - change ($"(" ++ cname a ++ $")") with (40%N :: cname a ++ $")") in Q. change ($"(" ++ cname b ++ $")") with (40%N :: cname b ++ $")") in Q.
    apply first_of in Q; [|destruct k; vm_compute; intuition discriminate|destruct k'; vm_compute; intuition discriminate]. destruct Q as (Q & X). apply class_inj in Q. apply app_inv_tail in X. auto.
Qed.
(** C111: the text of a combination shows the names of both and the operator. *)
Theorem C111_combined : forall (E K : Type) (HK : EqDec K) (EL : Elem E K) k (a b c : coll E),
  (coll_or a b = Ok c -> coll_str k c = coll_class_name k ++ $"(" ++ cname a ++ $" | " ++ cname b ++ $")") /\
  (coll_and a b = Ok c -> coll_str k c = coll_class_name k ++ $"(" ++ cname a ++ $" & " ++ cname b ++ $")") /\
  (coll_sub a b = Ok c -> coll_str k c = coll_class_name k ++ $"(" ++ cname a ++ $" - " ++ cname b ++ $")") /\
  (coll_xor a b = Ok c -> coll_str k c = coll_class_name k ++ $"(" ++ cname a ++ $" ^ " ++ cname b ++ $")").
Proof.
  intros E K HK EL k a b c. unfold coll_or, coll_and, coll_sub, coll_xor, binary, from_iterable. cbn [first_walk second_walk].
  repeat split; (match goal with |- context [forallb allowed ?l] => destruct (forallb allowed l) end; cbn [bind]; [|discriminate]); intros Q; injection Q as <-; unfold coll_str; destruct (cbad b || cbad a)%bool; cbn [cname]; rewrite <- !app_assoc; reflexivity.
Qed.
(** C111: so does the text of a collection that was combined in place, with the operator of the assignment; adding and removing members, emptying and looking never change the text. *)
Theorem C111_in_place : forall (E K : Type) (HK : EqDec K) (EL : Elem E K) k (a b : coll E) (x : E),
  coll_str k (coll_ior a b) = coll_class_name k ++ $"(" ++ cname a ++ $" |= " ++ cname b ++ $")" /\
  coll_str k (coll_iand a b) = coll_class_name k ++ $"(" ++ cname a ++ $" &= " ++ cname b ++ $")" /\
  coll_str k (coll_ixor a b) = coll_class_name k ++ $"(" ++ cname a ++ $" ^= " ++ cname b ++ $")" /\
  coll_str k (coll_isub a b) = coll_class_name k ++ $"(" ++ cname a ++ $" -= " ++ cname b ++ $")" /\
  (forall c, coll_add x a = Ok c \/ coll_remove x a = Ok c \/ (exists y, coll_pop a = Ok (y, c)) -> coll_str k c = coll_str k a /\ coll_repr k c = coll_repr k a) /\
  coll_str k (coll_discard x a) = coll_str k a /\ coll_str k (coll_clear a) = coll_str k a.
Proof.
  intros E K HK EL k a b x. unfold coll_str, coll_repr, coll_ior, coll_iand, coll_ixor, coll_isub, inplace, coll_discard, coll_clear, set_members. cbn [cname]. rewrite <- !app_assoc. do 4 (split; [reflexivity|]). split; [|split; reflexivity].
  intros c H. assert (N : cname c = cname a); [|rewrite N; auto]. destruct H as [H|[H|(y & H)]].
  - unfold coll_add in H. destruct (allowed x); [injection H as <-; reflexivity|discriminate H].
  - unfold coll_remove, set_members in H. match type of H with (if ?t then _ else _) = _ => destruct t end; [injection H as <-; reflexivity|discriminate H].
  - unfold coll_pop, set_members in H. destruct (members a); [discriminate H|]. injection H as _ <-. reflexivity.
Qed.
(** False: that the text tells how a collection was made.  a - b - c and a - (b - c) show the same and have different members. *)
Theorem C111_combined_refuted : exists a b c ab bc d e : coll rec, WF a /\ WF b /\ WF c /\ coll_sub a b = Ok ab /\ coll_sub ab c = Ok d /\ coll_sub b c = Ok bc /\ coll_sub a bc = Ok e /\
  (forall k, coll_str k d = coll_str k e) /\ length (members d) <> length (members e).
Proof.
  exists c123, c12, c12. do 4 eexists. split; [exact c123_wf|]. split; [exact c12_wf|]. split; [exact c12_wf|]. split; [vm_compute; reflexivity|]. split; [vm_compute; reflexivity|]. split; [vm_compute; reflexivity|]. split; [vm_compute; reflexivity|]. split; [intros []; reflexivity|]. cbn. discriminate.
Qed.
Notation ex_made := (make_cite (fun s => s) (fun s => s) digit09 digit09 (fun _ => 0%Z)).
Example C111_ex : exists c d, ex_made false false $"DOE J., 1999, NATURE, V4" = Ok c /\ ex_made true false $"DOE J., 1999, NATURE, V4" = Ok d /\
  str_of_cite false c = Ok $"DOE J., 1999, NATURE, V4" /\ str_of_cite true d = Ok $"DOE J, 1999, NATURE" /\ repr_of_cite true d = Ok $"<metaknowledge.Citation object DOE J, 1999, NATURE>" /\
  coll_str OfRecords c12 = $"RecordCollection(A)" /\ exists e, coll_sub c123 c12 = Ok e /\ coll_repr OfRecords e = $"<metaknowledge.RecordCollection object C - A>".
Proof.
  do 2 eexists. split; [vm_compute; reflexivity|]. split; [vm_compute; reflexivity|]. split; [reflexivity|]. split; [reflexivity|]. split; [reflexivity|]. split; [reflexivity|]. eexists. split; [vm_compute; reflexivity|]. reflexivity.
Qed.
Print Assumptions C111_cites.
Print Assumptions C111_fast.
Print Assumptions C111_switched_refuted.
Print Assumptions C111_switched_partial.
Print Assumptions C111_collections.
Print Assumptions C111_combined.
Print Assumptions C111_in_place.
Print Assumptions C111_combined_refuted.
