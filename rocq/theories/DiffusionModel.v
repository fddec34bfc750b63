(** metaknowledge/diffusion.py.
    A collection is the list of its records in iteration order.  A record is what these functions look at: its value
    under the type asked for (the record itself for the type 'raw'), its citations as a cited work ([createCitation]),
    its reference list and its value under the extra tag.  [V] are values, [C] citations (compared as their [==]
    compares them, by ID), [E] the values of the extra tag.  [letters] is what iterating a value that is not a list
    gives: the characters of a string, the tags of a Record (mkRecord.py:115), [None] (TypeError) for a number.
    Not modelled: the checks of the argument types and tags, the progress bar. *)
From Coq Require Import String.
From Verif Require Import Base PyStr Nx RecordView NetModel.
Set Implicit Arguments.

Definition fval_eq_dec {V} `{EqDec V} (x y : fval V) : {x = y} + {x <> y}.
Proof. decide equality; apply eq_dec. Defined.
#[global] Instance dec_fval {V} `{EqDec V} : EqDec (fval V) := fval_eq_dec.
Definition option_eq_dec {V} `{EqDec V} (x y : option V) : {x = y} + {x <> y}.
Proof. decide equality; apply eq_dec. Defined.
#[global] Instance dec_option {V} `{EqDec V} : EqDec (option V) := option_eq_dec.

Section Diffusion.
Context {V C E : Type} `{EqDec V} `{EqDec C} `{EqDec E}.

Record drec := {
  d_id : option (fval V);        (* makeNodeID, lines 351-361: a list is made a tuple, nothing else is changed *)
  d_first : C;                   (* createCitation() *)
  d_all : list C;                (* createCitation(multiCite = True) *)
  d_cites : option (list C);     (* get('citations') *)
  d_extra : option (fval E)      (* get(extraValue), get(labelEdgesBy) *)
}.
Variable truthy : V -> bool.
Variable letters : V -> option (list V).

(** [if RsVal] *)
Definition true_id (f : fval V) : bool := match f with Many [] => false | Many _ => true | One v => truthy v end.
(** [for val in RsVal] *)
Definition iterate (f : fval V) : res (list V) :=
  match f with
  | Many l => Ok l
  | One v => match letters v with Some l => Ok l | None => Raise TypeError end
  end.

(** ** diffusionCount *)
(** lines 208-221 *)
Definition as_cited (allAuthors : bool) (r : drec) : list C := if allAuthors then d_all r else [d_first r].
Definition source_dict (allAuthors : bool) (src : list drec) : dict C (fval V) :=
  fold_left (fun sd r =>
    match d_id r with
    | Some f => if true_id f then fold_left (fun sd c => dset c f sd) (as_cited allAuthors r) sd else sd
    | None => sd
    end) src [].
(** lines 206, 209-210: [Rs.get('raw')] is [None] *)
Fixpoint list_ids (raw : bool) (src : list drec) : bool :=
  match src with
  | [] => false
  | r :: src' => if raw then false else
                 match d_id r with Some (Many _) => true | Some (One _) => false | None => list_ids raw src' end
  end.
(** the keys a source value stands for: its parts if the IDs are lists, else itself (a tuple may be a key too) *)
Definition keys_of (listIds : bool) (f : fval V) : res (list (fval V)) :=
  if listIds then let* l := iterate f in Ok (map One l) else Ok [f].
(** the counts of one source; [None] is the key "TargetCount" (no value of the tag is taken to be that string) *)
Definition counts := dict (option E) nat.
(** lines 222-231; without [extraValue] only the total is there, and it is not wrapped in a dict *)
Definition zero_counts (listIds : bool) (sd : dict C (fval V)) : res (dict (fval V) counts) :=
  iter (fun f d => let* ks := keys_of listIds f in Ok (fold_left (fun d k => dset k [(None, 0)] d) ks d)) (dvals sd) [].
(** lines 252-261, 263-270: [try: ... += 1 except KeyError: ... = 1] for the extra values; the total must be there *)
Definition count_one (vals : list E) (k : fval V) (d : dict (fval V) counts) : res (dict (fval V) counts) :=
  match dget k d with
  | None => Raise KeyError
  | Some cs => match dget None cs with
               | None => Raise KeyError
               | Some n => Ok (dset k (fold_left (fun cs v => dincr (Some v) cs) vals (dset None (n + 1) cs)) d)
               end
  end.
(** lines 238-245, [emap] being [extraMapping] *)
Definition extra_values (extra : bool) (emap : E -> E) (r : drec) : list E :=
  if extra then map emap (match d_extra r with None => [] | Some f => entries f end) else [].
(** lines 234-270 *)
Definition count_target (listIds extra : bool) (emap : E -> E) (sd : dict C (fval V)) (r : drec) (d : dict (fval V) counts)
  : res (dict (fval V) counts) :=
  iter (fun c d => match dget c sd with
                   | None => Ok d
                   | Some f => let* ks := keys_of listIds f in iter (count_one (extra_values extra emap r)) ks d
                   end) (match d_cites r with Some cs => cs | None => [] end) d.
Definition diffusion_count (allAuthors raw extra : bool) (emap : E -> E) (src tgt : list drec) : res (dict (fval V) counts) :=
  let sd := source_dict allAuthors src in
  let listIds := list_ids raw src in
  let* d := zero_counts listIds sd in
  iter (count_target listIds extra emap sd) tgt d.
(** lines 271-272, 345-347: [useAllAuthors] and [extraMapping] are not passed on.  [inr] is a pair. *)
Definition diffusion_compare (allAuthors raw extra : bool) (emap : E -> E) (src tgt : list drec)
  : res (dict (fval V) (counts + counts * counts)) :=
  let* d := diffusion_count allAuthors raw extra emap src tgt in
  let* loc := diffusion_count true raw extra (fun e => e) src src in
  iter (fun kv res => match dget (fst kv) res with
                      | Some (inl c) => Ok (dset (fst kv) (inr (c, snd kv)) res)
                      | Some (inr cc) => Ok (dset (fst kv) (inr (fst cc, snd kv)) res)  (* not reached: keys are distinct *)
                      | None => Raise KeyError
                      end) loc (map (fun kv => (fst kv, inl (snd kv))) d).
(** the columns of the table for a type that is not 'raw', lines 315-343: [(recLst, extraValueLst, countLst, locLst)].
    [tag] is the value of the extra tag, if any, that reads like the tag's own name: line 329 looks up [extraValue]
    itself.  Without [extraValue] the second column is not returned. *)
Definition columns := (list (fval V) * list (option E) * list nat * list nat)%type.
Definition add_row (k : fval V) (e : option E) (n : nat) (loc : option nat) (t : columns) : columns :=
  match t with (rs, es, ns, ls) => (rs ++ [k], es ++ [e], ns ++ [n], match loc with Some x => ls ++ [x] | None => ls end) end.
Definition count_table (compare extra : bool) (tag : option E) (d loc : dict (fval V) counts) : res columns :=
  iter (fun kc t =>
    let here := match dget (fst kc) loc with Some cs => Some cs | None => None end in
    if extra then
      Ok (fold_left (fun t en => add_row (fst kc) (fst en) (snd en)
             (if compare then Some (match here, tag with
                                    | Some cs, Some e => match dget (Some e) cs with Some n => n | None => 0 end
                                    | _, _ => 0
                                    end)
              else None) t) (snd kc) t)
    else
      match dget None (snd kc) with
      | None => Raise KeyError
      | Some n =>
        if compare then match here with
                        | Some cs => match dget None cs with Some m => Ok (add_row (fst kc) None n (Some m) t) | None => Raise KeyError end
                        | None => Raise KeyError
                        end
        else Ok (add_row (fst kc) None n None t)
      end) d ([], [], [], []).
Definition diffusion_table (allAuthors extra compare : bool) (tag : option E) (emap : E -> E) (src tgt : list drec) : res columns :=
  let* d := diffusion_count allAuthors false extra emap src tgt in
  let* loc := if compare then diffusion_count true false extra (fun e => e) src src else Ok [] in
  count_table compare extra tag d loc.

(** ** diffusionGraph *)
Definition source_ := $"source".
Definition target_ := $"target".
(** lines 87-89 *)
Definition source_node (v : V) (g : graph V) : res (graph V) :=
  Ok (if has_node g v then g else add_node v [(source_, VBool true); (target_, VBool false)] g).
(** lines 107-110 *)
Definition target_node (v : V) (g : graph V) : res (graph V) :=
  if has_node g v then node_set v target_ (VBool true) g
  else Ok (add_node v [(source_, VBool false); (target_, VBool true)] g).
(** lines 80-89 *)
Definition graph_sources (src : list drec) (st : dict C (fval V) * graph V) : res (dict C (fval V) * graph V) :=
  iter (fun r st =>
    match d_id r with
    | Some f => if true_id f then
                  let* l := iterate f in
                  let* g := iter source_node l (snd st) in
                  Ok (dset (d_first r) f (fst st), g)
                else Ok st
    | None => Ok st
    end) src st.
(** lines 111-114, 128-134 for one value of a target.  [touch] does not add an unweighted edge again, line 134 does:
    that changes nothing, see [add_edge_again]. *)
Definition graph_cites (weighted : bool) (sd : dict C (fval V)) (r : drec) (v : V) (g : graph V) : res (graph V) :=
  match d_cites r with
  | None => Ok g
  | Some cs => iter (fun c g => match dget c sd with
                                | None => Ok g
                                | Some f => let* l := iterate f in iter (fun s => touch weighted s v) l g
                                end) cs g
  end.
(** lines 94-95, 105-134 *)
Definition graph_targets (weighted : bool) (sd : dict C (fval V)) (tgt : list drec) (g : graph V) : res (graph V) :=
  iter (fun r g =>
    match d_id r with
    | Some f => if true_id f then
                  let* l := iterate f in
                  iter (fun v g => let* g1 := target_node v g in graph_cites weighted sd r v g1) l g
                else Ok g
    | None => Ok g
    end) tgt g.
Definition diffusion_graph (weighted : bool) (src tgt : list drec) : res (graph V) :=
  let* st := graph_sources src ([], empty_graph true) in
  graph_targets weighted (fst st) tgt (snd st).

(** ** diffusionGraph with [labelEdgesBy]: a multigraph, here its nodes and the list of its edges with their labels
    (lines 96-101, 116-127).  With weights the label is put in the data of a new parallel edge, whose key is a number,
    so [has_edge(..., key = label)] is never true and nothing is ever added to a weight; without, the label is the
    key. *)
Definition medges := list (V * V * E).
Definition put_label (weighted : bool) (s v : V) (e : E) (m : medges) : medges :=
  if weighted then m ++ [(s, v, e)]
  else if existsb (fun x => eqb (fst (fst x)) s && eqb (snd (fst x)) v && eqb (snd x) e) m then m else m ++ [(s, v, e)].
Definition label_cites (weighted : bool) (name : E -> E) (sd : dict C (fval V)) (r : drec) (es : list E) (v : V) (m : medges) : res medges :=
  match d_cites r with
  | None => Ok m
  | Some cs => iter (fun c m => match dget c sd with
                                | None => Ok m
                                | Some f => let* l := iterate f in
                                            Ok (fold_left (fun m s => fold_left (fun m e => put_label weighted s v (name e) m) es m) l m)
                                end) cs m
  end.
Definition label_targets (weighted : bool) (name : E -> E) (sd : dict C (fval V)) (tgt : list drec) (st : graph V * medges) : res (graph V * medges) :=
  iter (fun r st =>
    match d_extra r with
    | None => Ok st                                                            (* 98-99 *)
    | Some x =>
      match d_id r with
      | Some f => if true_id f then
                    let* l := iterate f in
                    iter (fun v st => let* g1 := target_node v (fst st) in
                                      let* m1 := label_cites weighted name sd r (entries x) v (snd st) in Ok (g1, m1)) l st
                  else Ok st
      | None => Ok st
      end
    end) tgt st.
(** [name] is [str] *)
Definition diffusion_multigraph (weighted : bool) (name : E -> E) (src tgt : list drec) : res (graph V * medges) :=
  let* st := graph_sources src ([], empty_graph true) in
  label_targets weighted name (fst st) tgt (snd st, []).

(** ** diffusionAddCountsFromSource, lines 407-442, without [extraType].  [has_nodes_iter]: networkx 2 has no
    [nodes_iter], networkx 1 has; [show] is [str], [is_str] tells which keys are strings already. *)
Definition restring {A : Type} (is_str : fval V -> bool) (show : fval V -> fval V) (d : dict (fval V) A) : dict (fval V) A :=
  match d with
  | [] => d
  | (k, _) :: _ => if is_str k then d else fold_left (fun n kv => dset (show (fst kv)) (snd kv) n) (rev d) []
  end.
Definition add_counts (has_nodes_iter : bool) (is_str : fval V -> bool) (show : fval V -> fval V) (label : str)
    (d : dict (fval V) nat) (g : graph V) : res (graph V) :=
  let d' := restring is_str show d in
  if has_nodes_iter then
    iter (fun n g => node_set n label (VInt (Z.of_nat (match dget (One n) d' with Some k => k | None => 0 end))) g) (nodes g) g
  else Raise AttributeError.
(** the same with [extraType], lines 422-440; the extra values are strings *)
Definition add_extra (has_nodes_iter : bool) (is_str : fval V -> bool) (show : fval V -> fval V) (label : str) (extraKeys : list str)
    (d : dict (fval V) (dict (option str) nat)) (g : graph V) : res (graph V) :=
  let d' := restring is_str show d in
  if has_nodes_iter then
    iter (fun n g =>
      let* g1 := iter (fun key => node_set n key (VInt 0)) extraKeys g in
      let* g2 := node_set n label (VInt 0) g1 in
      match dget (One n) d' with
      | None => node_set n label (VInt 0) g2
      | Some cs => iter (fun (en : option str * nat) g => match fst en with
                                     | None => node_set n label (VInt (Z.of_nat (snd en))) g
                                     | Some e => if eqb e [] then Ok g else node_set n e (VInt (Z.of_nat (snd en))) g
                                     end) cs g2
      end) (nodes g) g
  else Raise AttributeError.
End Diffusion.
Arguments drec : clear implicits.
