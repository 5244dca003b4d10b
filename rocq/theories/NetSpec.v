(* Vocabulary for reaction networks. *)
From Verif Require Import Prelude NumQ EnumModel NetModel YenSpec.
From Coq Require Export Sorted Permutation.
Open Scope nat_scope.

(* x holds the members of l, as NetworkEntry objects store them. *)
Definition set_of (l x : list nat) : Prop := StronglySorted lt x /\ forall e, In e x <-> In e l.
Definition is_subset (a b : list nat) : Prop := forall e, In e a -> In e b.

Section Graph.
Context {N E : Type}.
Definition has (g : graph N E) (i : nat) (n : N) : Prop := nth_error (g_slots g) i = Some (Some n).
Definition distinct_nodes (g : graph N E) : Prop := forall i j n, has g i n -> has g j n -> i = j.
Definition closed (g : graph N E) : Prop := forall i j e, In (i, j, e) (g_edges g) -> (exists n, has g i n) /\ exists m, has g j m.

(* What a graph says without its indices: its nodes, and its edges with the data of
   their end points. *)
Definition node_data (g : graph N E) : list N := flat_map (fun s => match s with Some n => [n] | None => [] end) (g_slots g).
Definition data_edges (g : graph N E) : list (N * N * E) :=
  flat_map (fun e => match nth_error (g_slots g) (fst (fst e)), nth_error (g_slots g) (snd (fst e)) with
                     | Some (Some a), Some (Some b) => [(a, b, snd e)] | _, _ => [] end) (g_edges g).
(* g' is g with renumbered nodes. *)
Definition renumbered (f : nat -> nat) (g g' : graph N E) : Prop :=
  (forall i n, has g i n -> has g' (f i) n) /\ (forall j n, has g' j n -> exists i, has g i n /\ j = f i)
  /\ (forall i j n m, has g i n -> has g j m -> f i = f j -> i = j)
  /\ Permutation (g_edges g') (map (fun e => (f (fst (fst e)), f (snd (fst e)), snd e)) (g_edges g)).
End Graph.

(* The sets and targets of a history of calls, oldest first. *)
Definition precursors_of (ops : list net_op) : list (list nat) := flat_map (fun o => match o with SetPrecursors ps => [ps] | _ => [] end) ops.
Definition targets_of (ops : list net_op) : list nat := flat_map (fun o => match o with SetTarget t => [t] | _ => [] end) ops.
(* Only the last call of each setter. *)
Definition last_calls (ops : list net_op) : list net_op :=
  match rev (precursors_of ops) with [] => [] | ps :: _ => [SetPrecursors ps] end
  ++ match rev (targets_of ops) with [] => [] | t :: _ => [SetTarget t] end.
(* Calls the network accepts: precursors and targets are entries of the network. *)
Definition acceptable (entries : list nat) (o : net_op) : Prop :=
  match o with SetPrecursors ps => ps <> [] /\ is_subset ps entries | SetTarget t => In t entries end.

(* A loop-back edge that the precursors ps justify. *)
Definition justified (ps : list nat) (d : (ntype * list nat) * (ntype * list nat) * payload) : Prop :=
  exists a b, d = ((Products, a), (Reactants, b), Loopback) /\ (forall e, In e b -> In e ps \/ In e a) /\ ~ is_subset b ps.

(* The payloads met on a walk. *)
Inductive labelled {E} (es : list (nat * nat * E)) : nat -> nat -> list nat -> list E -> Prop :=
| labelled_end t : labelled es t t [t] []
| labelled_step i j t e p l : In (i, j, e) es -> labelled es j t p l -> labelled es i t (i :: p) (e :: l).
Definition is_rxn (p : payload) : bool := match p with Rxn _ => true | _ => false end.

(* --- pathways --- *)
(* What an edge costs: only reactions cost something. *)
Definition cost_of (cost : nrxn -> Q) (p : payload) : Q := match p with Rxn r => cost r | _ => 0%Q end.
Definition total (l : list (payload * Q)) : Q := fold_right (fun x c => (snd x + c)%Q) 0%Q l.
(* The pathway l lists, in order, the reactions met when going along the nodes p, with
   their costs; parallel edges leave a choice. *)
Definition tells (cost : nrxn -> Q) (g : net) (s t : nat) (p : list nat) (l : list (payload * Q)) : Prop :=
  exists labels, labelled (g_edges g) s t p labels /\ map fst l = filter is_rxn labels /\ Forall (fun x => snd x = cost_of cost (fst x)) l.
(* No two reactions have the same reactants and the same products. *)
Definition distinct_sides (rxns : list nrxn) : Prop :=
  forall i j r r', nth_error rxns i = Some r -> nth_error rxns j = Some r' ->
    (forall e, In e (n_reactants r) <-> In e (n_reactants r')) -> (forall e, In e (n_products r) <-> In e (n_products r')) -> i = j.
(* The pathways found in g for the precursor node s and the target node t. *)
Definition found (cost : nrxn -> Q) (g : net) (s t k : nat) (pathways : list (list (payload * Q))) : Prop :=
  exists paths, NoDup paths /\ length paths <= Nat.max 1 k
  /\ (paths = [] <-> forall p c, ~ walk (cost_of cost) (g_edges g) s t p c)
  /\ (forall p rest, paths = p :: rest -> cheapest_walk (cost_of cost) (g_edges g) s t p)
  /\ Forall2 (fun p l => (exists c, walk (cost_of cost) (g_edges g) s t p c) /\ tells cost g s t p l) paths pathways.

(* j comes after i in p; the first node comes after the last one. *)
Definition comes_after (p : list nat) (i j : nat) : Prop := (exists a b, p = a ++ i :: j :: b) \/ exists b, p = j :: b /\ exists c, p = c ++ [i].
