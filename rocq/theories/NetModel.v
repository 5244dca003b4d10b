(* Model of network/network.py (graph construction and the setters), network/base.py
   (Graph serialisation) and the parts of rustworkx.PyDiGraph they use. Entries are
   numbers. A Python set of entries is the increasing list of its members. *)
From Verif Require Import Prelude NumQ EnumModel.
Open Scope nat_scope.

(* --- rustworkx.PyDiGraph --- *)
(* A slot holds the node of that index or is empty. Indices of removed nodes are
   reused, the last one first. Edges are listed newest first: get_edge_data and
   remove_edge use the newest of several parallel edges. *)
Record graph (N E : Type) := { g_slots : list (option N); g_free : list nat; g_edges : list (nat * nat * E) }.
Arguments g_slots {N E}. Arguments g_free {N E}. Arguments g_edges {N E}.

Section Graph.
Context {N E : Type}.
Definition empty_graph : graph N E := {| g_slots := []; g_free := []; g_edges := [] |}.

Fixpoint set_nth {A} (i : nat) (x : A) (l : list A) : list A :=
  match l, i with [] , _ => [] | _ :: l', 0 => x :: l' | y :: l', S i' => y :: set_nth i' x l' end.

Definition add_node (g : graph N E) (n : N) : graph N E * nat :=
  match g_free g with
  | i :: f => ({| g_slots := set_nth i (Some n) (g_slots g); g_free := f; g_edges := g_edges g |}, i)
  | [] => ({| g_slots := g_slots g ++ [Some n]; g_free := []; g_edges := g_edges g |}, length (g_slots g))
  end.
Definition add_nodes_from (g : graph N E) (ns : list N) : graph N E := fold_left (fun g n => fst (add_node g n)) ns g.
(* remove_node also removes the edges of the node *)
Definition remove_node (g : graph N E) (i : nat) : graph N E :=
  {| g_slots := set_nth i None (g_slots g); g_free := i :: g_free g;
     g_edges := filter (fun e => negb (Nat.eqb (fst (fst e)) i) && negb (Nat.eqb (snd (fst e)) i)) (g_edges g) |}.
(* the end points are nodes of the graph wherever add_edges_from is used *)
Definition add_edges_from (g : graph N E) (es : list (nat * nat * E)) : graph N E :=
  {| g_slots := g_slots g; g_free := g_free g; g_edges := rev es ++ g_edges g |}.
(* node_indices() together with get_node_data *)
Fixpoint nodes_from (i : nat) (l : list (option N)) : list (nat * N) :=
  match l with [] => [] | None :: l' => nodes_from (S i) l' | Some n :: l' => (i, n) :: nodes_from (S i) l' end.
Definition nodes (g : graph N E) : list (nat * N) := nodes_from 0 (g_slots g).
Definition node_at (g : graph N E) (i : nat) : option N := match nth_error (g_slots g) i with Some (Some n) => Some n | _ => None end.
(* find_node_by_weight *)
Definition find_node (eqb : N -> N -> bool) (g : graph N E) (n : N) : option nat :=
  option_map fst (find (fun x => eqb (snd x) n) (nodes g)).
End Graph.

(* --- nodes and edges of the reaction network --- *)
Definition mkset (l : list nat) : list nat := sorted_set l.

(* network/entry.py:20-27 *)
Inductive ntype := Precursors | Reactants | Products | Target.
Definition ntype_eqb (a b : ntype) : bool :=
  match a, b with Precursors, Precursors | Reactants, Reactants | Products, Products | Target, Target => true | _, _ => false end.
(* network/entry.py:30-104 NetworkEntry: description and entries. Equal entries have the
   same chemical system, so __eq__ compares description and entries. *)
Notation node := (ntype * list nat)%type.
Definition node_eqb (a b : node) : bool := ntype_eqb (fst a) (fst b) && list_eqb (snd a) (snd b).

Record nrxn := { n_id : nat; n_reactants : list nat; n_products : list nat }.
Inductive payload := Rxn (r : nrxn) | Loopback | PrecursorEdge | TargetEdge.
Notation net := (graph node payload).

(* nodes.index(n) *)
Fixpoint index_of (n : node) (l : list node) : nat :=
  match l with [] => 0 | m :: l' => if node_eqb m n then 0 else S (index_of n l') end.
Definition add_or_find (ns : list node) (n : node) : list node * nat :=
  if memb node_eqb n ns then (ns, index_of n ns) else (ns ++ [n], length ns).

(* network.py:264-298 get_rxn_nodes_and_edges *)
Definition rxn_step (st : list node * list (nat * nat * payload)) (r : nrxn) : list node * list (nat * nat * payload) :=
  let '(ns, es) := st in
  let '(ns1, i) := add_or_find ns (Reactants, mkset (n_reactants r)) in
  let '(ns2, j) := add_or_find ns1 (Products, mkset (n_products r)) in
  (ns2, es ++ [(i, j, Rxn r)]).
Definition rxn_nodes_and_edges (rxns : list nrxn) : list node * list (nat * nat * payload) := fold_left rxn_step rxns ([], []).

(* network.py:301-323 get_loopback_edges *)
Definition enumerate {A} (l : list A) : list (nat * A) := combine (seq 0 (length l)) l.
Definition loopback_edges (ns : list node) : list (nat * nat * payload) :=
  flat_map (fun p => if ntype_eqb (fst (snd p)) Products
     then flat_map (fun r => if ntype_eqb (fst (snd r)) Reactants && list_eqb (snd (snd p)) (snd (snd r))
                             then [(fst p, fst r, Loopback)] else []) (enumerate ns)
     else []) (enumerate ns).

(* network.py:65-87 build *)
Definition build (rxns : list nrxn) : net :=
  let '(ns, es) := rxn_nodes_and_edges rxns in
  add_edges_from (add_nodes_from empty_graph ns) (es ++ loopback_edges ns).

(* --- the network object --- *)
(* w_entries: the entries of the network; w_precursors and w_target: _precursors and
   _target; w_graph: _g; w_listed: _precursors is a list (after from_dict), not a set.
   Formulas are already resolved to entries. *)
Record network := { w_entries : list nat; w_rxns : list nrxn; w_precursors : option (list nat); w_listed : bool; w_target : option nat; w_graph : option net }.

Definition new_network (entries : list nat) (rxns : list nrxn) : network :=
  {| w_entries := entries; w_rxns := rxns; w_precursors := None; w_listed := false; w_target := None; w_graph := None |}.
Definition net_build (w : network) : network :=
  {| w_entries := w_entries w; w_rxns := w_rxns w; w_precursors := w_precursors w; w_listed := w_listed w; w_target := w_target w; w_graph := Some (build (w_rxns w)) |}.

(* "if not g": no graph, or one without nodes *)
Definition get_graph (w : network) : result net :=
  match w_graph w with None => Err ValueError | Some g => if is_nil (nodes g) then Err ValueError else Ok g end.
Definition first_of_type (ty : ntype) (g : net) : option nat :=
  option_map fst (find (fun x => ntype_eqb (fst (snd x)) ty) (nodes g)).
(* "if self.precursors": None and the empty set are false *)
Definition truthy (p : option (list nat)) : bool := match p with None | Some [] => false | _ => true end.

(* network.py:146-167: the edges added for precursors ps with node pn *)
Definition precursor_edges (ps : list nat) (pn : nat) (g : net) : list (nat * nat * payload) :=
  flat_map (fun x =>
    match fst (snd x) with
    | Reactants => if subset (snd (snd x)) ps then [(pn, fst x, PrecursorEdge)] else []
    | Products =>
        flat_map (fun y =>
          if ntype_eqb (fst (snd y)) Reactants && negb (subset (snd (snd y)) ps) && subset (snd (snd y)) (ps ++ snd (snd x))
          then [(fst x, fst y, Loopback)] else []) (nodes g)
    | _ => []
    end) (nodes g).

(* network.py:114-171 set_precursors *)
Definition set_precursors (w : network) (precursors : list nat) : result network :=
  bind (get_graph w) (fun g =>
  let ps := mkset precursors in
  (* a set is never equal to a list *)
  if match w_precursors w with Some old => negb (w_listed w) && list_eqb ps old | None => false end then Ok w
  else if negb (subset ps (w_entries w)) then Err ValueError
  else
    bind (if truthy (w_precursors w)
          then match first_of_type Precursors g with Some i => Ok (remove_node g i) | None => Err ValueError end
          else Ok g) (fun g1 =>
    let '(g2, pn) := add_node g1 (Precursors, ps) in
    Ok {| w_entries := w_entries w; w_rxns := w_rxns w; w_precursors := Some ps; w_listed := false; w_target := w_target w;
          w_graph := Some (add_edges_from g2 (precursor_edges ps pn g2)) |})).

(* network.py:208-223 *)
Definition target_edges (t tn : nat) (g : net) : list (nat * nat * payload) :=
  flat_map (fun x => if ntype_eqb (fst (snd x)) Products && inb t (snd (snd x)) then [(fst x, tn, TargetEdge)] else []) (nodes g).

(* network.py:173-225 set_target *)
Definition set_target (w : network) (t : nat) : result network :=
  bind (get_graph w) (fun g =>
  if match w_target w with Some old => Nat.eqb t old | None => false end then Ok w
  else if negb (inb t (w_entries w)) then Err ValueError
  else
    bind (match w_target w with
          | Some _ => match first_of_type Target g with Some i => Ok (remove_node g i) | None => Err ValueError end
          | None => Ok g
          end) (fun g1 =>
    let '(g2, tn) := add_node g1 (Target, [t]) in
    Ok {| w_entries := w_entries w; w_rxns := w_rxns w; w_precursors := w_precursors w; w_listed := w_listed w; w_target := Some t;
          w_graph := Some (add_edges_from g2 (target_edges t tn g2)) |})).

(* A history of calls of the setters. *)
Inductive net_op := SetPrecursors (ps : list nat) | SetTarget (t : nat).
Definition run_op (w : network) (o : net_op) : result network :=
  match o with SetPrecursors ps => set_precursors w ps | SetTarget t => set_target w t end.
Fixpoint run_ops (w : network) (ops : list net_op) : result network :=
  match ops with [] => Ok w | o :: ops' => bind (run_op w o) (fun w' => run_ops w' ops') end.

(* --- serialisation (network/base.py:118-161) --- *)
Section Serial.
Context {N E : Type}.
Variable eqb : N -> N -> bool.
(* The dictionaries of nodes and edges are assumed to be read back as the same objects.
   [order] is the order of edge_list(), by edge index. *)
Variable order : list (nat * nat * E) -> list (nat * nat * E).
Record graph_dict := { d_nodes : list N; d_indices : list nat; d_edges : list (nat * nat * E) }.
(* base.py:123-137 as_dict *)
Definition graph_as_dict (g : graph N E) : graph_dict :=
  {| d_nodes := map snd (nodes g); d_indices := map fst (nodes g); d_edges := order (g_edges g) |}.
(* dict(zip(nodes, node_indices)): a repeated key keeps its position and takes the
   later value *)
Fixpoint dict_set (k : N) (v : nat) (d : list (N * nat)) : list (N * nat) :=
  match d with [] => [(k, v)] | (k', v') :: d' => if eqb k k' then (k', v) :: d' else (k', v') :: dict_set k v d' end.
Definition dict_of (l : list (N * nat)) : list (N * nat) := fold_left (fun d kv => dict_set (fst kv) (snd kv) d) l [].
(* mapping[i]; a later pair overwrites an earlier one *)
Fixpoint map_get (m : list (nat * nat)) (i : nat) : result nat :=
  match m with
  | [] => Err KeyError
  | (k, v) :: m' => match map_get m' i with Ok v' => Ok v' | Err _ => if Nat.eqb k i then Ok v else Err KeyError end
  end.
(* base.py:140-161 from_dict *)
Definition graph_from_dict (d : graph_dict) : result (graph N E) :=
  let nd := dict_of (combine (d_nodes d) (d_indices d)) in
  let g := add_nodes_from empty_graph (map fst nd) in
  let mapping := combine (map snd nd) (seq 0 (length nd)) in
  bind (mapM (fun e => bind (map_get mapping (fst (fst e))) (fun i => bind (map_get mapping (snd (fst e))) (fun j => Ok (i, j, snd e)))) (d_edges d))
       (fun es => Ok (add_edges_from g es)).
End Serial.

(* network/base.py:63-89 Network.as_dict and from_dict, one after the other. The reactions
   and the cost function are read back unchanged; as_dict of a missing graph raises
   AttributeError. _precursors becomes a list. *)
Definition net_round_trip (order : list (nat * nat * payload) -> list (nat * nat * payload)) (w : network) : result network :=
  match w_graph w with
  | None => Err AttributeError
  | Some g => bind (graph_from_dict node_eqb (graph_as_dict order g)) (fun g' =>
      Ok {| w_entries := w_entries w; w_rxns := w_rxns w;
            w_precursors := if truthy (w_precursors w) then w_precursors w else None; w_listed := true;
            w_target := w_target w; w_graph := Some g' |})
  end.
