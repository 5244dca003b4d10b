(* Model of yens_ksp and of the construction of pathways (network/network.py). *)
From Verif Require Import Prelude NumQ EnumModel NetModel.
Open Scope nat_scope.

Section Yen.
Context {E : Type}.
Variable weight : E -> Q.                (* get_edge_weight(edge, cf) *)
(* rx.dijkstra_shortest_paths(g, u, t)[t]; None when the result is empty *)
Variable sp : list (nat * nat * E) -> nat -> nat -> option (list nat).
Notation edges := (list (nat * nat * E)).

Definition joins (i j : nat) (e : nat * nat * E) : bool := Nat.eqb (fst (fst e)) i && Nat.eqb (snd (fst e)) j.
(* get_edge_data: the newest edge *)
Definition edge_data (es : edges) (i j : nat) : result E :=
  match find (joins i j) es with Some e => Ok (snd e) | None => Err NoEdgeBetweenNodes end.
(* remove_edge: the newest edge *)
Fixpoint remove_edge (es : edges) (i j : nat) : edges :=
  match es with [] => [] | e :: es' => if joins i j e then es' else e :: remove_edge es' i j end.

(* network.py:374-379 path_cost *)
Fixpoint path_cost (es : edges) (p : list nat) : result Q :=
  match p with
  | i :: ((j :: _) as p') => bind (edge_data es i j) (fun e => bind (path_cost es p') (fun c => Ok (weight e + c)%Q))
  | _ => Ok 0%Q
  end.

(* network.py:412-421: removal of the edges leaving the root path. The end points exist
   because of the length test. *)
Fixpoint remove_used (i : nat) (root : list nat) (paths : list (list nat)) (es removed : edges) : edges * edges :=
  match paths with
  | [] => (es, removed)
  | p :: ps =>
      if Nat.ltb i (length p - 1) && list_eqb root (firstn i p)
      then match edge_data es (nth i p 0) (nth (S i) p 0) with
           | Ok e => remove_used i root ps (remove_edge es (nth i p 0) (nth (S i) p 0)) (removed ++ [(nth i p 0, nth (S i) p 0, e)])
           | Err _ => remove_used i root ps es removed
           end
      else remove_used i root ps es removed
  end.

(* PriorityQueue of (cost, path) *)
Fixpoint lex_ltb (a b : list nat) : bool :=
  match a, b with
  | _, [] => false
  | [], _ :: _ => true
  | x :: a', y :: b' => Nat.ltb x y || (Nat.eqb x y && lex_ltb a' b')
  end.
Definition item_ltb (a b : Q * list nat) : bool :=
  Qlt_bool (fst a) (fst b) || (Qeq_bool (fst a) (fst b) && lex_ltb (snd a) (snd b)).
(* the smallest item and the others *)
Fixpoint pop_min (x : Q * list nat) (b : list (Q * list nat)) : (Q * list nat) * list (Q * list nat) :=
  match b with
  | [] => (x, [])
  | y :: b' => let '(m, rest) := pop_min y b' in if item_ltb m x then (m, x :: rest) else (x, y :: b')
  end.

(* network.py:404-432: one spur node. The state is the graph and the queue. *)
Definition spur (t : nat) (a : list (list nat)) (prev : list nat) (i : nat) (st : edges * list (Q * list nat))
  : result (edges * list (Q * list nat)) :=
  let '(es, b) := st in
  let root := firstn i prev in
  let '(es1, removed) := remove_used i root a es [] in
  let found := sp es1 (nth i prev 0) t in
  let es2 := rev removed ++ es1 in
  match found with
  | None => Ok (es2, b)
  | Some q => bind (path_cost es2 (root ++ q)) (fun c => Ok (es2, (c, root ++ q) :: b))
  end.
Fixpoint spurs (t : nat) (a : list (list nat)) (prev : list nat) (is : list nat) (st : edges * list (Q * list nat))
  : result (edges * list (Q * list nat)) :=
  match is with [] => Ok st | i :: is' => bind (spur t a prev i st) (fun st' => spurs t a prev is' st') end.

(* network.py:434-443: take items until one is new. The number of items bounds the
   iterations. *)
Fixpoint take_new (fuel : nat) (a : list (list nat)) (b : list (Q * list nat)) : option (list nat) * list (Q * list nat) :=
  match fuel, b with
  | S n, x :: b' => let '(m, rest) := pop_min x b' in
                    if memb list_eqb (snd m) a then take_new n a rest else (Some (snd m), rest)
  | _, _ => (None, [])
  end.

(* network.py:395-443: iterations k, k+1, ..., k+n-1 *)
Fixpoint yen_loop (n k t : nat) (es : edges) (a : list (list nat)) (b : list (Q * list nat)) : result (list (list nat)) :=
  match n with
  | 0 => Ok a
  | S n' =>
      match nth_error a (k - 1) with
      | None => Ok a
      | Some prev =>
          bind (spurs t a prev (seq 0 (length prev - 1)) (es, b)) (fun st =>
          let '(es', b') := st in
          match take_new (length b') a b' with
          | (Some p, b'') => yen_loop n' (S k) t es' (a ++ [p]) b''
          | (None, b'') => yen_loop n' (S k) t es' a b''
          end)
      end
  end.

(* network.py:347-445 yens_ksp; the graph is copied first *)
Definition yens_ksp (es : edges) (num_k s t : nat) : result (list (list nat)) :=
  match sp es s t with
  | None => Ok []
  | Some first => bind (path_cost es first) (fun _ => yen_loop (num_k - 1) 1 t es [first] [])
  end.
End Yen.

(* --- pathways --- *)
Section Pathways.
Variable cost : nrxn -> Q.              (* cf.evaluate *)
Variable sp : list (nat * nat * payload) -> nat -> nat -> option (list nat).

(* network.py:326-344 get_edge_weight; every edge is of one of the known kinds *)
Definition edge_weight (p : payload) : Q := match p with Rxn r => cost r | _ => 0%Q end.

(* network.py:249-261 _path_from_graph: reactions and costs; [prev] is path[step-1] *)
Fixpoint path_from (g : net) (prev : nat) (path : list nat) : result (list (payload * Q)) :=
  match path with
  | [] => Ok []
  | i :: rest =>
      match node_at g i with
      | None => Err IndexError
      | Some n =>
          if ntype_eqb (fst n) Products
          then bind (edge_data (g_edges g) prev i) (fun e => bind (path_from g i rest) (fun l => Ok ((e, edge_weight e) :: l)))
          else path_from g i rest
      end
  end.
(* path[-1] for the first step *)
Definition path_from_graph (g : net) (path : list nat) : result (list (payload * Q)) := path_from g (last path 0) path.

(* network.py:227-246 _k_shortest_paths. find_node_by_weight gives None for a missing
   node; the shortest path routine then raises TypeError. Without precursors NetworkEntry
   (entry.py:39-40) fails on set(None), without a target on the composition of None. *)
Definition k_shortest_paths (w : network) (k : nat) : result (list (list (payload * Q))) :=
  bind (get_graph w) (fun g =>
  match w_precursors w, w_target w with
  | Some ps, Some t =>
      match find_node node_eqb g (Precursors, ps), find_node node_eqb g (Target, [t]) with
      | Some s, Some tn =>
          bind (yens_ksp edge_weight sp (g_edges g) k s tn) (fun paths => mapM (path_from_graph g) paths)
      | _, _ => Err TypeError
      end
  | None, _ => Err TypeError
  | Some _, None => Err AttributeError
  end).

(* network.py:89-112 find_pathways, up to PathwaySet.from_paths *)
Fixpoint find_loop (w : network) (k : nat) (targets : list nat) : result (network * list (list (payload * Q))) :=
  match targets with
  | [] => Ok (w, [])
  | t :: ts =>
      bind (set_target w t) (fun w1 =>
      bind (k_shortest_paths w1 k) (fun ps =>
      bind (find_loop w1 k ts) (fun r => Ok (fst r, ps ++ snd r))))
  end.
Definition find_pathways (w : network) (targets : list nat) (k : nat) : result (network * list (list (payload * Q))) :=
  if truthy (w_precursors w) then find_loop w k targets else Err AttributeError.
End Pathways.
