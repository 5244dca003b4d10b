(* Model of saving and loading a reaction network (network/base.py:63-89) together with the
   setters and the search as they work on a network that was loaded (network/network.py),
   and of the nodes of a network (network/entry.py). *)
From Coq Require Import String.
From Verif Require Import Prelude NumQ EnumModel NetModel YenModel.
Local Open Scope string_scope. Open Scope nat_scope. Open Scope list_scope.

(* An entry, or the plain dictionary that the entry becomes in a JSON file. *)
Inductive value := Obj (e : nat) | Raw (e : nat).

(* The network object; l_listed: _precursors is a list, not a set. *)
Record lnetwork := { l_entries : list nat; l_rxns : list nrxn; l_precursors : option (list value); l_listed : bool; l_target : option value; l_graph : option net }.

(* base.py:27-48 and network.py:65-87 *)
Definition lnew (entries : list nat) (rxns : list nrxn) : lnetwork :=
  {| l_entries := entries; l_rxns := rxns; l_precursors := None; l_listed := false; l_target := None; l_graph := None |}.
Definition lbuild (l : lnetwork) : lnetwork :=
  {| l_entries := l_entries l; l_rxns := l_rxns l; l_precursors := l_precursors l; l_listed := l_listed l; l_target := l_target l; l_graph := Some (build (l_rxns l)) |}.

Definition lgraph (l : lnetwork) : result net :=
  match l_graph l with None => Err ValueError | Some g => if is_nil (nodes g) then Err ValueError else Ok g end.
Definition ltruthy (p : option (list value)) : bool := match p with None | Some [] => false | _ => true end.
(* entry == value: an entry is not equal to a dictionary *)
Definition entry_is (e : nat) (v : value) : bool := match v with Obj e' => Nat.eqb e e' | Raw _ => false end.
Fixpoint entries_are (es : list nat) (vs : list value) : bool :=
  match es, vs with [], [] => true | e :: es', v :: vs' => entry_is e v && entries_are es' vs' | _, _ => false end.

(* network.py:114-171 set_precursors *)
Definition lset_precursors (l : lnetwork) (precursors : list nat) : result lnetwork :=
  bind (lgraph l) (fun g =>
  let ps := mkset precursors in
  if match l_precursors l with Some old => negb (l_listed l) && entries_are ps old | None => false end then Ok l
  else if negb (subset ps (l_entries l)) then Err ValueError
  else
    bind (if ltruthy (l_precursors l)
          then match first_of_type Precursors g with Some i => Ok (remove_node g i) | None => Err ValueError end
          else Ok g) (fun g1 =>
    let '(g2, pn) := add_node g1 (Precursors, ps) in
    Ok {| l_entries := l_entries l; l_rxns := l_rxns l; l_precursors := Some (map Obj ps); l_listed := false; l_target := l_target l;
          l_graph := Some (add_edges_from g2 (precursor_edges ps pn g2)) |})).

(* network.py:173-225 set_target; a dictionary that stands for an entry is not empty,
   so "if self.target" holds *)
Definition lset_target (l : lnetwork) (t : nat) : result lnetwork :=
  bind (lgraph l) (fun g =>
  if match l_target l with Some old => entry_is t old | None => false end then Ok l
  else if negb (inb t (l_entries l)) then Err ValueError
  else
    bind (match l_target l with
          | Some _ => match first_of_type Target g with Some i => Ok (remove_node g i) | None => Err ValueError end
          | None => Ok g
          end) (fun g1 =>
    let '(g2, tn) := add_node g1 (Target, [t]) in
    Ok {| l_entries := l_entries l; l_rxns := l_rxns l; l_precursors := l_precursors l; l_listed := l_listed l; l_target := Some (Obj t);
          l_graph := Some (add_edges_from g2 (target_edges t tn g2)) |})).

Definition lrun_op (l : lnetwork) (o : net_op) : result lnetwork :=
  match o with SetPrecursors ps => lset_precursors l ps | SetTarget t => lset_target l t end.
Fixpoint lrun_ops (l : lnetwork) (ops : list net_op) : result lnetwork :=
  match ops with [] => Ok l | o :: ops' => bind (lrun_op l o) (fun l' => lrun_ops l' ops') end.

(* network/entry.py:36-46: set(entries) raises TypeError for dictionaries, which cannot be
   hashed *)
Definition as_entry (v : value) : result nat := match v with Obj e => Ok e | Raw _ => Err TypeError end.
Definition node_of_values (ty : ntype) (vs : list value) : result node := bind (mapM as_entry vs) (fun es => Ok (ty, mkset es)).

Section Search.
Variable cost : nrxn -> Q.
Variable sp : list (nat * nat * payload) -> nat -> nat -> option (list nat).
(* network.py:227-246 _k_shortest_paths. set(None) raises TypeError. *)
Definition lk_shortest_paths (l : lnetwork) (k : nat) : result (list (list (payload * Q))) :=
  bind (lgraph l) (fun g =>
  bind (match l_precursors l with Some vs => node_of_values Precursors vs | None => Err TypeError end) (fun pnode =>
  bind (match l_target l with Some v => node_of_values Target [v] | None => Err AttributeError end) (fun tnode =>
  match find_node node_eqb g pnode, find_node node_eqb g tnode with
  | Some s, Some tn => bind (yens_ksp (edge_weight cost) sp (g_edges g) k s tn) (fun paths => mapM (path_from_graph cost g) paths)
  | _, _ => Err TypeError
  end))).
(* network.py:89-112 find_pathways, up to PathwaySet.from_paths *)
Fixpoint lfind_loop (l : lnetwork) (k : nat) (targets : list nat) : result (lnetwork * list (list (payload * Q))) :=
  match targets with
  | [] => Ok (l, [])
  | t :: ts =>
      bind (lset_target l t) (fun l1 =>
      bind (lk_shortest_paths l1 k) (fun ps =>
      bind (lfind_loop l1 k ts) (fun r => Ok (fst r, ps ++ snd r))))
  end.
Definition lfind_pathways (l : lnetwork) (targets : list nat) (k : nat) : result (lnetwork * list (list (payload * Q))) :=
  if ltruthy (l_precursors l) then lfind_loop l k targets else Err AttributeError.
End Search.

(* The dictionary of a network. A missing key and the value None are not distinguished:
   both are read as None. *)
Record netdict := { y_entries : list nat; y_rxns : list nrxn; y_precursors : option (list value); y_target : option value; y_graph : option (@graph_dict node payload) }.

(* base.py:63-71 as_dict; [order] is the order of edge_list(). None has no as_dict. *)
Definition net_as_dict (order : list (nat * nat * payload) -> list (nat * nat * payload)) (l : lnetwork) : result netdict :=
  match l_graph l with
  | None => Err AttributeError
  | Some g => Ok {| y_entries := l_entries l; y_rxns := l_rxns l;
                    y_precursors := if ltruthy (l_precursors l) then l_precursors l else None;
                    y_target := l_target l; y_graph := Some (graph_as_dict order g) |}
  end.
(* What json.dump and json.load (monty's encoder) make of it: every entry becomes a
   dictionary. from_dict is given this dictionary as it is; the reactions, the cost
   function and the graph are decoded by MSONable.from_dict and process_decoded and are
   assumed to be read back unchanged. *)
Definition raw (v : value) : value := match v with Obj e => Raw e | Raw e => Raw e end.
Definition in_json (d : netdict) : netdict :=
  {| y_entries := y_entries d; y_rxns := y_rxns d; y_precursors := option_map (map raw) (y_precursors d); y_target := option_map raw (y_target d); y_graph := y_graph d |}.
(* base.py:73-89 from_dict: the network, and what the pops leave of the argument. *)
Definition net_from_dict (d : netdict) : result (lnetwork * netdict) :=
  bind (match y_graph d with None => Ok None | Some gd => bind (graph_from_dict node_eqb gd) (fun g => Ok (Some g)) end) (fun g =>
  Ok ({| l_entries := y_entries d; l_rxns := y_rxns d; l_precursors := y_precursors d; l_listed := true; l_target := y_target d; l_graph := g |},
      {| y_entries := y_entries d; y_rxns := y_rxns d; y_precursors := None; y_target := None; y_graph := None |})).

(* --- the nodes of a network --- *)
Section Node.
Variable E : Type.
Variable eqe : E -> E -> bool.            (* __eq__ of entries *)
Variable elems : E -> list string.        (* entry.composition.elements *)
Variable order : list string -> list string. (* sorted(set(...)) of elements, by electronegativity *)
Inductive kind := KPrecursors | KReactants | KProducts | KTarget | KDummy.
Definition kind_eqb (a b : kind) : bool :=
  match a, b with KPrecursors, KPrecursors | KReactants, KReactants | KProducts, KProducts | KTarget, KTarget | KDummy, KDummy => true | _, _ => false end.
Record nentry := { ne_entries : list E; ne_elements : list string; ne_chemsys : string; ne_dim : nat; ne_kind : kind; ne_dummy : bool }.

(* set(entries): the first of several equal entries stays *)
Definition dedup (l : list E) : list E := fold_left (fun acc e => if existsb (eqe e) acc then acc else acc ++ [e]) l [].
(* entry.py:36-46 NetworkEntry.__init__ *)
Definition network_entry (es : list E) (k : kind) : nentry :=
  let el := order (flat_map elems es) in
  let cs := String.concat "-" el in
  {| ne_entries := dedup es; ne_elements := el; ne_chemsys := cs; ne_dim := String.length cs; ne_kind := k; ne_dummy := false |}.
(* entry.py:112-118 DummyEntry.__init__ *)
Definition dummy_entry : nentry := {| ne_entries := []; ne_elements := []; ne_chemsys := ""; ne_dim := 0; ne_kind := KDummy; ne_dummy := true |}.
(* set comparison *)
Definition same_entries (a b : list E) : bool := forallb (fun x => existsb (eqe x) b) a && forallb (fun y => existsb (eqe y) a) b.
(* entry.py:92-99 and 123-124 __eq__; [same]: both are the same object. A DummyEntry is an
   instance of NetworkEntry, and its own __eq__ is tried first. *)
Definition nentry_eq (same : bool) (a b : nentry) : bool :=
  if ne_dummy a || ne_dummy b then same
  else kind_eqb (ne_kind a) (ne_kind b) && String.eqb (ne_chemsys a) (ne_chemsys b) && same_entries (ne_entries a) (ne_entries b).
(* entry.py:72-87: as_dict and from_dict one after the other; the entries are assumed to be
   read back unchanged. The class is the one named in the dictionary; DummyEntry() takes no
   arguments. *)
Definition nentry_round_trip (a : nentry) : result nentry :=
  if ne_dummy a then Err TypeError else Ok (network_entry (ne_entries a) (ne_kind a)).
End Node.
