(* Model of the competition job of jobs/core.py. *)
From Coq Require Import Qround.
From Verif Require Import Prelude NumQ UtilsModel SolverModel.
Open Scope nat_scope.

(* A reaction: reduced formulas of its reactants (without repetitions) and products,
   energy per atom. *)
Record jrxn := { j_id : nat; j_reactants : list nat; j_products : list nat; j_energy : Q }.
(* A reaction with primary_competition and secondary_competition in its data. *)
Definition scored : Type := jrxn * (Q * Q).

(* all_rxns.get_rxns_by_reactants and get_rxns_by_product, in the cases covered by the
   positive theorems of C19 and C20. *)
Definition by_reactants (fs : list nat) (l : list jrxn) : list jrxn :=
  filter (fun r => forallb (fun f => memb Nat.eqb f fs) (j_reactants r)) l.
Definition by_product (f : nat) (l : list jrxn) : list jrxn := filter (fun r => memb Nat.eqb f (j_products r)) l.

(* a // b on floats *)
Definition floordiv (a b : Q) : result Z := if Qeq_bool b 0 then Err ZeroDivisionError else Ok (Qfloor (a / b)).

(* jobs/core.py:411-422 *)
Definition pick_chunk_size (chunk_size n_targets num_rxns : nat) (cpus memory : Q) : result nat :=
  let needed := inject_Z (250 * Z.of_nat num_rxns) in
  if Qlt_bool memory (cpus * needed)
  then bind (floordiv memory needed) (fun k => bind (floordiv (inject_Z (Z.of_nat n_targets)) (inject_Z k)) (fun q => Ok (Z.to_nat (q + 1))))
  else Ok chunk_size.

(* arr.min() and arr.max(); ValueError for an empty array *)
Definition arr_min (l : list Q) : result Q :=
  match l with [] => Err ValueError | x :: l' => Ok (fold_left (fun a b => if Qlt_bool b a then b else a) l' x) end.
Definition arr_max (l : list Q) : result Q :=
  match l with [] => Err ValueError | x :: l' => Ok (fold_left (fun a b => if Qlt_bool a b then b else a) l' x) end.

Section Jobs.
Variable same : jrxn -> jrxn -> bool.                     (* equality of reactions *)
Variable round4 : Q -> Q.                                 (* round(_, 4) *)
(* The scores from the interface hull of two formulas (reactions/hull.py). *)
Variable interface : nat -> nat -> list jrxn -> jrxn -> result (Q * Q).
Variable arrange : list nat -> list nat.                  (* iteration order of a set *)

(* jobs/core.py:699-711 *)
Definition score_single (r : jrxn) (competing : list jrxn) : result (Q * Q) :=
  let others := map j_energy (filter (fun x => negb (same x r)) competing) in
  let others := if existsb (fun e => isclose e 0) others then others else others ++ [0%Q] in
  bind (arr_min others) (fun m =>
  let diffs := map (fun e => j_energy r - e)%Q others in
  let positive := filter (fun d => Qlt_bool 0 d) diffs in
  bind (if existsb (fun d => negb (Qeq_bool d 0)) positive then arr_max positive else Ok 0%Q) (fun s =>
  Ok (round4 (j_energy r - m)%Q, round4 s))).

(* jobs/core.py:695-727 _get_competition_decorated_rxn *)
Definition decorate_one (r : jrxn) (competing : list jrxn) (precursors : list nat) : result scored :=
  if Nat.eqb (length precursors) 1 then bind (score_single r competing) (fun s => Ok (r, s))
  else bind (index precursors 0) (fun a => bind (index precursors 1) (fun b =>
       bind (interface a b competing r) (fun s => Ok (r, s)))).

(* jobs/core.py:740-754, one reaction; [open] is open_formula *)
Definition remove_open (o : nat) (fs : list nat) : list nat := arrange (filter (fun f => negb (Nat.eqb f o)) fs).
Definition decorate (all : list jrxn) (open : option nat) (r : jrxn) : result scored :=
  let fs := j_reactants r in
  let competing := by_reactants (match open with Some o => fs ++ [o] | None => fs end) all in
  if 3 <=? length fs
  then match open with
       | Some o => decorate_one r competing (remove_open o fs)
       | None => Err ValueError
       end
  else decorate_one r competing fs.

(* jobs/core.py:730-756 _get_competition_decorated_rxns_by_chunk *)
Definition by_chunk (all : list jrxn) (open : option nat) (chunk : list (option jrxn)) : result (list scored) :=
  mapM (decorate all open) (flat_map (fun o => match o with Some r => [r] | None => [] end) chunk).

(* jobs/core.py:407-446 _get_competition_decorated_rxns, up to the list that is passed
   to ReactionSet.from_rxns *)
Definition competition (wait : nat -> list nat -> list nat * list nat) (chunk_size num_rxns : nat) (cpus memory : Q)
    (targets all : list jrxn) (open : option nat) : result (list scored) :=
  bind (pick_chunk_size chunk_size (length targets) num_rxns cpus memory) (fun n =>
  bind (grouper (map Some targets) n None) (fun chunks =>
  bind (gather wait (by_chunk all open) chunks) (fun ls => Ok (concat ls)))).

(* jobs/core.py:354-381, the reactions kept by make, and the scores *)
Definition make (wait : nat -> list nat -> list nat * list nat) (chunk_size : nat) (cpus memory : Q)
    (target : nat) (all : list jrxn) (open : option nat) : result (list scored) :=
  let targets := by_product target all in
  match targets with
  | [] => Err ValueError
  | _ =>
      let kept := by_reactants (flat_map j_reactants targets) all in
      competition wait chunk_size (length kept) cpus memory targets kept open
  end.
End Jobs.
