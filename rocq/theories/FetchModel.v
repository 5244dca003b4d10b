(* Model of utils/database.py (stored results of a target) and of
   filter_df_by_precursors (reactions/plotting.py). *)
From Coq Require Import String.
From Verif Require Import Prelude NumQ ReactionModel RxnSetModel FrameModel.
Local Open Scope string_scope.
Open Scope nat_scope.
Open Scope list_scope.

(* What the query reads from a stored job: output.target_formula, output.open_elem,
   output.chempot, metadata.fw_id, completed_at, and the reactions in the output. A
   missing value and None are the same. Other outputs have no target_formula. *)
Record task := {
  t_target : option nat;
  t_open : option nat;
  t_chempot : option Q;
  t_fw : option nat;
  t_time : Z;
  t_rxns : rset
}.
Definition opt_eqb {A} (eqb : A -> A -> bool) (a b : option A) : bool :=
  match a, b with Some x, Some y => eqb x y | None, None => true | _, _ => false end.

(* utils/database.py:31-38: the query. Composition(target).reduced_formula is taken
   before. *)
Definition matches (target : nat) (open_elem : option nat) (chempot : Q) (fw : option nat) (t : task) : bool :=
  opt_eqb Nat.eqb (t_target t) (Some target) && opt_eqb Nat.eqb (t_open t) open_elem && opt_eqb Qeq_bool (t_chempot t) (Some chempot)
  && match fw with Some _ => opt_eqb Nat.eqb (t_fw t) fw | None => true end.
(* utils/database.py:40: query_one sorted by completed_at, latest first *)
Definition newer (best : option task) (t : task) : option task :=
  match best with Some b => if Z.ltb (t_time b) (t_time t) then Some t else Some b | None => Some t end.
Definition query_one (target : nat) (open_elem : option nat) (chempot : Q) (fw : option nat) (tasks : list task) : option task :=
  fold_left newer (filter (matches target open_elem chempot fw) tasks) None.

(* utils/database.py:12-56 get_rxns_from_db. [reduced] is
   Composition(target).reduced_formula, which may raise. The stored set is decoded
   unchanged. *)
Definition get_rxns_from_db (arrange : list sentry -> list sentry) (tasks : list task) (reduced : result nat) (open_elem : option nat)
    (chempot : Q) (fw : option nat) : result rset :=
  bind reduced (fun target =>
  match query_one target open_elem chempot fw tasks with
  | None => Err ValueError
  | Some t =>
      match open_elem with
      | None => Ok (t_rxns t)
      | Some el => bind (get_rxns (t_rxns t)) (fun rs => from_rxns arrange rs [] (Some el) chempot)
      end
  end).

(* reactions/plotting.py:174-179 filter_df_by_precursors. [reactants i] are the formulas
   of the reactants of the reaction in a cell. What pandas does with a table without
   rows is [no_rows]. A column "precursors" of the table is replaced and dropped. *)
Section Filter.
Variable reactants : nat -> list nat.
Variable no_rows : frame -> result frame.
Definition as_rxn (c : cell) : result nat := match c with Rxn i => Ok i | _ => Err AttributeError end.
Definition keep_rows {A} (marks : list bool) (col : list A) : list A :=
  flat_map (fun mc : bool * A => if fst mc then [snd mc] else []) (combine marks col).
Definition filter_df (d : frame) (precursors : list nat) : result frame :=
  bind (column "rxn" d) (fun col =>
  bind (mapM as_rxn col) (fun ids =>
  match ids with
  | [] => no_rows d
  | _ =>
      let marks := map (fun i => forallb (fun p => memb Nat.eqb p precursors) (reactants i)) ids in
      Ok (map (fun kc => (fst kc, keep_rows marks (snd kc))) (filter (fun kc => negb (String.eqb (fst kc) "precursors")) d))
  end)).
End Filter.
