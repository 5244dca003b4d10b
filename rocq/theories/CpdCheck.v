(* Concrete diagrams: witnesses for C87-C90. *)
From Coq Require Import String.
From Verif Require Import Prelude NumQ UtilsModel UtilsSpec ReactionModel EntrySetModel SolverModel RxnSetCheck CpdModel CpdSpec CpdProofs.
Open Scope list_scope.
Open Scope nat_scope.

Definition some_rxn : creaction := {| c_entries := [(1, (-1)%Q); (2, (-1)%Q); (3, 1%Q); (4, 2%Q)]; c_grand := None |}.
Definition open_rxn : creaction := {| c_entries := [(1, (-1)%Q); (2, (-1)%Q); (3, 1%Q); (4, 2%Q)]; c_grand := Some (fun e => negb (Nat.eqb e 2)) |}.
Definition some_distance (a b : nat) : Q := inject_Z (Z.of_nat (a * b)).

Lemma no_function : exists f r l, interfaces r l /\ l <> [] /\ (forall ds, exists v, f ds = Ok (Some v))
  /\ bind (mu_init (Func f)) (fun mu => calculate (fun x => x) (fun a b => Ok (some_distance a b)) mu r) = Err AttributeError.
Proof.
  exists (fun ds => Ok (Some (Qsum ds))), some_rxn, (all_pairs some_rxn). split.
  - apply interfaces_spec. repeat constructor; cbn; intuition discriminate.
  - split; [discriminate|]. split; [intros ds; exists (Qsum ds); reflexivity|apply custom_function].
Qed.

(* An entry on the hull whose domain is found only after it is forced down. *)
Definition on_ground (_ : list nat) (_ : nat) : result nat := Ok 0.
Definition on_hull (_ : list nat) (e : nat) (force : bool) : result nat := Ok (if force then 100 + e else e).
Definition forced_only (set : list nat) (_ : nat) : option (list Q) := if mem 100 set then Some [0%Q] else None.
Lemma entry_lost : exists c d, c_set c = [0; 1; 2] /\ metastable on_ground on_hull forced_only 5 c = ({| c_set := [1; 2]; c_cache := [(5, d)] |}, Ok d).
Proof. exists {| c_set := [0; 1; 2]; c_cache := [] |}. eexists. split; [reflexivity|]. vm_compute. reflexivity. Qed.

(* An entry above the hull, without a domain. *)
Definition above_hull (_ : list nat) (e : nat) (force : bool) : result nat := Ok (if force then 100 + e else 50 + e).
Lemma entry_left : exists c c', c_set c = [0; 1; 2] /\ metastable on_ground above_hull (fun _ _ => None : option (list Q)) 5 c = (c', Err ValueError) /\ c_set c' = [0; 1; 2; 100].
Proof. exists {| c_set := [0; 1; 2]; c_cache := [] |}. eexists. split; [reflexivity|]. split; [vm_compute; reflexivity|reflexivity]. Qed.

Lemma chunk_matters : exists system rxns,
  exists out, chempot_job system lifo_any (fun l => l) 1 rxns = Ok out /\ In (0, [1; 2]) out
  /\ exists out', chempot_job system lifo_any (fun l => l) 2 rxns = Ok out' /\ In (0, [1; 2; 3]) out' /\ ~ In (0, [1; 2]) out'.
Proof.
  exists (fun r => match r with 0 => [1; 2] | _ => [1; 2; 3] end), [0; 1].
  eexists. split; [vm_compute; reflexivity|]. split; [cbn; tauto|]. eexists. split; [vm_compute; reflexivity|]. split; [cbn; tauto|]. cbn. intuition discriminate.
Qed.
