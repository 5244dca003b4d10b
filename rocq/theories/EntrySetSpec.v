(* Vocabulary for the properties of entry sets (C49-C53, C58-C60, C80). *)
From Verif Require Import Prelude NumQ SumQ ReactionModel ReactionSpec GibbsModel EntrySetModel.
Open Scope nat_scope.

(* An entry that some diagram places within the cutoff. *)
Definition qualifies (e_hull : list nat -> nat -> Q) (cutoff : Q) (pds : list (list nat)) (e : nat) : Prop :=
  exists pd, In pd pds /\ In e pd /\ (e_hull pd e <= cutoff)%Q.

(* m has the lowest energy per atom among the entries with its formula that satisfy P. *)
Definition ground_state (formula : nat -> nat) (epa : nat -> Q) (P : nat -> Prop) (m : nat) : Prop :=
  P m /\ forall e, P e -> formula e = formula m -> (epa m <= epa e)%Q.

(* The indices of the entries of a set are 0, 1, ... in some order, each once. *)
Definition indexed (members : list nat) (idx : nat -> option nat) : Prop :=
  exists order, Permutation order members /\ map idx order = map Some (seq 0 (length order)).

(* The entry comes from a constructor. *)
Definition constructed ln C mass table default_id refs deprecated (e : anyentry) : Prop :=
  match e with
  | AG g => exists adjs id, gibbs_init ln C mass table default_id (ge_comp g) (ge_dhf g) (ge_vol g) (ge_temp g) adjs id = Ok g
  | AX x => exists adjs, exp_init C refs deprecated (xe_comp x) (xe_temp x) adjs = Ok x
  | AI _ _ _ _ => True
  end.

(* e' is e with its energy shifted by z times the uncertainty (nothing if there is none). *)
Definition noisy ln C (unc : anyentry -> option Q) (e : anyentry) (z : Q) (e' : anyentry) : Prop :=
  any_comp e' = any_comp e
  /\ (any_energy ln C e' == any_energy ln C e + z * match unc e with Some u => u | None => 0 end)%Q.

(* A requested source gives an entry for the formula at the temperature. *)
Definition available (on ignore_solids : bool) (s : source) (f : nat) : Prop :=
  on = true /\ src_has s f = true /\ ~ (ignore_solids = true /\ src_ignored s f = true) /\ exists u, src_build s f = Ok u.
(* The constructor gives an entry or raises ValueError. *)
Definition well_behaved (s : source) : Prop := forall f x, src_build s f = Err x -> x = ValueError.
(* Not an elemental phase above the elemental reference. *)
Definition considered (is_el is_ref : nat -> bool) (e : nat) : Prop := ~ (is_el e = true /\ is_ref e = false).
