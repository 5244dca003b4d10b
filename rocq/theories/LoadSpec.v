(* Vocabulary for networks that are saved and loaded, and for the nodes of a network. *)
From Coq Require Import String.
From Verif Require Import Prelude NetModel LoadModel.
Local Open Scope string_scope. Open Scope nat_scope. Open Scope list_scope.

(* Saving a network, with or without a file in between, and reading it. *)
Definition stored (file : bool) order (l : lnetwork) : result netdict := bind (net_as_dict order l) (fun d => Ok (if file then in_json d else d)).
Definition reloaded (file : bool) order (l : lnetwork) : result lnetwork := bind (stored file order l) (fun d => bind (net_from_dict d) (fun r => Ok (fst r))).

(* eq is an equivalence. *)
Definition equivalence {E} (eqe : E -> E -> bool) : Prop :=
  (forall a, eqe a a = true) /\ (forall a b, eqe a b = eqe b a) /\ (forall a b c, eqe a b = true -> eqe b c = true -> eqe a c = true).
(* Every entry of a has an equal one in b. *)
Definition covered {E} (eqe : E -> E -> bool) (a b : list E) : Prop := forall x, In x a -> exists y, In y b /\ eqe x y = true.
(* The letters of some symbols. *)
Definition letters (l : list string) : nat := fold_right (fun s n => String.length s + n) 0 l.
