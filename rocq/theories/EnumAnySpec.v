(* Vocabulary for the reactions found with any setting of the flags. *)
From Verif Require Import Prelude EnumModel EnumSpec.
Open Scope nat_scope.

(* A reaction that is not removed for chemical reasons, by the flags of the enumerator. *)
Definition kept_rxn (o : options) (r : erxn) : Prop :=
  er_identity r = false /\ (o_unbalanced o = true -> er_balanced r = true) /\ (o_changed o = true -> er_errors r = Some 0)
  /\ er_constraints r <= o_constraints o.

(* All of x is among what is given, or some of it. *)
Definition allows (f : set_func) (given : nat -> Prop) (x : list nat) : Prop :=
  match f with IsSuperset => forall e, In e x -> given e | Intersection => exists e, In e x /\ given e end.

(* The two phase sets have the same elements, and these are allowed by the elements of
   the precursors and of the targets. *)
Definition one_system (elems : nat -> list nat) (o : options) (precursors targets r p : list nat) : Prop :=
  exists k, chemsys_of elems [] r k /\ chemsys_of elems [] p k
  /\ (precursors = [] \/ allows (o_pfunc o) (fun z => exists g, In g precursors /\ In z (elems g)) k)
  /\ (targets = [] \/ allows (o_tfunc o) (fun z => exists g, In g targets /\ In z (elems g)) k).

(* One of the two sides may hold the phases given, and one of these is in one of them. *)
Definition one_side (f : set_func) (given r p : list nat) : Prop :=
  given = [] \/ (exists e, In e given /\ (In e r \/ In e p))
                /\ (allows f (fun e => In e given) r \/ allows f (fun e => In e given) p).

(* out holds, up to order, the reactions wanted and kept by the flags among balance r p
   and backward r p, for each pair of the kind. *)
Definition all_kept (o : options) (precursors targets : list nat) (balance backward : list nat -> list nat -> erxn)
    (pair_kind : list nat -> list nat -> Prop) (out : list erxn) : Prop :=
  exists pairs outs, NoDup pairs /\ (forall r p, In (r, p) pairs <-> pair_kind r p)
  /\ Forall2 (fun rp rs => picks (fun x => kept_rxn o x /\ wanted o precursors targets [] x)
                                 [balance (fst rp) (snd rp); backward (fst rp) (snd rp)] rs) pairs outs
  /\ Permutation out (concat outs).
