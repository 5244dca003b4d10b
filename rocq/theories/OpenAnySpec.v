(* Vocabulary for the open enumerator with any setting of the flags. *)
From Verif Require Import Prelude EnumModel EnumSpec EnumAnySpec.
Open Scope nat_scope.

(* The two phase sets have the same elements together with the open elements, and these
   are allowed by the elements of the precursors and of the targets. *)
Definition one_open_system (elems : nat -> list nat) (o : options) (precursors targets open_entries r p : list nat) : Prop :=
  let of := fun l z => exists g, In g l /\ In z (elems g) in
  exists k, chemsys_of elems (flat_map elems open_entries) r k /\ chemsys_of elems (flat_map elems open_entries) p k
  /\ (precursors = [] \/ allows (o_pfunc o) (fun z => of precursors z \/ of open_entries z) k)
  /\ (targets = [] \/ allows (o_tfunc o) (fun z => of targets z \/ of open_entries z) k).

(* One of the two sides may hold the phases given and open phases, and one of those given
   is in one of them. *)
Definition one_open_side (f : set_func) (given open_entries r p : list nat) : Prop :=
  given = [] \/ (exists e, In e given /\ (In e r \/ In e p))
                /\ (allows f (fun e => In e given \/ In e open_entries) r \/ allows f (fun e => In e given \/ In e open_entries) p).

(* out holds, up to order, the reactions wanted and kept by the flags among balance r p
   and backward r p, for each pair of the kind. *)
Definition all_open_kept (o : options) (precursors targets open_entries : list nat) (balance backward : list nat -> list nat -> erxn)
    (pair_kind : list nat -> list nat -> Prop) (out : list erxn) : Prop :=
  exists pairs outs, NoDup pairs /\ (forall r p, In (r, p) pairs <-> pair_kind r p)
  /\ Forall2 (fun rp rs => picks (fun x => kept_rxn o x /\ wanted o precursors targets open_entries x)
                                 [balance (fst rp) (snd rp); backward (fst rp) (snd rp)] rs) pairs outs
  /\ Permutation out (concat outs).
