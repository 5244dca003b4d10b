(* Vocabulary for the properties of the enumerators. *)
From Verif Require Import Prelude UtilsModel UtilsSpec EnumModel.
From Coq Require Export Sorted.
From Coq Require Export Permutation.
Open Scope nat_scope.

(* The pairs of all items in order, each with the tag of its own item. *)
Definition tagged {T R} (items : list (T * list R)) : list (T * R) :=
  flat_map (fun i => map (pair (fst i)) (snd i)) items.
(* The pairs of one job in order, each with the tag it is run with. *)
Definition contents {T R} (job : list (list R * T)) : list (T * R) :=
  flat_map (fun c => map (pair (snd c)) (fst c)) job.

(* k lists the elements of the entries and the open elements alphabetically, each
   once. *)
Definition chemsys_of (elems : nat -> list nat) (open_elems : list nat) (c : list nat) (k : list nat) : Prop :=
  StronglySorted lt k /\ forall x, In x k <-> (exists e, In e c /\ In x (elems e)) \/ In x open_elems.

(* The items of l satisfying P, in order. *)
Inductive picks {A} (P : A -> Prop) : list A -> list A -> Prop :=
| picks_nil : picks P [] []
| picks_in x l out : P x -> picks P l out -> picks P (x :: l) (x :: out)
| picks_out x l out : ~ P x -> picks P l out -> picks P (x :: l) out.

Definition disjoint (a b : list nat) : Prop := forall x, In x a -> ~ In x b.
Definition same_set (a b : list nat) : Prop := forall x, In x a <-> In x b.

(* Does a side x of a reaction satisfy the option for the phases given by the user?
   Open phases are always allowed and never sufficient. *)
Definition option_met (f : set_func) (given open_entries x : list nat) : Prop :=
  given = [] \/ match f with
                | IsSuperset => forall e, In e x -> In e given \/ In e open_entries
                | Intersection => exists e, In e x /\ In e given /\ ~ In e open_entries
                end.
Definition wanted (o : options) (precursors targets open_entries : list nat) (r : erxn) : Prop :=
  option_met (o_pfunc o) precursors open_entries (er_reactants r) /\ option_met (o_tfunc o) targets open_entries (er_products r).

(* A reaction that is not removed for chemical reasons. *)
Definition sound_rxn (o : options) (r : erxn) : Prop :=
  er_identity r = false /\ (o_unbalanced o = true -> er_balanced r = true) /\ er_errors r = Some 0
  /\ er_constraints r <= o_constraints o.

(* The phases of the two sides, as BasicEnumerator and BasicOpenEnumerator pair them:
   two different combinations of at most n entries, the second one after the first;
   or a combination and another one together with some open phases. *)
Definition combo (entries : list nat) (n : nat) (c : list nat) : Prop := subseq c entries /\ 1 <= length c <= n.
(* shorter ones first, then by the first entry in which they differ *)
Definition before (entries r p : list nat) : Prop :=
  length r < length p
  \/ length r = length p /\ exists common a b r' p', r = common ++ a :: r' /\ p = common ++ b :: p' /\ subseq [a; b] entries.
Definition basic_pair (entries : list nat) (n : nat) (r p : list nat) : Prop :=
  combo entries n r /\ combo entries n p /\ before entries r p.
Definition open_pair (entries open_entries : list nat) (n : nat) (r p : list nat) : Prop :=
  exists c oc, combo entries n r /\ combo entries n c /\ p = c ++ oc
  /\ subseq oc open_entries /\ oc <> [].

(* out holds, up to order, the sound and wanted ones among balance r p and backward r p,
   for each pair of disjoint phase sets of the right kind. *)
Definition all_reactions (o : options) (precursors targets open_entries : list nat) (balance : list nat -> list nat -> erxn)
    (backward : list nat -> list nat -> erxn) (pair_kind : list nat -> list nat -> Prop) (out : list erxn) : Prop :=
  exists pairs outs, NoDup pairs /\ (forall r p, In (r, p) pairs <-> pair_kind r p)
  /\ Forall2 (fun rp rs => picks (fun x => sound_rxn o x /\ wanted o precursors targets open_entries x)
                                 [balance (fst rp) (snd rp); backward (fst rp) (snd rp)] rs) pairs outs
  /\ Permutation out (concat outs).

(* The chemical system of the combination is one the enumerator looks at. *)
Definition system_ok (elems : nat -> list nat) (o : options) (open_elems c : list nat) : Prop :=
  exists k, chemsys_of elems open_elems c k /\ 2 <= length k <= 9
  /\ forall f, o_chemsys o = Some f -> forall x, In x f -> In x k.

(* What is assumed of ComputedReaction.balance and reverse: a reaction balanced without
   errors has the given entries on its sides and both sides have the same elements;
   reversing swaps the sides and keeps the number of errors. *)
Definition good_balance (elems : nat -> list nat) (balance backward : list nat -> list nat -> erxn) : Prop :=
  forall r p, r <> [] -> p <> [] ->
    er_reactants (backward r p) = er_products (balance r p) /\ er_products (backward r p) = er_reactants (balance r p)
    /\ er_errors (backward r p) = er_errors (balance r p)
    /\ (er_errors (balance r p) = Some 0 ->
         same_set (er_reactants (balance r p)) r /\ same_set (er_products (balance r p)) p
         /\ forall x, (exists e, In e r /\ In x (elems e)) <-> (exists e, In e p /\ In x (elems e))).
