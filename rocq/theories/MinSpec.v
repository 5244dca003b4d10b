(* Vocabulary for the properties of the minimising enumerators. *)
From Verif Require Import Prelude UtilsModel UtilsSpec EnumModel EnumSpec EntrySetSpec.
Open Scope nat_scope.

(* s lists the entries made of elements of k. *)
Definition within (elems : nat -> list nat) (entries k s : list nat) : Prop :=
  picks (fun e => forall x, In x (elems e) -> In x k) entries s.

(* The two ends of the interface of a combination of one or two phases. *)
Definition ends (c : list nat) (a b : nat) : Prop := (c = [a] /\ b = a) \/ c = [a; b] \/ c = [b; a].

(* One or two entries, none of them an open phase. *)
Definition combination (entries open_entries c : list nat) : Prop :=
  subseq c entries /\ 1 <= length c <= 2 /\ forall e, In e c -> ~ In e open_entries.

(* The combination is one whose interface the enumerator looks at: the chemical system
   is admissible and shares elements with the targets as the option asks; the
   combination contains a precursor, and only precursors if that is asked for. *)
Definition searched (elems : nat -> list nat) (o : options) (precursors targets open_entries c : list nat) : Prop :=
  let el := fun l x => exists e, In e l /\ In x (elems e) in
  system_ok elems o (flat_map elems open_entries) c
  /\ (precursors = [] \/ ((exists e, In e c /\ In e precursors)
      /\ (o_pfunc o = IsSuperset -> forall e, In e c -> In e precursors)))
  /\ (targets = [] \/ match o_tfunc o with
      | IsSuperset => forall x, el c x -> el targets x \/ el open_entries x
      | Intersection => exists x, (el c x \/ el open_entries x) /\ (el targets x \/ el open_entries x)
      end).

(* The reaction balances the lowest entries s has for the formulas of both sides. *)
Definition of_ground_states {X} formula epa (s : list nat) (balance : list nat -> list nat -> result X)
    (kink : list nat * list nat) (x : X) : Prop :=
  exists rs ps, let ground := fun f e => formula e = f /\ ground_state formula epa (fun m => In m s) e in
  Forall2 ground (fst kink) rs /\ Forall2 ground (snd kink) ps /\ balance rs ps = Ok x.

(* out holds, up to order, for each combination searched, the sound and wanted ones
   among the reactions at the kinks of its interface. *)
Definition interface_reactions {P} elems formula epa (build : list nat -> result P) kinks balance (o : options)
    (entries precursors targets open_entries : list nat) (out : list erxn) : Prop :=
  exists cs outs, NoDup cs
  /\ (forall c, In c cs <-> combination entries open_entries c /\ searched elems o precursors targets open_entries c)
  /\ Forall2 (fun c rs => exists k s pd a b ks all,
       chemsys_of elems (flat_map elems open_entries) c k /\ within elems entries k s /\ build s = Ok pd
       /\ ends c a b /\ kinks pd a b = Ok ks /\ Forall2 (of_ground_states formula epa s balance) ks all
       /\ picks (fun x => sound_rxn o x /\ wanted o precursors targets open_entries x) all rs) cs outs
  /\ Permutation out (concat outs).

(* What is assumed of pymatgen: the diagrams of the chemical systems can be built, and
   the reactions at the kinks name formulas of that system and have two sides. *)
Definition good_interfaces {P} (elems : nat -> list nat) (formula : nat -> nat) (build : list nat -> result P) kinks (entries open_entries : list nat) : Prop :=
  forall c k s, combination entries open_entries c -> chemsys_of elems (flat_map elems open_entries) c k -> within elems entries k s ->
  exists pd, build s = Ok pd /\ forall a b, In a c -> In b c -> exists ks, kinks pd a b = Ok ks
  /\ forall kink : list nat * list nat, In kink ks -> fst kink <> [] /\ snd kink <> []
       /\ forall f, In f (fst kink) \/ In f (snd kink) -> exists e, In e s /\ formula e = f.
