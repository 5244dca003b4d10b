(* What is asked of enumerating reactions and looking for pathways among them. *)
From Verif Require Import Prelude NumQ SumQ UtilsSpec ReactionModel RxnSetModel RxnSetSpec EnumModel EnumSpec LinSpec NetJobSpec JoinModel.
Open Scope nat_scope.

(* The entry i of the set, as it stands in a reaction set. *)
Definition in_set (C : chem) (ent : nat -> entry) (i : nat) : sentry :=
  {| uid := i; comp := e_comp (ent i); form := red C (e_comp (ent i)) |}.

(* The entries with the formula of an open phase. *)
Definition open_ones (C : chem) (ent : nat -> entry) (entries : list nat) (en : enumerator) : list nat :=
  match en_open en with
  | None => []
  | Some phases => filter (fun i => if in_dec Nat.eq_dec (red C (e_comp (ent i))) phases then true else false) entries
  end.

(* r has phases that are not open, p has some and at least one open phase. *)
Definition takes_open (op entries : list nat) (n : nat) (r p : list nat) : Prop :=
  (combo entries n r /\ disjoint r op)
  /\ exists c oc, (combo entries n c /\ disjoint c op) /\ (subseq oc op /\ oc <> []) /\ p = c ++ oc.

(* The phases of the two sides: up to n on both, without open phases or, for an enumerator
   with open phases, with some of them on one side. *)
Definition in_reach (C : chem) (ent : nat -> entry) (entries : list nat) (en : enumerator) (r p : list nat) : Prop :=
  match en_open en with
  | None => combo entries (o_n (en_options en)) r /\ combo entries (o_n (en_options en)) p
  | Some _ => takes_open (open_ones C ent entries en) entries (o_n (en_options en)) r p
              \/ takes_open (open_ones C ent entries en) entries (o_n (en_options en)) p r
  end.

(* The enumerator looks at reactions of the phases r to the phases p. *)
Definition looks_at (C : chem) (ent : nat -> entry) (entries : list nat) (en : enumerator) (r p : list nat) : Prop :=
  in_reach C ent entries en r p /\ disjoint r p
  /\ system_ok (fun i => ReactionModel.elems C (e_comp (ent i))) (en_options en)
       (flat_map (fun i => ReactionModel.elems C (e_comp (ent i))) (open_ones C ent entries en)) r
  /\ option_met (o_pfunc (en_options en)) (en_precursors en) (open_ones C ent entries en) r
  /\ option_met (o_tfunc (en_options en)) (en_targets en) (open_ones C ent entries en) p.

(* Settings an enumerator can work with, removing the reactions with changed sides. *)
Definition usable (en : enumerator) : Prop :=
  o_changed (en_options en) = true /\ 1 <= o_chunk (en_options en) /\ 1 <= o_jobs (en_options en) /\ 1 <= o_constraints (en_options en).

(* Of the entries with its formula, each of l has the least energy per atom. *)
Definition most_stable (C : chem) (ent : nat -> entry) (epa : nat -> Q) (entries l : list nat) : Prop :=
  forall i j, In i l -> In j entries -> red C (e_comp (ent j)) = red C (e_comp (ent i)) -> j = i \/ (epa i < epa j)%Q.

(* One of the enumerators looks at r and p, and r reacts to p in one way only. *)
Definition reacts (C : chem) (ent : nat -> entry) (entries : list nat) (ens : list enumerator) (r p : list nat) : Prop :=
  (exists en, In en ens /\ looks_at C ent entries en r p) /\ determined C (fun i => red C (e_comp (ent i))) r p.

(* x turns exactly the phases r into exactly the phases p, each in an amount that counts, and
   conserves the elements up to the tolerance. *)
Definition turns (C : chem) (ent : nat -> entry) (r p : list nat) (x : srxn) : Prop :=
  (forall e, uses x e <-> exists i, In i r /\ e = in_set C ent i) /\ (forall e, makes x e <-> exists i, In i p /\ e = in_set C ent i)
  /\ (forall e c, takes_part x e c -> (1 # 1000000 <= Qabs c)%Q)
  /\ forall el, (Qabs (sumQ (fun ec => amt C (form (fst ec)) el * snd ec) (combine (x_entries x) (x_coeffs x))) <= 1 # 100000000)%Q.

(* A sequence of steps from the phases ps to the phase t: every step uses ps and what the
   step before has left. *)
Fixpoint route (step : list nat -> list nat -> Prop) (ps : list nat) (t : nat) (have : list nat) (l : list (list nat * list nat)) : Prop :=
  match l with
  | [] => In t have
  | (r, p) :: l' => step r p /\ (forall i, In i r -> In i ps \/ In i have) /\ route step ps t p l'
  end.

(* What can be had from the phases ps, in any number of steps. *)
Inductive obtainable (step : list nat -> list nat -> Prop) (ps : list nat) : nat -> Prop :=
| given_phase i : In i ps -> obtainable step ps i
| made_phase r p i : step r p -> (forall j, In j r -> obtainable step ps j) -> In i p -> obtainable step ps i.
