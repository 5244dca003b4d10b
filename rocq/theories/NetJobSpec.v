(* What is asked of the job that builds a network and looks for pathways. *)
From Verif Require Import Prelude NumQ RxnSetModel RxnSetSpec NetModel.
Open Scope nat_scope.

(* The entries used up and made by a reaction. *)
Definition uses (r : srxn) (e : sentry) : Prop := exists c, takes_part r e c /\ (c < 0)%Q.
Definition makes (r : srxn) (e : sentry) : Prop := exists c, takes_part r e c /\ (0 < c)%Q.

(* From the precursors, and what the last reaction left, the reactions l lead to t. *)
Fixpoint leads (ps : list sentry) (t : sentry) (have : sentry -> Prop) (l : list srxn) : Prop :=
  match l with
  | [] => have t
  | r :: l' => (forall e, uses r e -> In e ps \/ have e) /\ leads ps t (makes r) l'
  end.
Definition nothing (e : sentry) : Prop := False.

(* The pathway p goes through the reactions xs of the network, with their costs. *)
Definition goes_through (cost : srxn -> Q) (rs : list srxn) (p : list (payload * Q)) (xs : list srxn) : Prop :=
  Forall2 (fun pc x => (exists n, fst pc = Rxn n /\ nth_error rs (n_id n) = Some x) /\ snd pc = cost x) p xs.

(* Pathways to t: each leads from the precursors to t, none twice, at most k, and none only if
   there is no way. *)
Definition pathways_to (cost : srxn -> Q) (rs : list srxn) (ps : list sentry) (t : sentry) (k : nat) (pathways : list (list (payload * Q))) : Prop :=
  Forall (fun p => exists xs, goes_through cost rs p xs /\ incl xs rs /\ leads ps t nothing xs) pathways
  /\ NoDup pathways /\ length pathways <= k
  /\ (pathways = [] <-> forall xs, incl xs rs -> ~ leads ps t nothing xs).

(* The reactions rs are the reactions given, in the environment m, one of each family. *)
Definition families (m : option (list (nat * Q))) (given rs : list srxn) : Prop :=
  (forall r, In r given -> exists r', In r' rs /\ multiples r r')
  /\ (forall r', In r' rs -> exists r, In r given /\ r' = with_mu m r)
  /\ (forall i j r r', nth_error rs i = Some r -> nth_error rs j = Some r' -> multiples r r' -> i = j).

(* e is the entry of lowest energy of the formula f among the entries of the reactions. *)
Definition lowest (epa : nat -> Q) (given : list srxn) (f : nat) (e : sentry) : Prop :=
  form e = f /\ (exists r, In r given /\ In e (x_entries r))
  /\ forall r e', In r given -> In e' (x_entries r) -> form e' = f -> (epa (uid e) <= epa (uid e'))%Q.
