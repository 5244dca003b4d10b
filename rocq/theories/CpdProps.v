(* C87-C90: theorems about chemical potential distances. *)
From Coq Require Import String.
From Verif Require Import Prelude NumQ UtilsModel UtilsSpec ReactionModel EntrySetModel SolverModel RxnSetCheck CpdModel CpdSpec CpdProofs CpdCheck.
Open Scope list_scope.
Open Scope nat_scope.

(* --- C87 --- *)
(* Missing: an aggregation function given as a function. *)
Theorem C87_aggregate_partial : forall round5 d r, NoDup (map fst (c_entries r)) ->
  exists l, interfaces r l
  /\ let calc name := bind (mu_init (Name name)) (fun mu => calculate round5 (fun a b => Ok (d a b)) mu r) in
     let ds := map (fun p => d (fst p) (snd p)) l in
     (exists v, calc "sum"%string = Ok (Some (round5 v)) /\ total ds v)
  /\ ((l = [] /\ calc "max"%string = Err ValueError) \/ exists v, calc "max"%string = Ok (Some (round5 v)) /\ greatest ds v)
  /\ ((l = [] /\ calc "mean"%string = Ok None) \/ exists v, calc "mean"%string = Ok (Some (round5 v)) /\ average ds v).
Proof. exact calculate_spec. Qed.
Print Assumptions C87_aggregate_partial.

Theorem C87_unknown_name : forall round5 d r s, s <> "sum"%string -> s <> "max"%string -> s <> "mean"%string ->
  bind (mu_init (Name s)) (fun mu => calculate round5 d mu r) = Err ValueError.
Proof. exact unknown_name. Qed.
Print Assumptions C87_unknown_name.

Theorem C87_function_refuted : exists f r l, interfaces r l /\ l <> [] /\ (forall ds, exists v, f ds = Ok (Some v))
  /\ bind (mu_init (Func f)) (fun mu => calculate (fun x => x) (fun a b => Ok (some_distance a b)) mu r) = Err AttributeError.
Proof. exact no_function. Qed.
Print Assumptions C87_function_refuted.

(* Every function given directly is lost. *)
Theorem C87_function_lost : forall round5 d f r, bind (mu_init (Func f)) (fun mu => calculate round5 (fun a b => Ok (d a b)) mu r) = Err AttributeError.
Proof. exact custom_function. Qed.
Print Assumptions C87_function_lost.

Example C87_demo : NoDup (map fst (c_entries some_rxn))
  /\ calculate (fun x => x) (fun a b => Ok (some_distance a b)) (Some agg_sum) some_rxn = Ok (Some 33%Q)
  /\ calculate (fun x => x) (fun a b => Ok (some_distance a b)) (Some agg_max) some_rxn = Ok (Some 12%Q)
  /\ calculate (fun x => x) (fun a b => Ok (some_distance a b)) (Some agg_sum) open_rxn = Ok (Some 19%Q).
Proof. split; [repeat constructor; cbn; intuition discriminate|]. split; [vm_compute; reflexivity|]. split; vm_compute; reflexivity. Qed.

(* The order of the entries is irrelevant. *)
Theorem C87_order : forall round5 d name r r', (forall a b, d a b = d b a) -> c_grand r = c_grand r' -> Permutation (c_entries r) (c_entries r') ->
  let calc x := bind (mu_init (Name name)) (fun mu => calculate round5 (fun a b => Ok (d a b)) mu x) in
  (exists e, calc r = Err e /\ calc r' = Err e) \/ (calc r = Ok None /\ calc r' = Ok None)
  \/ exists v v', calc r = Ok (Some (round5 v)) /\ calc r' = Ok (Some (round5 v')) /\ (v == v')%Q.
Proof. exact order_free. Qed.
Print Assumptions C87_order.

Example C87_order_demo : (forall a b, some_distance a b = some_distance b a) /\ Permutation (c_entries some_rxn) (rev (c_entries some_rxn)).
Proof. split; [intros a b; unfold some_distance; rewrite Nat.mul_comm; reflexivity|apply Permutation_rev]. Qed.

(* --- C88 --- *)
(* Missing: an entry that is on the hull, and a domain that cannot be made. *)
Theorem C88_unchanged_partial : forall P ground stabilized domain_in f (c : @cpd P),
  (forall e b x, ground (c_set c) f = Ok e -> stabilized (c_set c) e b = Ok x -> ~ In x (c_set c)) ->
  forall d, snd (metastable ground stabilized domain_in f c) = Ok d ->
  let c' := fst (metastable ground stabilized domain_in f c) in
  c_set c' = c_set c /\ dict_get f (c_cache c') = Some d
  /\ metastable ground stabilized domain_in f c' = (c', Ok d)
  /\ forall g, g <> f -> dict_get g (c_cache c') = dict_get g (c_cache c).
Proof. exact @meta_spec. Qed.
Print Assumptions C88_unchanged_partial.

Example C88_demo : let c := {| c_set := [0; 1; 2]; c_cache := [] |} in
  (forall e b x, on_ground (c_set c) 5 = Ok e -> above_hull (c_set c) e b = Ok x -> ~ In x (c_set c))
  /\ snd (metastable on_ground above_hull forced_only 5 c) = Ok [0%Q].
Proof. split; [|vm_compute; reflexivity]. intros e b x E H. injection E as <-. injection H as <-. destruct b; cbn; intuition discriminate. Qed.

Theorem C88_on_hull_refuted : exists c d, c_set c = [0; 1; 2]
  /\ metastable on_ground on_hull forced_only 5 c = ({| c_set := [1; 2]; c_cache := [(5, d)] |}, Ok d).
Proof. exact entry_lost. Qed.
Print Assumptions C88_on_hull_refuted.

(* Whenever the stabilised entry is the entry itself, it is lost. *)
Theorem C88_on_hull_lost : forall P ground stabilized domain_in f (c : @cpd P) o d,
  dict_get f (c_cache c) = None -> ground (c_set c) f = Ok o -> In o (c_set c) -> stabilized (c_set c) o false = Ok o ->
  (forall x, stabilized (set_discard o (c_set c)) o true = Ok x -> ~ In x (set_discard o (c_set c))) ->
  snd (metastable ground stabilized domain_in f c) = Ok d -> ~ In o (c_set (fst (metastable ground stabilized domain_in f c))).
Proof. exact @meta_loses. Qed.
Print Assumptions C88_on_hull_lost.

Theorem C88_failure_refuted : exists c c', c_set c = [0; 1; 2]
  /\ metastable on_ground above_hull (fun _ _ => None : option (list Q)) 5 c = (c', Err ValueError) /\ c_set c' = [0; 1; 2; 100].
Proof. exact entry_left. Qed.
Print Assumptions C88_failure_refuted.

(* --- C89 --- *)
Theorem C89_least : forall P (dist : P -> P -> Q) a b offset, a <> [] -> b <> [] ->
  exists v, shortest dist a b offset = Ok (v + offset)%Q /\ least_distance dist a b v.
Proof. exact @shortest_spec. Qed.
Print Assumptions C89_least.

Theorem C89_symmetric : forall P (dist : P -> P -> Q) a b offset, (forall p q, (dist p q == dist q p)%Q) -> a <> [] -> b <> [] ->
  exists v v', shortest dist a b offset = Ok v /\ shortest dist b a offset = Ok v' /\ (v == v')%Q.
Proof. exact @shortest_sym. Qed.
Print Assumptions C89_symmetric.

Example C89_demo : let dist := fun p q : Q => Qabs (p - q) in
  (forall p q, (dist p q == dist q p)%Q) /\ shortest dist [1; 5; 9]%Q [7; 2]%Q 3 = Ok 4%Q.
Proof. intros dist. split; [intros p q; unfold dist; rewrite Qabs_Qminus; reflexivity|vm_compute; reflexivity]. Qed.

(* A distance that was found is found again, whatever was computed for metastable
   phases: from then on it is the same in both directions and up to the offset, and the
   diagram does not change any more. *)
Theorem C89_repeatable : forall P ground stabilized domain_in domains (dist : P -> P -> Q) f1 f2 off off' (c c' : @cpd P) v, (forall p q, (dist p q == dist q p)%Q) ->
  shortest_domain_distance dist domains ground stabilized domain_in f1 f2 off c = (c', Ok v) ->
  exists w, (v == w + off)%Q
  /\ (exists v', shortest_domain_distance dist domains ground stabilized domain_in f1 f2 off' c' = (c', Ok v') /\ (v' == w + off')%Q)
  /\ (exists v', shortest_domain_distance dist domains ground stabilized domain_in f2 f1 off' c' = (c', Ok v') /\ (v' == w + off')%Q).
Proof. exact @distance_again. Qed.
Print Assumptions C89_repeatable.

Example C89_repeatable_demo : let dist := fun p q : Q => Qabs (p - q) in
  exists c', shortest_domain_distance dist (fun f => if Nat.eqb f 7 then Some [3%Q; 8%Q] else None) on_ground above_hull forced_only 7 5 1 {| c_set := [0; 1; 2]; c_cache := [] |} = (c', Ok 4%Q)
  /\ c_cache c' = [(5, [0%Q])].
Proof. eexists. split; vm_compute; reflexivity. Qed.

(* --- C90 --- *)
(* Missing: a reaction whose system is within that of another one. *)
Theorem C90_once_partial : forall system wait by_system chunk_size rxns, valid_schedule wait -> 1 <= chunk_size -> Permutation (by_system rxns) rxns ->
  exists out, chempot_job system wait by_system chunk_size rxns = Ok out /\ Permutation (map fst out) rxns
  /\ forall r k, In (r, k) out -> incl (system r) k /\ (exists r', In r' rxns /\ k = system r')
     /\ ((forall r', In r' rxns -> incl (system r) (system r') -> incl (system r') (system r)) -> incl k (system r)).
Proof. exact chempot_job_spec. Qed.
Print Assumptions C90_once_partial.

Theorem C90_chunk_refuted : exists system rxns,
  exists out, chempot_job system lifo_any (fun l => l) 1 rxns = Ok out /\ In (0, [1; 2]) out
  /\ exists out', chempot_job system lifo_any (fun l => l) 2 rxns = Ok out' /\ In (0, [1; 2; 3]) out' /\ ~ In (0, [1; 2]) out'.
Proof. exact chunk_matters. Qed.
Print Assumptions C90_chunk_refuted.

Example C90_demo : exists out, chempot_job (fun r => match r with 0 => [1; 2] | 1 => [3] | _ => [2; 4] end) lifo_any (fun l => l) 2 [0; 1; 2] = Ok out /\ length out = 3.
Proof. eexists. split; [vm_compute; reflexivity|reflexivity]. Qed.
