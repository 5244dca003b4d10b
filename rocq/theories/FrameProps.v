(* C100, C101: theorems about the table of a reaction set and its temperatures. *)
From Coq Require Import String Sorted.
From Verif Require Import Prelude NumQ ReactionModel RxnSetModel RxnSetSpec RxnSetCheck FrameModel FrameSpec FrameProofs FrameCheck.
Local Open Scope string_scope.
Open Scope nat_scope.
Open Scope list_scope.

(* --- C100 --- *)
(* Full claim: also for data with the name of a column, and data of later reactions
   (refuted below). *)
Theorem C100_rows_partial : forall evaluate target uncertainties separable argsort, orders argsort ->
  forall rxns, (forall r, In r rxns -> NoDup (map fst (f_data r))) -> (forall k, attribute rxns k -> ~ In k reserved) ->
  forall d, to_dataframe evaluate target uncertainties separable argsort rxns = Ok d ->
  exists order, Permutation order rxns /\ StronglySorted (cheaper evaluate) order /\ NoDup (map fst d)
  /\ (forall k, In k (map fst d) <-> shown target uncertainties separable rxns k)
  /\ forall k col, In (k, col) d -> Forall2 (fun r c => describes evaluate target r k c) order col.
Proof. exact table_rows. Qed.
Print Assumptions C100_rows_partial.

Theorem C100_total_partial : forall evaluate target uncertainties separable argsort, orders argsort ->
  forall rxns, (forall r, In r rxns -> NoDup (map fst (f_data r))) -> (forall k, attribute rxns k -> ~ In k reserved) ->
  (forall r rest, rxns = r :: rest -> f_entries r <> []) -> fillable evaluate target uncertainties separable rxns ->
  exists d, to_dataframe evaluate target uncertainties separable argsort rxns = Ok d.
Proof. exact table_total. Qed.
Print Assumptions C100_total_partial.

Example C100_demo : orders argsort /\ (forall r, In r table -> NoDup (map fst (f_data r))) /\ (forall k, attribute table k -> ~ In k reserved)
  /\ fillable by_energy (Some [0; 1]) true true table
  /\ exists d, to_dataframe by_energy (Some [0; 1]) true true argsort table = Ok d /\ In ("rxn", [Rxn 2; Rxn 1]) d.
Proof.
  split; [exact argsort_orders|]. split; [exact keep_dicts|]. split; [exact table_attrs|]. split; [exact (fills table _ (fun r H => H))|].
  eexists. split; [exact table_frame|left; reflexivity].
Qed.

Theorem C100_clash_refuted : exists evaluate argsort r, orders argsort /\ NoDup (map fst (f_data r)) /\ f_entries r <> []
  /\ fillable evaluate None false false [r] /\ to_dataframe evaluate None false false argsort [r] = Err ValueError.
Proof. exact clash_fails. Qed.
Print Assumptions C100_clash_refuted.

Theorem C100_lost_refuted : exists evaluate argsort target rxns d r k v, orders argsort
  /\ to_dataframe evaluate target true true argsort rxns = Ok d /\ In r rxns /\ In (k, v) (f_data r) /\ k <> "num_constraints" /\ ~ In k (map fst d).
Proof. exact data_lost. Qed.
Print Assumptions C100_lost_refuted.

Theorem C100_hulls_refuted : exists evaluate argsort r d e q, orders argsort /\ to_dataframe evaluate None false false argsort [r] = Ok d
  /\ In e (f_reactants r) /\ f_hull e = Some q /\ ~ In "max_e_hull_reactants" (map fst d).
Proof. exact hulls_lost. Qed.
Print Assumptions C100_hulls_refuted.

(* --- C101 --- *)
Theorem C101_temperatures : forall arrange warm s temps out, compute_at_temperatures arrange warm s temps = Ok out ->
  NoDup (map fst out) /\ (forall t, In t (map fst out) <-> In t temps)
  /\ forall t s', In (t, s') out -> set_new_temperature arrange (warm t) s = Ok s'.
Proof. exact temperatures_spec. Qed.
Print Assumptions C101_temperatures.

Theorem C101_total : forall arrange warm s temps rs, get_rxns s = Ok rs ->
  (forall t, In t temps -> exists s', set_new_temperature arrange (warm t) s = Ok s') ->
  exists out, compute_at_temperatures arrange warm s temps = Ok out.
Proof. exact temperatures_total. Qed.
Print Assumptions C101_total.

Example C101_demo : exists out, compute_at_temperatures arrange (fun _ => warm) demo_set [300; 600; 300] = Ok out /\ map fst out = [300; 600].
Proof. eexists. split; vm_compute; reflexivity. Qed.
