(* C156: the number of constraints with the reactions of an enumerated set. *)
From Verif Require Import Prelude NumQ UtilsModel UtilsSpec ReactionModel ReactionSpec EnumModel EnumSpec EnumLinkModel EnumCheck RxnSetModel RxnSetSpec LinModel LinSpec LinProofs LinCheck FreeSpec NetModel YenModel YenSpec RunModel MinModel MinSpec JoinModel JoinSpec JoinCheck MinJoinModel MinJoinSpec MinJoinCheck
  IntModel IntMinModel AnyWholeModel AnyWholeSpec IntFlowCheck AnyWholeCheck OpenWholeModel GrandJoinModel GrandJoinSpec GrandWholeCheck DataSpec DataProofs DataCheck.
From Verif Require RxnSetCheck.
Open Scope list_scope.
Open Scope nat_scope.

(* --- C156 --- *)
(* The enumerators of a job. Every reaction of the set comes with the number of independent ways in which its phases can react
   (one if there is none), and that is at most what one of the enumerators lets through; if that is one, the phases react in one way only. Making the set, joining the sets and
   dropping duplicates keep it. Missing: the cases C142_enumerate_partial leaves out. *)
Theorem C156_enumerated_partial : forall C, wf_chem C -> forall ent, (forall i, e_id (ent i) = i) -> (forall c e, In e (ReactionModel.elems C c) -> (1 # 100 < amt C (red C c) e)%Q) ->
  forall P (build : list nat -> result P) kinks order, (forall l, Permutation (order l) l) ->
  forall epa mwait, valid_schedule mwait -> forall entries, NoDup entries -> (forall e, In e entries -> ReactionModel.elems C (e_comp (ent e)) <> []) ->
  good_interfaces (fun i => ReactionModel.elems C (e_comp (ent i))) (fun i => red C (e_comp (ent i))) build kinks entries [] -> tidy_kinks kinks ->
  forall D (diagram : list nat -> D) wait, valid_schedule wait -> entries <> [] ->
  forall arrange, arranges arrange -> forall argsort, (forall l, Permutation (argsort l) (seq 0 (length l))) -> forall shuffle, (forall l, Permutation (shuffle l) l) ->
  forall ens, ens <> [] -> (forall a, In a ens -> any_usable a) ->
  (forall outs, Forall2 (fun a xs => any_enumerated C ent (entry_solve C ent) (entry_rank C ent) diagram build kinks order epa wait mwait entries a = Ok xs) ens outs -> sharp (map (set_rxn C) (concat outs))) ->
  exists s out, any_enumeration C ent (entry_solve C ent) (entry_rank C ent) diagram build kinks order epa arrange argsort shuffle wait mwait ens entries = Ok (Some s) /\ get_rxns s = Ok out
  /\ forall x, In x out -> counted C (fun i => red C (e_comp (ent i))) x /\ exists a, In a ens /\ x_data x <= most_constraints a
      /\ (most_constraints a = 1 -> one_way C (fun i => red C (e_comp (ent i))) (map uid (x_entries x))).
Proof. exact @any_counted. Qed.
Print Assumptions C156_enumerated_partial.

(* The enumerator for an open element: the same, and every reaction comes with the chemical potential. Missing: the cases
   C153_sound_partial leaves out. *)
Theorem C156_open_partial : forall C, wf_chem C -> forall ent, (forall i, e_id (ent i) = i) -> (forall c e, In e (ReactionModel.elems C c) -> (1 # 100 < amt C (red C c) e)%Q) ->
  forall G (grand_diagram : nat -> Q -> list (nat * Q) -> result G) grand_interface,
  (forall pd a b ks kink, grand_interface pd a b = Ok ks -> In kink ks -> NoDup (fst kink) /\ NoDup (snd kink) /\ (disjoint (fst kink) (snd kink) \/ exists f, kink = ([f], [f]))) ->
  forall order, (forall l, Permutation (order l) l) -> forall gwait, valid_schedule gwait -> forall gas_of el mu entries, NoDup entries ->
  (forall e, In e entries -> ReactionModel.elems C (e_comp (ent e)) <> []) ->
  (forall e, In e entries -> ReactionModel.elems C (e_comp (ent e)) = [el] -> red C (e_comp (ent e)) = gas_of el) ->
  good_interfaces (fun i => ReactionModel.elems C (e_comp (ent i))) (fun i => red C (e_comp (ent i))) (diagram_for (grand_diagram el mu) ent) (kinks_for grand_interface ent) entries (gases_in C ent entries (gas_of el)) ->
  entries <> [] ->
  forall arrange, arranges arrange -> forall argsort, (forall l, Permutation (argsort l) (seq 0 (length l))) -> forall shuffle, (forall l, Permutation (shuffle l) l) ->
  forall m, minimizer_usable m ->
  (forall xs, grand_enumerated C ent (entry_solve C ent) (entry_rank C ent) grand_diagram grand_interface order gwait gas_of el mu entries m = Ok xs -> sharp (map (open_set_rxn C el mu) xs)) ->
  exists s out, grand_enumeration C ent (entry_solve C ent) (entry_rank C ent) grand_diagram grand_interface order arrange argsort shuffle gwait gas_of el mu entries m = Ok (Some s) /\ get_rxns s = Ok out
  /\ forall x, In x out -> counted C (fun i => red C (e_comp (ent i))) x /\ x_data x <= o_constraints (mi_options m) /\ x_mu x = Some [(el, mu)]
      /\ (o_constraints (mi_options m) = 1 -> one_way C (fun i => red C (e_comp (ent i))) (map uid (x_entries x))).
Proof. exact @grand_counted. Qed.
Print Assumptions C156_open_partial.

(* The manganese oxides, with an enumerator that lets two constraints through: all four phases react in two ways, three of
   them in one. *)
Example C156_demo : wf_chem mno /\ good_interfaces (fun i => ReactionModel.elems mno (e_comp (plain_entry i))) (fun i => red mno (e_comp (plain_entry i))) free_build mn_kinks [0; 1; 2; 3] []
  /\ tidy_kinks mn_kinks /\ (forall a, In a loose -> any_usable a)
  /\ (forall outs, Forall2 (fun a xs => any_outs mno mn_kinks a [0; 1; 2; 3] = Ok xs) loose outs -> sharp (map (set_rxn mno) (concat outs))).
Proof.
  split; [exact mno_wf|]. split; [exact mn_interfaces|]. split; [exact mn_tidy|]. split; [intros a [<-|[<-|[]]]; repeat split; cbn; lia|exact loose_sharp].
Qed.
Example C156_demo_run : listed_data (any_enumeration mno plain_entry (entry_solve mno plain_entry) (entry_rank mno plain_entry) (fun k => k) free_build mn_kinks (fun l => l) (fun _ => 0%Q) RxnSetCheck.arrange RxnSetCheck.argsort (fun l => l) RxnSetCheck.lifo_any RxnSetCheck.lifo_any loose [0; 1; 2; 3])
  = Ok [([0; 3; 1; 2], 2); ([0; 3; 1; 2], 2); ([1; 2; 3], 1); ([1; 2; 3], 1); ([2; 0; 1], 1); ([0; 1; 2], 1); ([2; 0; 3], 1); ([0; 3; 2], 1); ([1; 0; 3], 1); ([0; 3; 1], 1)].
Proof. exact loose_data. Qed.
(* The hypotheses on the open element are met as in C153_demo; the one reaction found there. *)
Example C156_demo_open : (forall xs, open_outs = Ok xs -> sharp (map (open_set_rxn joined 0 (-2)%Q) xs))
  /\ listed_data (grand_enumeration joined level (entry_solve joined level) (entry_rank joined level) open_diagram open_kinks (fun l => l) RxnSetCheck.arrange RxnSetCheck.argsort (fun l => l) RxnSetCheck.lifo_any (fun _ => 0) 0 (-2)%Q six open_minimizer)
     = Ok [([0; 1; 4; 5], 1)].
Proof. split; [exact open_alone_sharp|exact open_data]. Qed.
