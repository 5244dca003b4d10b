(* C131: theorems about stored results and the table of available precursors. *)
From Coq Require Import String.
From Verif Require Import Prelude NumQ RxnSetModel RxnSetSpec RxnSetCheck FrameModel FetchModel FetchSpec FetchProofs FetchCheck.
Open Scope nat_scope.
Open Scope list_scope.

(* The latest result for the question, or ValueError if there is none. *)
Theorem C131_closed : forall arrange tasks target q fw,
  (exists t, latest target None q fw tasks t /\ get_rxns_from_db arrange tasks (Ok target) None q fw = Ok (t_rxns t))
  \/ ((forall t, In t tasks -> ~ answers target None q fw t) /\ get_rxns_from_db arrange tasks (Ok target) None q fw = Err ValueError).
Proof. exact fetch_closed. Qed.
Print Assumptions C131_closed.

(* With an open element: the reactions of that result, open at the chemical potential. *)
Theorem C131_open : forall arrange tasks target el q fw, arranges arrange ->
  (forall t, In t tasks -> well_formed (t_rxns t) /\ ids_distinct (t_rxns t)) ->
  (exists t rs s out, latest target (Some el) q fw tasks t /\ get_rxns (t_rxns t) = Ok rs
   /\ get_rxns_from_db arrange tasks (Ok target) (Some el) q fw = Ok s /\ well_formed s /\ get_rxns s = Ok out
   /\ Permutation out (map (with_mu (Some [(el, q)])) rs)
   /\ (r_open (t_rxns t) = Some el -> r_chempot (t_rxns t) = q -> Permutation out rs))
  \/ ((forall t, In t tasks -> ~ answers target (Some el) q fw t) /\ get_rxns_from_db arrange tasks (Ok target) (Some el) q fw = Err ValueError).
Proof. exact fetch_open. Qed.
Print Assumptions C131_open.

Example C131_fetch_demo : arranges arrange /\ (forall t, In t tasks -> well_formed (t_rxns t) /\ ids_distinct (t_rxns t))
  /\ get_rxns_from_db arrange tasks (Ok 5) None 0 None = Ok demo_set
  /\ get_rxns_from_db arrange tasks (Ok 5) None 0 (Some 1) = Ok old_set
  /\ (exists s out, get_rxns_from_db arrange tasks (Ok 5) (Some 7) (-1 # 2)%Q None = Ok s /\ get_rxns s = Ok out /\ length out = 4
      /\ forall r, In r out -> x_mu r = Some [(7, (-1 # 2)%Q)])
  /\ get_rxns_from_db arrange tasks (Ok 5) (Some 7) (-1 # 4)%Q None = Err ValueError.
Proof.
  split; [exact arrange_arranges|]. split; [exact tasks_sets|]. split; [vm_compute; reflexivity|]. split; [vm_compute; reflexivity|].
  split; [|vm_compute; reflexivity]. eexists. eexists. split; [vm_compute; reflexivity|]. split; [vm_compute; reflexivity|]. split; [reflexivity|].
  intros r [<-|[<-|[<-|[<-|[]]]]]; reflexivity.
Qed.

(* The filter keeps the rows of the reactions whose reactants are all available, in
   order; missing: a column of the table called precursors. *)
Theorem C131_precursors_partial : forall reactants no_rows n d precursors, table_of n d -> 0 < n ->
  exists l d', increasing l
  /\ (forall i, In i l <-> exists r, shows d i r /\ forall f, In f (reactants r) -> In f precursors)
  /\ filter_df reactants no_rows d precursors = Ok d'
  /\ Forall2 (fun old new => fst new = fst old /\ chosen_rows l (snd old) (snd new))
       (filter (fun kc => negb (String.eqb (fst kc) "precursors")) d) d'.
Proof. exact filter_spec. Qed.
Print Assumptions C131_precursors_partial.

Example C131_precursors_demo : table_of 3 tab
  /\ filter_df reacts (fun d => Ok d) tab [2; 1] = Ok [("rxn"%string, [Rxn 0; Rxn 2]); ("cost"%string, [Num 1; Num 3])].
Proof. split; [exact tab_table|vm_compute; reflexivity]. Qed.

Theorem C131_cells : forall reactants no_rows d precursors,
  (~ In "rxn"%string (map fst d) -> filter_df reactants no_rows d precursors = Err KeyError)
  /\ forall col c, NoDup (map fst d) -> In ("rxn"%string, col) d -> In c col -> (forall r, c <> Rxn r) -> filter_df reactants no_rows d precursors = Err AttributeError.
Proof. exact filter_fails. Qed.
Print Assumptions C131_cells.

Example C131_cells_demo : filter_df reacts (fun d => Ok d) [("cost"%string, [Num 1])] [1] = Err KeyError
  /\ filter_df reacts (fun d => Ok d) [("cost"%string, [Num 1; Num 2]); ("rxn"%string, [Rxn 0; Num 2])] [1] = Err AttributeError.
Proof. split; vm_compute; reflexivity. Qed.

Theorem C131_column_refuted : exists d d' col, table_of 1 d /\ In ("precursors"%string, col) d
  /\ filter_df reacts (fun d => Ok d) d [1; 2] = Ok d' /\ ~ In "precursors"%string (map fst d').
Proof. exact column_lost. Qed.
Print Assumptions C131_column_refuted.
