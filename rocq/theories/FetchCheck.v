(* Witnesses for C131. *)
From Coq Require Import String.
From Verif Require Import Prelude NumQ RxnSetModel RxnSetSpec RxnSetCheck FrameModel FetchModel FetchSpec.
Open Scope nat_scope.
Open Scope list_scope.

(* Three results for target 5: an old and a new one without an open element, and one with
   open element 7; and a result for another target. *)
Definition result_of (target : nat) (oe : option nat) (q : Q) (fw : nat) (time : Z) (s : rset) : task :=
  {| t_target := Some target; t_open := oe; t_chempot := Some q; t_fw := Some fw; t_time := time; t_rxns := s |}.
Definition open_set : rset := match from_rxns arrange demo [] (Some 7) (-1 # 2)%Q with Ok s => s | Err _ => demo_set end.
Definition old_set : rset := match from_rxns arrange (firstn 2 demo) [] None 0 with Ok s => s | Err _ => demo_set end.
Definition tasks : list task :=
  [result_of 5 None 0 1 100 old_set; result_of 6 None 0 2 400 open_set; result_of 5 None 0 3 200 demo_set; result_of 5 (Some 7) (-1 # 2)%Q 4 300 open_set].

Lemma tasks_sets : forall t, In t tasks -> well_formed (t_rxns t) /\ ids_distinct (t_rxns t).
Proof.
  assert (D : forall s, (forall x, In x (r_entries s) -> comp x = uid x /\ form x = uid x) -> ids_distinct s).
  { intros s H x y Ix Iy E. destruct (H x Ix), (H y Iy). destruct x, y. cbn in *. congruence. }
  intros t [<-|[<-|[<-|[<-|[]]]]]; (split; [apply wf_check_ok; vm_compute; reflexivity|]); apply D; cbn;
    intros x X; decompose [or] X; subst; try contradiction; split; reflexivity.
Qed.

(* A table of three reactions with a column of costs, and one with a column that has the
   name the filter uses. *)
Definition tab : frame := [("rxn"%string, [Rxn 0; Rxn 1; Rxn 2]); ("cost"%string, [Num 1; Num 2; Num 3])].
Definition tab2 : frame := [("rxn"%string, [Rxn 0]); ("precursors"%string, [Count 4])].
Definition reacts (i : nat) : list nat := match i with 0 => [1; 2] | 1 => [1; 3] | _ => [2] end.
Lemma tab_table : table_of 3 tab.
Proof.
  split; [repeat constructor; cbn; intuition discriminate|]. split; [intros k col [E|[E|[]]]; injection E as <- <-; reflexivity|].
  exists [0; 1; 2]. left. reflexivity.
Qed.
Lemma column_lost : exists d d' col, table_of 1 d /\ In ("precursors"%string, col) d
  /\ filter_df reacts (fun d => Ok d) d [1; 2] = Ok d' /\ ~ In "precursors"%string (map fst d').
Proof.
  exists tab2. eexists. exists [Count 4]. split.
  - split; [repeat constructor; cbn; intuition discriminate|]. split; [intros k col [E|[E|[]]]; injection E as <- <-; reflexivity|].
    exists [0]. left. reflexivity.
  - split; [right; left; reflexivity|]. split; [vm_compute; reflexivity|]. intros [E|[]]. discriminate.
Qed.
