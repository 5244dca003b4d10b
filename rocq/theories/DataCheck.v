(* The manganese oxides: reactions with one and with two constraints. *)
From Verif Require RxnSetCheck.
From Verif Require Import Prelude NumQ UtilsModel UtilsSpec ReactionModel ReactionSpec EnumModel EnumSpec EnumLinkModel EnumCheck RxnSetModel RxnSetSpec LinModel LinCheck RunModel ChainCheck JoinModel JoinSpec JoinCheck WholeCheck IntCheck IntFlowCheck MinJoinModel MinJoinSpec MinJoinCheck IntMinCheck AnyWholeCheck GrandJoinModel GrandWholeCheck DataSpec.
Import RxnSetCheck.
Open Scope nat_scope.

Definition loose : list any_enumerator := [Basic (open_enumerator 2); Minimize mn_minimizer].
Lemma loose_sharp : forall outs, Forall2 (fun a xs => any_outs mno mn_kinks a [0; 1; 2; 3] = Ok xs) loose outs -> sharp (map (set_rxn mno) (concat outs)).
Proof.
  intros outs F. assert (D : exists xs ys, any_outs mno mn_kinks (Basic (open_enumerator 2)) [0; 1; 2; 3] = Ok xs /\ any_outs mno mn_kinks (Minimize mn_minimizer) [0; 1; 2; 3] = Ok ys /\ told_or_multiple (map (set_rxn mno) (xs ++ ys)) = true
    /\ one_of_each (flat_map x_entries (map (set_rxn mno) (xs ++ ys))) = true /\ Forall plain (map (set_rxn mno) (xs ++ ys))).
  { do 2 eexists. split; [vm_compute; reflexivity|]. split; [vm_compute; reflexivity|]. split; [vm_compute; reflexivity|]. split; [vm_compute; reflexivity|]. cbn [app map]. repeat (apply Forall_cons; [plain_rxn|]). apply Forall_nil. }
  destruct D as (xs & ys & E1 & E2 & T & U & P). inversion F as [|a x la l Ex Fl]; subst. inversion Fl as [|a' x' la' l' Ey Fl']; subst. inversion Fl'; subst. rewrite E1 in Ex. rewrite E2 in Ey. injection Ex as <-. injection Ey as <-.
  cbn [concat]. rewrite !app_nil_r. apply told_or_multiple_sharp; [apply Forall_forall; exact P|apply one_of_each_iff; exact U|exact T].
Qed.
Definition listed_data (r : result (option rset)) : result (list (list nat * nat)) :=
  bind r (fun o => match o with Some s => bind (get_rxns s) (fun l => Ok (map (fun x => (map uid (x_entries x), x_data x)) l)) | None => Err AttributeError end).
Lemma loose_data : listed_data (any_enumeration mno plain_entry (entry_solve mno plain_entry) (entry_rank mno plain_entry) (fun k => k) free_build mn_kinks (fun l => l) (fun _ => 0%Q) arrange argsort (fun l => l) lifo_any lifo_any loose [0; 1; 2; 3])
  = Ok [([0; 3; 1; 2], 2); ([0; 3; 1; 2], 2); ([1; 2; 3], 1); ([1; 2; 3], 1); ([2; 0; 1], 1); ([0; 1; 2], 1); ([2; 0; 3], 1); ([0; 3; 2], 1); ([1; 0; 3], 1); ([0; 3; 1], 1)].
Proof. vm_compute. reflexivity. Qed.
Lemma open_data : listed_data (grand_enumeration joined level (entry_solve joined level) (entry_rank joined level) open_diagram open_kinks (fun l => l) arrange argsort (fun l => l) lifo_any (fun _ => 0) 0 (-2)%Q six open_minimizer)
  = Ok [([0; 1; 4; 5], 1)].
Proof. vm_compute. reflexivity. Qed.
Lemma open_alone_sharp : forall xs, open_outs = Ok xs -> sharp (map (open_set_rxn joined 0 (-2)%Q) xs).
Proof.
  intros xs E. assert (D : exists ys, open_outs = Ok ys /\ told (map (open_set_rxn joined 0 (-2)%Q) ys) = true /\ Forall plain (map (open_set_rxn joined 0 (-2)%Q) ys)).
  { eexists. split; [vm_compute; reflexivity|]. split; [vm_compute; reflexivity|]. repeat (apply Forall_cons; [plain_rxn|]). apply Forall_nil. }
  destruct D as (ys & E' & T & P). rewrite E' in E. injection E as <-. apply told_sharp; [apply Forall_forall; exact P|exact T].
Qed.
