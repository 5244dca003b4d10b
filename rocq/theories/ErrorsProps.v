(* C154: calls that have no answer raise. *)
From Verif Require Import Prelude NumQ ReactionModel ReactionCheck PathModel SolverModel PlotModel SolveJobModel IntModel WholeModel AnyWholeModel OpenWholeModel ErrorsProofs.
Open Scope nat_scope.

(* The vector of a reaction over n entries: one place for every entry, IndexError if an entry's index is beyond n, ValueError if
   there are not as many coefficients as entries. *)
Theorem C154_vector : forall C es ks ne n, let r := computed_init C es ks ne in
  (length es <> length ks -> get_entry_idx_vector r n = Err ValueError)
  /\ (length es = length ks -> (forall e, In e es -> e_id e < n) -> exists v, get_entry_idx_vector r n = Ok v /\ length v = n)
  /\ (length es = length ks -> (exists e, In e es /\ n <= e_id e) -> get_entry_idx_vector r n = Err IndexError).
Proof. exact vector_answers. Qed.
Print Assumptions C154_vector.
Example C154_vector_demo : let es := [{| e_id := 1; e_comp := 0; e_energy := 0%Q |}; {| e_id := 4; e_comp := 7; e_energy := 0%Q |}] in
  get_entry_idx_vector (computed_init demo es [-1; 1]%Q None) 5 = Ok [0; -1; 0; 0; 1]%Q /\ get_entry_idx_vector (computed_init demo es [-1; 1]%Q None) 4 = Err IndexError
  /\ get_entry_idx_vector (computed_init demo es [-1]%Q None) 5 = Err ValueError.
Proof. vm_compute. repeat split. Qed.

(* A reaction without products has no atoms to divide its energy by (nan or inf in numpy, ZeroDivisionError here), and a reaction
   without entries has no energy. *)
Theorem C154_per_atom : forall C es ks mus n, (forall k, In k ks -> (k <= 0)%Q) ->
  energy_per_atom C (RComputed (computed_init C es ks n)) = Err ZeroDivisionError
  /\ energy_per_atom C (ROpen {| o_base := computed_init C es ks n; chempots := mus |}) = Err ZeroDivisionError
  /\ forall b, energy_per_atom C (RBasic b) = Err ValueError.
Proof. exact no_energy_per_atom. Qed.
Print Assumptions C154_per_atom.
Example C154_per_atom_demo : forall k, In k [-1; 0; -(2 # 3)]%Q -> (k <= 0)%Q.
Proof. intros k [<-|[<-|[<-|[]]]]; vm_compute; discriminate. Qed.

(* One entry alone cannot be balanced, whatever the solver gives; anything else is answered. *)
Theorem C154_alone : forall C e solve rank, computed_balance C [e] [] solve rank = Err TypeError /\ computed_balance C [] [e] solve rank = Err TypeError.
Proof. exact alone. Qed.
Print Assumptions C154_alone.
Theorem C154_not_alone : forall C rs ps solve rank, length rs + length ps <> 1 -> exists r, computed_balance C rs ps solve rank = Ok r.
Proof. exact not_alone. Qed.
Print Assumptions C154_not_alone.
Example C154_not_alone_demo : length [{| e_id := 0; e_comp := 0; e_energy := 0%Q |}; {| e_id := 1; e_comp := 7; e_energy := 0%Q |}] + length [{| e_id := 2; e_comp := 8; e_energy := 0%Q |}] <> 1.
Proof. discriminate. Qed.

(* A net reaction that is not balanced is refused, before anything else is looked at. *)
Theorem C154_unbalanced : forall R req vec rebuild rs ps cs prec pinv waits1 waits2 uniq clean rxns (net : R) chunk batch cpus max fi,
  SolverModel.solve req vec rebuild rs ps cs prec pinv waits1 waits2 uniq clean rxns net false chunk batch cpus max fi = Err ValueError.
Proof. reflexivity. Qed.
Print Assumptions C154_unbalanced.

(* The energies of the phases at a temperature need an entry of every element alone. *)
Theorem C154_no_reference : forall C set_at hull temps df comp t ents x e, set_at t = Ok ents -> In x ents -> In e (ReactionModel.elems C (e_comp x)) ->
  (forall y, In y ents -> ReactionModel.elems C (e_comp y) <> [e]) -> energies_at C set_at hull temps df comp t = Err ValueError.
Proof. exact no_reference. Qed.
Print Assumptions C154_no_reference.
Example C154_no_reference_demo : exists ents x e, In x ents /\ In e (ReactionModel.elems demo (e_comp x)) /\ forall y, In y ents -> ReactionModel.elems demo (e_comp y) <> [e].
Proof.
  set (x := {| e_id := 0; e_comp := 8; e_energy := 0%Q |}). exists [x], x, (hd 0 (ReactionModel.elems demo 8)). split; [left; reflexivity|]. split; [vm_compute; auto|]. intros y [<-|[]]. vm_compute. discriminate.
Qed.

(* A flow without enumerators has no set of reactions to make a network of. *)
Theorem C154_no_enumerators : forall C ent solve rank (D P : Type) (diagram : list nat -> D) (phase_diagram : list (nat * Q) -> result P) interface pair_order arrange argsort shuffle wait owait mwait
    listed members cpus nwait xcost sp xeq lsq lrank req pinv waits1 waits2 uniq clean cost chunk order ichunk ijobs mchunk mjobs cutoff use_basic use_min gas_of grand entries further nmk smk max find fi,
  any_whole_flow C ent solve rank diagram phase_diagram interface pair_order arrange argsort shuffle wait mwait listed members cpus nwait xcost sp xeq lsq lrank req pinv waits1 waits2 uniq clean cost
    chunk order ichunk ijobs mchunk mjobs cutoff use_basic use_min [] entries nmk smk max find fi = Err AttributeError
  /\ open_whole_flow C ent solve rank diagram phase_diagram interface pair_order arrange argsort shuffle wait owait mwait listed members cpus nwait xcost sp xeq lsq lrank req pinv waits1 waits2 uniq clean cost
    chunk order ichunk ijobs mchunk mjobs cutoff use_basic use_min gas_of grand [] entries further nmk smk max find fi = Err AttributeError.
Proof. exact no_enumerators. Qed.
Print Assumptions C154_no_enumerators.

(* A BasicReaction has no entries: a solver that is given one raises when it looks for intermediates, for the vector of the
   reaction, or for the targets. *)
Theorem C154_no_entries : forall C order ents rxns targets b, In (RBasic b) rxns ->
  vector_of ents (RBasic b) = Err AttributeError /\ targets_of (RBasic b) = Err AttributeError /\ intermediates C order ents rxns targets = Err AttributeError.
Proof. exact no_entries. Qed.
Print Assumptions C154_no_entries.
(* With computed reactions alone there is an answer. *)
Example C154_no_entries_demo : let e := {| e_id := 0; e_comp := 0; e_energy := 0%Q |} in let c := computed_init demo [e] [1%Q] None in
  In (RBasic (c_base c)) [RComputed c; RBasic (c_base c)] /\ intermediates demo (fun l => l) [e] [RComputed c; RComputed c] [] = Ok [0].
Proof. split; [right; left; reflexivity|vm_compute; reflexivity]. Qed.
