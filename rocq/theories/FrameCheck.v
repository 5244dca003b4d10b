(* Concrete tables of reactions. *)
From Coq Require Import String Sorted.
From Verif Require Import Prelude NumQ ReactionBaseProofs FrameModel FrameSpec.
Local Open Scope string_scope.
Open Scope nat_scope.
Open Scope list_scope.

(* A stable argsort. *)
Fixpoint ins (p : Q * nat) (l : list (Q * nat)) : list (Q * nat) :=
  match l with [] => [p] | x :: l' => if Qle_bool (fst p) (fst x) then p :: l else x :: ins p l' end.
Definition sorted_pairs (l : list (Q * nat)) : list (Q * nat) := fold_right ins [] l.
Definition argsort (l : list Q) : list nat := map snd (sorted_pairs (combine l (seq 0 (length l)))).

Lemma ins_perm p l : Permutation (ins p l) (p :: l).
Proof. induction l as [|x l IH]; cbn [ins]; [reflexivity|]. destruct (Qle_bool (fst p) (fst x)); [reflexivity|]. rewrite IH. constructor. Qed.
Lemma sorted_pairs_perm l : Permutation (sorted_pairs l) l.
Proof. induction l as [|x l IH]; [constructor|]. unfold sorted_pairs in *. cbn [fold_right]. rewrite ins_perm, IH. reflexivity. Qed.
Lemma sorted_pairs_sorted l : StronglySorted Qle (map fst (sorted_pairs l)).
Proof.
  induction l as [|p l IH]; [constructor|]. unfold sorted_pairs in *. cbn [fold_right]. generalize dependent (fold_right ins [] l). clear l. intros l S. induction l as [|x l IH]; cbn [ins]; [repeat constructor|].
  cbn [map] in S. inversion S as [|? ? S1 S2]; subst. destruct (Qle_bool (fst p) (fst x)) eqn:E.
  - apply Qle_bool_iff in E. cbn [map]. constructor; [exact S|]. constructor; [exact E|]. rewrite Forall_forall in *. intros y Hy. apply Qle_trans with (fst x); [exact E|apply S2; exact Hy].
  - cbn [map]. constructor; [apply IH; exact S1|]. rewrite Forall_forall in *. intros y Hy. assert (L : (fst x <= fst p)%Q) by (apply Qnot_lt_le; intros L; apply Qlt_le_weak, Qle_bool_iff in L; congruence).
    apply in_map_iff in Hy as (z & <- & Iz). apply (Permutation_in _ (ins_perm p l)) in Iz. destruct Iz as [<-|Iz]; [exact L|]. apply S2. apply in_map. exact Iz.
Qed.
Lemma snd_positions (l : list Q) n : map snd (combine l (seq n (length l))) = seq n (length l).
Proof. revert n. induction l as [|x l IH]; intros n; [reflexivity|]. cbn [length seq combine map snd]. rewrite IH. reflexivity. Qed.
Lemma positions_nth (l : list Q) n p : In p (combine l (seq n (length l))) -> n <= snd p /\ nth (snd p - n) l 0%Q = fst p.
Proof.
  revert n. induction l as [|x l IH]; intros n H; [destruct H|]. cbn [length seq combine] in H. destruct H as [<-|H].
  - cbn [fst snd]. rewrite Nat.sub_diag. split; [lia|reflexivity].
  - apply IH in H as [L E]. split; [lia|]. replace (snd p - n) with (S (snd p - S n)) by lia. exact E.
Qed.
Lemma argsort_orders : orders argsort.
Proof.
  intros l. unfold argsort. pose proof (sorted_pairs_perm (combine l (seq 0 (length l)))) as P. split.
  - rewrite P, snd_positions. reflexivity.
  - rewrite map_map. replace (map (fun x => nth (snd x) l 0%Q) (sorted_pairs (combine l (seq 0 (length l))))) with (map fst (sorted_pairs (combine l (seq 0 (length l))))); [apply sorted_pairs_sorted|].
    apply map_ext_in. intros p Hp. apply (Permutation_in _ P), positions_nth in Hp as [_ E]. rewrite Nat.sub_0_r in E. symmetry. exact E.
Qed.

(* Elements: 0 Li, 1 O, 2 Ba. *)
Definition solid (h : Q) : fentry := {| f_hull := Some h; f_origin := true; f_experimental := true |}.
Definition bare : fentry := {| f_hull := None; f_origin := false; f_experimental := true |}.
Definition theory (h : Q) : fentry := {| f_hull := Some h; f_origin := true; f_experimental := false |}.
Definition rx (i : nat) (e : Q) (rs ps : list fentry) (d : list (string * nat)) : frxn :=
  {| f_id := i; f_energy := Ok e; f_uncertainty := Ok (1 # 100)%Q; f_entries := rs ++ ps; f_reactants := rs; f_products := ps;
     f_precursors := [1; 2]; f_system := [0; 1; 2]; f_separable := Ok true; f_data := d |}.
Definition by_energy (r : frxn) : result Q := f_energy r.
Definition first_rx := rx 1 (-1 # 4)%Q [solid (1 # 10)%Q; bare] [theory (1 # 50)%Q] [("num_constraints", 1); ("chempot_distance", 7)].
Definition second_rx := rx 2 (-1 # 2)%Q [solid 0%Q; theory (1 # 5)%Q] [theory 0%Q] [("num_constraints", 1); ("chempot_distance", 8); ("primary_competition", 9)].
Definition table := [first_rx; second_rx].

Lemma fills rxns t : (forall r, In r rxns -> In r [first_rx; second_rx]) -> fillable by_energy t true true rxns.
Proof.
  intros H r Hr. apply H in Hr as [<-|[<-|[]]]; (split; [eexists; reflexivity|split; [eexists; reflexivity|split; [discriminate|split; [eexists; reflexivity|split; [eexists; reflexivity|split; discriminate]]]]]).
Qed.
Lemma keep_dicts r : In r table -> NoDup (map fst (f_data r)).
Proof. intros [<-|[<-|[]]]; cbn; repeat constructor; cbn; intuition discriminate. Qed.
Lemma table_frame : to_dataframe by_energy (Some [0; 1]) true true argsort table = Ok
  [("rxn", [Rxn 2; Rxn 1]); ("energy", [Num (-1 # 2); Num (-1 # 4)]); ("max_e_hull_reactants", [Num (1 # 5); Num (1 # 10)]); ("max_e_hull_products", [Num 0; Num (1 # 50)]);
   ("num_theoretical_reactants", [Count 1; Count 0]); ("num_theoretical_products", [Count 1; Count 1]); ("dE", [Num (1 # 100); Num (1 # 100)]);
   ("added_elems", [Elems [2]; Elems [2]]); ("separable", [Flag true; Flag true]); ("max_num_precursor_elems", [Count 2; Count 2]);
   ("chempot_distance", [Datum (Some 8); Datum (Some 7)]); ("cost", [Num (-1 # 2); Num (-1 # 4)])].
Proof. vm_compute. reflexivity. Qed.
Lemma table_attrs k : attribute table k -> ~ In k reserved.
Proof.
  intros (r & rest & v & E & I & D). inversion E; subst. destruct I as [I|[I|[]]]; inversion I; subst; [congruence|]. cbn. intuition discriminate.
Qed.

(* A reaction whose data use the name of a column. *)
Definition clash_rx := rx 3 (-1 # 4)%Q [bare] [bare] [("energy", 5)].
Lemma clash_witness : fillable by_energy None false false [clash_rx] /\ f_entries clash_rx <> [] /\ NoDup (map fst (f_data clash_rx))
  /\ to_dataframe by_energy None false false argsort [clash_rx] = Err ValueError.
Proof.
  split; [|split; [discriminate|split; [repeat constructor; intros []|vm_compute; reflexivity]]]. intros r [<-|[]]. split; [eexists; reflexivity|]. split; [eexists; reflexivity|]. split; [discriminate|].
  split; [discriminate|]. split; [discriminate|]. split; discriminate.
Qed.
(* Data that only a later reaction has do not appear. *)
Lemma lost_witness : exists d, to_dataframe by_energy (Some [0; 1]) true true argsort table = Ok d
  /\ In second_rx table /\ In ("primary_competition", 9) (f_data second_rx) /\ ~ In "primary_competition" (map fst d).
Proof. eexists. split; [exact table_frame|]. split; [right; left; reflexivity|]. split; [right; right; left; reflexivity|]. cbn. intuition discriminate. Qed.
(* The energies above hull are known for all phases but the first one. *)
Definition gas_rx := rx 4 (-1 # 4)%Q [bare; solid (1 # 10)%Q] [solid 0%Q] [].
Lemma hull_witness : exists d, to_dataframe by_energy None false false argsort [gas_rx] = Ok d
  /\ (exists e, In e (f_reactants gas_rx) /\ f_hull e = Some (1 # 10)%Q) /\ ~ In "max_e_hull_reactants" (map fst d).
Proof. eexists. split; [vm_compute; reflexivity|]. split; [exists (solid (1 # 10)%Q); split; [right; left; reflexivity|reflexivity]|]. cbn. intuition discriminate. Qed.

Lemma clash_fails : exists evaluate argsort r, orders argsort /\ NoDup (map fst (f_data r)) /\ f_entries r <> []
  /\ fillable evaluate None false false [r] /\ to_dataframe evaluate None false false argsort [r] = Err ValueError.
Proof. destruct clash_witness as (A & B & C & D). exists by_energy, argsort, clash_rx. split; [exact argsort_orders|]. split; [exact C|]. split; [exact B|]. split; [exact A|exact D]. Qed.
Lemma data_lost : exists evaluate argsort target rxns d r k v, orders argsort
  /\ to_dataframe evaluate target true true argsort rxns = Ok d /\ In r rxns /\ In (k, v) (f_data r) /\ k <> "num_constraints" /\ ~ In k (map fst d).
Proof.
  destruct lost_witness as (d & E & I & V & N). exists by_energy, argsort, (Some [0; 1]), table, d, second_rx, "primary_competition", 9.
  split; [exact argsort_orders|]. split; [exact E|]. split; [exact I|]. split; [exact V|]. split; [discriminate|exact N].
Qed.
Lemma hulls_lost : exists evaluate argsort r d e q, orders argsort /\ to_dataframe evaluate None false false argsort [r] = Ok d
  /\ In e (f_reactants r) /\ f_hull e = Some q /\ ~ In "max_e_hull_reactants" (map fst d).
Proof. destruct hull_witness as (d & E & (e & I & H) & N). exists by_energy, argsort, gas_rx, d, e, (1 # 10)%Q. split; [exact argsort_orders|]. auto. Qed.
