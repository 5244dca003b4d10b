(* Concrete cases for the properties of the enumerators. *)
From Verif Require Import Prelude NumQ UtilsModel UtilsSpec ReactionModel ReactionSpec ChemTable ReactionCheck RxnSetModel RxnSetSpec RxnSetCheck EnumModel EnumSpec EnumLinkModel RunModel.
Open Scope nat_scope.

(* --- C30 --- *)
(* Two combinations in one chemical system, one in another: one pair in all, two jobs. *)
Definition small_dict : list (nat * list (list nat)) := [(0, [[0]; [1]]); (1, [[2]])].
Lemma job_limit_witness : exists (items : list (nat * list (list nat * list nat))) jobs,
  items = map (fun kv => (fst kv, basic_iterable (snd kv) [])) small_dict
  /\ build_jobs 1 1 (length (tagged items)) items = Ok jobs /\ length jobs = 2.
Proof. do 2 eexists. split; [reflexivity|]. split; [vm_compute; reflexivity|reflexivity]. Qed.

(* --- C31: BaO-like exchange reaction of the demonstration table --- *)
Definition plain_entry (i : nat) : entry := {| e_id := i; e_comp := i; e_energy := 0 |}.
Definition demo_solve (r p c : list nat) : list Q :=
  if list_eqb r [9; 10] && list_eqb p [11; 12] then [-1#1; -1#1; 1#1; 1#1]%Q else repeat 0%Q (length r + length p).
Definition demo_options : options :=
  {| o_n := 2; o_pfunc := IsSuperset; o_tfunc := Intersection; o_chemsys := None; o_chunk := 7; o_jobs := 100;
     o_unbalanced := true; o_changed := true; o_constraints := 1 |}.
Definition demo_enumerate (o : options) (pre tar : list nat) : result (list erxn) :=
  enumerate_rxns (fun i => ReactionModel.elems ReactionCheck.demo (e_comp (plain_entry i))) basic_iterable basic_iter_length
    (basic_react (forward_rxn ReactionCheck.demo plain_entry demo_solve (fun _ _ => 3)) (backward_rxn ReactionCheck.demo plain_entry demo_solve (fun _ _ => 3)))
    (fun k => k) o [9; 10; 11; 12] pre tar [] [] lifo_any.

(* Decides the hypothesis on the reduced compositions of a table. *)
Lemma demo_big : forall c e, In e (ReactionModel.elems ReactionCheck.demo c) ->
  (1#100 < amt ReactionCheck.demo (red ReactionCheck.demo c) e)%Q.
Proof.
  intros c e H. do 15 (destruct c as [|c]; [cbn in H; repeat (destruct H as [<-|H]; [vm_compute; reflexivity|]); destruct H|]).
  cbn in H. destruct c; destruct H.
Qed.
Lemma demo_solve_length : forall r p c, length (demo_solve r p c) = length r + length p.
Proof.
  intros r p c. unfold demo_solve. destruct (list_eqb r [9; 10] && list_eqb p [11; 12]) eqn:E; [|apply repeat_length].
  apply andb_prop in E as [A B]. unfold list_eqb in A, B.
  destruct (list_eq_dec Nat.eq_dec r [9; 10]) as [->|]; [|discriminate]. destruct (list_eq_dec Nat.eq_dec p [11; 12]) as [->|]; [reflexivity|discriminate].
Qed.
Lemma demo_entries_elems : forall e, In e [9; 10; 11; 12] ->
  ReactionModel.elems ReactionCheck.demo (e_comp (plain_entry e)) <> [].
Proof. intros e [<-|[<-|[<-|[<-|[]]]]]; vm_compute; discriminate. Qed.
Definition titanate_rxn : erxn :=
  {| er_reactants := [9; 10]; er_products := [11; 12]; er_identity := false; er_balanced := true; er_errors := Some 0; er_constraints := 1 |}.
Definition titanate_back : erxn :=
  {| er_reactants := [11; 12]; er_products := [9; 10]; er_identity := false; er_balanced := true; er_errors := Some 0; er_constraints := 1 |}.

(* LiO and a polymorph of it (15) to Li2O and O2: the coefficients of equal compositions
   are not added up, so that the reaction counts as unbalanced *)
Definition twin_entry (i : nat) : entry := {| e_id := i; e_comp := if Nat.eqb i 15 then 8 else i; e_energy := 0 |}.
Definition twin_solve (r p c : list nat) : list Q :=
  if list_eqb r [8; 15] && list_eqb p [0; 7] then [-2#1; -2#1; 2#1; 1#1]%Q else repeat 0%Q (length r + length p).
Definition twin_options (unbalanced : bool) : options :=
  {| o_n := 2; o_pfunc := IsSuperset; o_tfunc := Intersection; o_chemsys := None; o_chunk := 7; o_jobs := 100;
     o_unbalanced := unbalanced; o_changed := true; o_constraints := 2 |}.
Definition twin_enumerate (unbalanced : bool) : result (list erxn) :=
  enumerate_rxns (fun i => ReactionModel.elems ReactionCheck.demo (e_comp (twin_entry i))) basic_iterable basic_iter_length
    (basic_react (forward_rxn ReactionCheck.demo twin_entry twin_solve (fun _ _ => 2)) (backward_rxn ReactionCheck.demo twin_entry twin_solve (fun _ _ => 2)))
    (fun k => k) (twin_options unbalanced) [8; 15; 0; 7] [] [] [] [] lifo_any.

(* --- C70: open phases TiO2 and CO2, or O2 --- *)
Definition demo_open_enumerate (o : options) (entries open_entries : list nat) : result (list erxn) :=
  enumerate_rxns (fun i => ReactionModel.elems ReactionCheck.demo (e_comp (plain_entry i))) open_iterable open_iter_length
    (basic_react (forward_rxn ReactionCheck.demo plain_entry demo_solve (fun _ _ => 3)) (backward_rxn ReactionCheck.demo plain_entry demo_solve (fun _ _ => 3)))
    (fun k => k) o entries [] [] open_entries (open_combos open_entries) lifo_any.
Definition open_solve (r p c : list nat) : list Q :=
  if list_eqb r [4] && list_eqb p [0; 7] then [-4#1; 2#1; -1#1]%Q
  else if list_eqb r [0] && list_eqb p [4; 7] then [-2#1; 4#1; 1#1]%Q else repeat 0%Q (length r + length p).
(* 2 Li2O -> 4 Li + O2 and back, O2 open *)
Definition li2o_enumerate : result (list erxn) :=
  enumerate_rxns (fun i => ReactionModel.elems ReactionCheck.demo (e_comp (plain_entry i))) open_iterable open_iter_length
    (basic_react (forward_rxn ReactionCheck.demo plain_entry open_solve (fun _ _ => 2)) (backward_rxn ReactionCheck.demo plain_entry open_solve (fun _ _ => 2)))
    (fun k => k) demo_options [0; 4; 7] [] [] [7] (open_combos [7]) lifo_any.

(* --- C66 --- *)
Definition closed_set : rset := Eval vm_compute in
  match from_rxns arrange [rx [en 0; en 1; en 2] [-1#1; -1#1; 1#1]%Q 10] [en 0; en 1; en 2; en 3] None 0 with Ok s => s | Err _ => rset_init [] [] [] None 0 None end.
Definition open_rxn : srxn := rxo [en 1; en 3] [-1#1; 2#1]%Q 11 (-5#2).
Definition open_set : rset := Eval vm_compute in
  match from_rxns arrange [open_rxn] [en 0; en 1; en 2; en 3] None 0 with Ok s => s | Err _ => rset_init [] [] [] None 0 None end.

Lemma closed_wf : well_formed closed_set.
Proof. apply wf_check_ok. vm_compute. reflexivity. Qed.
Lemma open_wf : well_formed open_set.
Proof. apply wf_check_ok. vm_compute. reflexivity. Qed.

Lemma open_becomes_closed_witness : exists a b r s out, well_formed a /\ well_formed b /\ r_entries a = r_entries b /\ get_rxns b = Ok [r]
  /\ x_mu r <> None /\ run_enumerators argsort (fun l => l) [Ok a; Ok b] = Ok (Some s) /\ get_rxns s = Ok out
  /\ forall r', In r' out -> x_mu r' = None.
Proof.
  exists closed_set, open_set, open_rxn. do 2 eexists. split; [exact closed_wf|]. split; [exact open_wf|]. split; [reflexivity|].
  split; [vm_compute; reflexivity|]. split; [discriminate|]. split; [vm_compute; reflexivity|]. split; [vm_compute; reflexivity|].
  intros r' [<-|[<-|[]]]; reflexivity.
Qed.

Lemma open_both_sides_witness : exists entries op r p out,
  let els := fun i => ReactionModel.elems ReactionCheck.demo (e_comp (plain_entry i)) in
  let forward := forward_rxn ReactionCheck.demo plain_entry demo_solve (fun _ _ => 3) in
  let backward := backward_rxn ReactionCheck.demo plain_entry demo_solve (fun _ _ => 3) in
  incl (r ++ p) entries /\ disjoint r p /\ (exists e, In e r /\ In e op) /\ (exists e, In e p /\ In e op)
  /\ length r <= o_n demo_options /\ length p <= o_n demo_options
  /\ system_ok els demo_options (flat_map els op) r
  /\ sound_rxn demo_options (forward r p) /\ wanted demo_options [] [] op (forward r p)
  /\ enumerate_rxns els open_iterable open_iter_length (basic_react forward backward) (fun k => k) demo_options
       entries [] [] op (open_combos op) lifo_any = Ok out
  /\ out = [].
Proof.
  exists [9; 10; 11; 12], [10; 12], [9; 10], [11; 12]. eexists. intros els forward backward.
  split; [intros x Hx; exact Hx|]. split; [intros x [<-|[<-|[]]] [H|[H|[]]]; discriminate|].
  split; [exists 10; simpl; tauto|]. split; [exists 12; simpl; tauto|]. split; [simpl; lia|]. split; [simpl; lia|].
  split; [exists [1; 2; 3; 4]; split; [|split; [simpl; lia|discriminate]]|].
  - split; [repeat constructor|]. intros x. split.
    + intros [<-|[<-|[<-|[<-|[]]]]]; [left; exists 9|left; exists 9|left; exists 10|left; exists 9]; simpl; tauto.
    + intros [(e & [<-|[<-|[]]] & H)|H]; vm_compute in H; simpl; tauto.
  - split; [repeat split; vm_compute; try reflexivity; lia|]. split; [split; left; reflexivity|]. split; [vm_compute; reflexivity|reflexivity].
Qed.
Lemma open_no_open_witness : exists entries op r p out,
  let els := fun i => ReactionModel.elems ReactionCheck.demo (e_comp (plain_entry i)) in
  let forward := forward_rxn ReactionCheck.demo plain_entry demo_solve (fun _ _ => 3) in
  let backward := backward_rxn ReactionCheck.demo plain_entry demo_solve (fun _ _ => 3) in
  incl (r ++ p) entries /\ disjoint r p /\ (forall e, In e (r ++ p) -> ~ In e op)
  /\ length r <= o_n demo_options /\ length p <= o_n demo_options
  /\ system_ok els demo_options (flat_map els op) r
  /\ sound_rxn demo_options (forward r p) /\ wanted demo_options [] [] op (forward r p)
  /\ enumerate_rxns els open_iterable open_iter_length (basic_react forward backward) (fun k => k) demo_options
       entries [] [] op (open_combos op) lifo_any = Ok out
  /\ out = [].
Proof.
  exists [7; 9; 10; 11; 12], [7], [9; 10], [11; 12]. eexists. intros els forward backward.
  split; [intros x Hx; right; exact Hx|]. split; [intros x [<-|[<-|[]]] [H|[H|[]]]; discriminate|].
  split; [intros x [<-|[<-|[<-|[<-|[]]]]] [H|[]]; discriminate|]. split; [simpl; lia|]. split; [simpl; lia|].
  split; [exists [1; 2; 3; 4]; split; [|split; [simpl; lia|discriminate]]|].
  - split; [repeat constructor|]. intros x. split.
    + intros [<-|[<-|[<-|[<-|[]]]]]; [left; exists 9|left; exists 9|left; exists 10|left; exists 9]; simpl; tauto.
    + intros [(e & [<-|[<-|[]]] & H)|H]; vm_compute in H; simpl; tauto.
  - split; [repeat split; vm_compute; try reflexivity; lia|]. split; [split; left; reflexivity|]. split; [vm_compute; reflexivity|reflexivity].
Qed.

