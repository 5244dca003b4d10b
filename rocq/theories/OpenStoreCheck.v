(* Concrete entries and reactions used by the examples and counterexamples. *)
From Coq Require Import String.
From Verif Require Import Prelude NumQ ListFacts UtilsModel ReactionModel ReactionSpec ChemTable ReactionCheck GibbsModel GibbsSpec GibbsCheck
  StoreModel StoreSpec StoreProofs StoreCheck OpenStoreModel OpenStoreSpec OpenStoreProofs.
Open Scope list_scope.
Open Scope nat_scope.

(* Element(symbol): the symbols are 100, 101, ... *)
Definition element (t : nat) : option nat := if Nat.leb 100 t && Nat.ltb t 200 then Some (t - 100) else None.

(* {"symmetry": {"number": ...}, "ids": [...]} and {"oxidation_states": {Li: ...}} *)
Definition plain_data : data := [(KText 1, TDict [(KText 2, Leaf 9)]); (KText 3, TList [Leaf 1; TDict [(KNum 4, Leaf 5)]])].
Definition dirty_data : data := [(KText 0, TDict [(KElem 4, Leaf 7)])].
Lemma plain_clean : forall n, ~ elem_key n (TDict plain_data).
Proof. intros n H. assert (B : has_elem (TDict plain_data) = true) by (apply has_elem_iff; exists n; exact H). discriminate. Qed.
Lemma plain_distinct : distinct_names (name_of symbol digits) (TDict plain_data).
Proof. unfold plain_data. names_differ. Qed.
Lemma dirty_distinct : distinct_names (name_of symbol digits) (TDict dirty_data).
Proof. unfold dirty_data. names_differ. Qed.

(* 4 Li + O2 -> 2 Li2O under oxygen *)
Definition li2o : gentry := match demo_init no_ln 0 (-2)%Q 10%Q (PInt 300) None (Some 3) with Ok e => e | Err _ => lith 4 (-1)%Q 1 end.
Definition o2 : gentry := lith 7 0%Q 2.
Definition burning (d : data) : stored_rxn :=
  {| sr_entries := [{| st_entry := lith 4 (-1)%Q 1; st_data := ox_data |}; {| st_entry := o2; st_data := d |}; {| st_entry := li2o; st_data := [] |}];
     sr_coeffs := [-(4); -(1); 2]%Q; sr_mu := [(1, (-(1 # 2))%Q)]; sr_data := []; sr_errors := Some 0 |}.
Lemma empty_distinct : distinct_names (name_of symbol digits) (TDict []).
Proof. names_differ. Qed.
Lemma burning_storable : Forall (storable symbol digits no_ln demo demo_mass demo_refs no_id) (sr_entries (burning plain_data)).
Proof.
  unfold burning. cbn [sr_entries]. apply Forall_cons; [|apply Forall_cons; [|apply Forall_cons; [|apply Forall_nil]]]; unfold storable; cbn [st_entry st_data].
  - split; [|split; [exact ox_depth|exact ox_distinct]]. exists 4, (-1)%Q, 20%Q, (PInt 300), None, (Some 1). apply (lith_init no_ln 4 (-1)%Q 1). reflexivity.
  - split; [|split; [intros n H; destruct (plain_clean n H)|exact plain_distinct]]. exists 7, 0%Q, 20%Q, (PInt 300), None, (Some 2). apply (lith_init no_ln 7 0%Q 2). reflexivity.
  - split; [|split; [intros n H; inversion H; subst; match goal with I : In _ [] |- _ => destruct I end|exact empty_distinct]].
    exists 0, (-2)%Q, 10%Q, (PInt 300), None, (Some 3). vm_compute. reflexivity.
Qed.
Lemma burning_symbols : forall e, In e (map fst (sr_mu (burning plain_data))) -> element (symbol e) = Some e.
Proof. intros e [<-|[]]. reflexivity. Qed.

Lemma argument_witness : exists elem_text num_text of_text C mass table default_id r d r' d', wf_chem C
  /\ Forall (storable elem_text num_text no_ln C mass table default_id) (sr_entries r)
  /\ open_as_dict elem_text num_text r = (Ok d, sr_entries r) /\ open_from_dict of_text no_ln C mass table default_id d = (Ok r', d')
  /\ d' <> d /\ open_dumps d = Ok tt /\ open_dumps d' = Err TypeError.
Proof.
  exists symbol, digits, element, demo, demo_mass, demo_refs, no_id, (burning plain_data). eexists. eexists. eexists.
  split; [exact demo_wf|]. split; [exact burning_storable|]. split; [vm_compute; reflexivity|]. split; [vm_compute; reflexivity|].
  split; [discriminate|]. split; reflexivity.
Qed.
Lemma one_level_witness : exists elem_text num_text C refs (e : stored_exp) c t adjs, wf_chem C
  /\ exp_init C refs (fun _ => false) c t adjs = Ok (sx_entry e)
  /\ (forall n, elem_key n (TDict (sx_data e)) -> n = 1) /\ distinct_names (name_of elem_text num_text) (TDict (sx_data e))
  /\ exp_as_dict num_text e = Err TypeError /\ exp_retemper num_text C refs (fun _ => false) e t = Err TypeError.
Proof.
  exists symbol, digits, demo, demo_exp. destruct (xinit 14 (PInt 300) []) as [x|x] eqn:E; [|discriminate].
  exists {| sx_entry := x; sx_data := dirty_data |}, 14, (PInt 300), []. split; [exact demo_wf|]. split; [exact E|].
  split; [intros n H; cbn [sx_data] in H; unfold dirty_data in H; no_such_key|]. split; [exact dirty_distinct|]. split; vm_compute; reflexivity.
Qed.
Definition bao_exp : xentry := match xinit 14 (PInt 300) [] with Ok x => x | Err _ => {| xe_comp := 0; xe_temp := PInt 0; xe_base := 0%Q; xe_adjs := [] |} end.
