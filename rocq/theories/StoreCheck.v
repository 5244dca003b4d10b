(* Concrete entries and data used by the examples and counterexamples. *)
From Coq Require Import Lqa String.
From Verif Require Import Prelude NumQ ListFacts UtilsModel ReactionModel ReactionSpec ChemTable ReactionCheck GibbsModel GibbsSpec GibbsProofs GibbsEntryProofs GibbsCheck
  StoreModel StoreSpec StoreProofs.
Open Scope list_scope.
Open Scope nat_scope.

(* names: texts 0, 1, ..., element e is text 100 + e, number z is text 200 + z *)
Definition symbol (e : nat) : nat := 100 + e.
Definition digits (z : Z) : nat := 200 + Z.to_nat z.

(* {"oxidation_states": {Li: ..., O: ...}, "symmetry": {"number": ...}, "ids": [...]} *)
Definition ox_data : data :=
  [(KText 0, TDict [(KElem 4, Leaf 7); (KElem 8, Leaf 8)]); (KText 1, TDict [(KText 2, Leaf 9)]); (KText 3, TList [Leaf 1; TDict [(KText 4, Leaf 5)]])].
(* {"oxidation": {"average": {Li: ...}}} *)
Definition deep_data : data := [(KText 0, TDict [(KText 1, TDict [(KElem 4, Leaf 7)])])].
(* the same, and something that is changed all the same *)
Definition half_data : data := [(KText 0, TDict [(KText 1, TDict [(KElem 4, Leaf 7)])]); (KText 2, TDict [(KElem 4, Leaf 7)])].

Ltac no_such_key := repeat match goal with
  | H : elem_key _ (Leaf _) |- _ => inversion H
  | H : elem_key _ (TDict _) |- _ => inversion H; clear H; subst
  | H : elem_key _ (TList _) |- _ => inversion H; clear H; subst
  | H : In _ _ |- _ => cbn [In] in H
  | H : _ \/ _ |- _ => destruct H as [H|H]
  | H : (_, _) = (_, _) |- _ => inversion H; clear H; subst
  | H : False |- _ => destruct H
  | H : _ = ?v |- _ => is_var v; subst v
  | H : _ = _ |- _ => discriminate H
  end; try reflexivity.
Ltac names_differ := repeat (first [ apply distinct_leaf | apply distinct_list | apply distinct_dict | apply Forall_nil | apply Forall_cons
  | (cbn; repeat (apply NoDup_cons; [cbn; intuition discriminate|]); apply NoDup_nil) ]).

Lemma ox_depth : forall n, elem_key n (TDict ox_data) -> n = 1.
Proof. intros n H. unfold ox_data in H. no_such_key. Qed.
Lemma ox_distinct : distinct_names (name_of symbol digits) (TDict ox_data).
Proof. unfold ox_data. names_differ. Qed.
Lemma deep_distinct : distinct_names (name_of symbol digits) (TDict deep_data).
Proof. unfold deep_data. names_differ. Qed.
Lemma half_distinct : distinct_names (name_of symbol digits) (TDict half_data).
Proof. unfold half_data. names_differ. Qed.

Lemma nested_witness : forall ln, exists elem_text num_text C e, wf_chem C /\ built ln C (st_entry e)
  /\ distinct_names (name_of elem_text num_text) (TDict (st_data e))
  /\ fst (gibbs_as_dict elem_text num_text e) = Err TypeError
  /\ forall mass table default_id t, fst (gibbs_retemper elem_text num_text ln C mass table default_id e t) = Err TypeError.
Proof.
  intros ln. exists symbol, digits, demo, {| st_entry := lith 4 (-1) 1; st_data := deep_data |}. split; [exact demo_wf|].
  split; [apply lith_built; reflexivity|]. split; [exact deep_distinct|]. split; [vm_compute; reflexivity|]. intros. vm_compute. reflexivity.
Qed.
Lemma changed_witness : forall ln, exists elem_text num_text C e, wf_chem C /\ built ln C (st_entry e)
  /\ distinct_names (name_of elem_text num_text) (TDict (st_data e))
  /\ st_data (snd (gibbs_as_dict elem_text num_text e)) <> st_data e.
Proof.
  intros ln. exists symbol, digits, demo, {| st_entry := lith 4 (-1) 1; st_data := half_data |}. split; [exact demo_wf|].
  split; [apply lith_built; reflexivity|]. split; [exact half_distinct|]. vm_compute. discriminate.
Qed.
(* {"oxidation_states": {Li: ..., "Li": ...}} *)
Lemma lost_witness : exists elem_text num_text d t, json_back num_text (sanitize elem_text d) = Ok (TDict [(KText 0, TDict [(KText t, Leaf 8)])])
  /\ d = [(KText 0, TDict [(KElem 4, Leaf 7); (KText t, Leaf 8)])].
Proof. exists symbol, digits, [(KText 0, TDict [(KElem 4, Leaf 7); (KText 104, Leaf 8)])], 104. split; vm_compute; reflexivity. Qed.

(* one site full of lithium, one half empty *)
Definition gaps : structure := {| s_volume := 30%Q; s_sites := [[(0, 1%Q)]; [(0, (1 # 2)%Q)]] |}.
Definition full : structure := {| s_volume := 30%Q; s_sites := [[(0, 1%Q)]; [(0, (1 # 2)%Q); (1, (1 # 2)%Q)]] |}.
Lemma gaps_witness : forall ln, exists C mass table default_id comp_of s dhf t e, wf_chem C
  /\ from_structure ln C mass table default_id comp_of s dhf t None None = Ok e
  /\ ~ (occupancy s == 0)%Q /\ ~ (ge_vol e == s_volume s / occupancy s)%Q.
Proof.
  intros ln. exists demo, demo_mass, demo_refs, no_id, (fun _ => 4), gaps, (-1)%Q, (PInt 300). eexists. split; [exact demo_wf|].
  split; [unfold from_structure; cbn [s_sites gaps]; unfold gibbs_init, gibbs_adjustment; reflexivity|]. split; vm_compute; discriminate.
Qed.
Lemma unmarked : is_experimental (Some None) (Some (Some 0)) = Ok true /\ ~ known (Some None) (Some (Some 0)).
Proof. split; [reflexivity|]. intros [H|[H _]]; discriminate. Qed.
