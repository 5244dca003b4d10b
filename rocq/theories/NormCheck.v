(* Concrete normalised texts (C155). *)
From Coq Require Import Ascii String Lqa Lia.
From Verif Require Import Prelude NumQ UtilsModel ReactionModel ReactionSpec ReactionCheck LinModel StrModel StrSpec StrCheck NormModel NormSpec.
Open Scope list_scope.
Open Scope nat_scope.

Lemma oxide_units : in_units demo oxide (1 # 4) [-14; -6; 5; 4]%Z /\ lowest [-14; -6; 5; 4]%Z /\ (forall z, In z [-14; -6; 5; 4]%Z -> (Z.abs z < 10000)%Z).
Proof.
  split; [repeat constructor|]. split.
  - intros d P H. assert (A : (d | 5)%Z) by (apply H; cbn; tauto). assert (B : (d | 4)%Z) by (apply H; cbn; tauto).
    assert (D : (d | 1)%Z) by (change 1%Z with (5 - 4)%Z; apply Z.divide_sub_r; assumption). apply Z.divide_1_r_nonneg in D; lia.
  - intros z I. cbn in I. lia.
Qed.
Lemma oxide_normal : normalized_repr_and_factor demo demo_name oxide = Ok (txt "14 Li + 6 O2 -> 5 Li2O + 4 LiO"%string, 4%Q).
Proof. vm_compute. reflexivity. Qed.
(* a third of it *)
Definition oxide_thirds : brxn := basic_init demo [4; 7; 0; 8] [-(7#6); -(3#6); 5#12; 1#3]%Q None None.
Lemma thirds_multiple : multiple demo (1 # 3) oxide oxide_thirds.
Proof. repeat constructor. Qed.
Lemma thirds_normal : normalized_repr_and_factor demo demo_name oxide_thirds = Ok (txt "14 Li + 6 O2 -> 5 Li2O + 4 LiO"%string, 12%Q).
Proof. vm_compute. reflexivity. Qed.
(* 4e-9 Li + 1e-9 O2 -> 2e-9 Li2O is left with a coefficient of one half *)
Definition plain_oxide : brxn := basic_init demo [4; 7; 0] [-(4); -(1); 2]%Q None None.
Definition tiny_oxide : brxn := basic_init demo [4; 7; 0] [-(4 # 1000000000); -(1 # 1000000000); 2 # 1000000000]%Q None None.
Lemma tiny_witness : exists C name r r' s, (0 < s)%Q /\ multiple C s r r' /\ conserving C r /\ conserving C r' /\ in_units C r 1 [-4; -1; 2]%Z
  /\ normalized_repr C name r = Ok (txt "4 Li + O2 -> 2 Li2O"%string) /\ normalized_repr C name r' = Ok (txt "2 Li + 0.5 O2 -> Li2O"%string).
Proof.
  exists demo, demo_name, plain_oxide, tiny_oxide, (1 # 1000000000)%Q. split; [reflexivity|]. split; [repeat constructor|].
  split; [intros e; destruct e as [|[|[|e]]]; vm_compute; reflexivity|]. split; [intros e; destruct e as [|[|[|e]]]; vm_compute; reflexivity|].
  split; [repeat constructor|]. split; vm_compute; reflexivity.
Qed.
Lemma oxide_from_formulas : exists r, from_formulas demo demo_parse (exact_solve demo) (exact_rank demo) [txt "Li"%string; txt "O2"%string] [txt "Li2O"%string] = Ok r
  /\ balanced r = true /\ comps r = [4; 7; 0] /\ map Qred (coeffs r) = [-(2); -(1#2); 1]%Q.
Proof. eexists. split; [vm_compute; reflexivity|]. vm_compute. repeat split; reflexivity. Qed.
