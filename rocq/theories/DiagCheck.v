(* The Li-O diagram: Li2O in two polymorphs, Li, O2 and an unstable LiO. *)
From Coq Require Import Lqa.
From Verif Require Import Prelude NumQ SumQ UtilsModel ReactionModel EnumModel DiagModel DiagSpec DiagProofs.
Open Scope nat_scope.

Definition lo_entries : list nat := [4; 0; 3; 1; 2].
Definition lo_els (e : nat) : list nat := match e with 1 => [0] | 2 => [1] | _ => [0; 1] end.
Definition lo_frac (e el : nat) : Q :=
  match e, el with
  | 0, 0 | 3, 0 => (2#3)%Q | 0, 1 | 3, 1 => (1#3)%Q | 1, 0 => 1%Q | 2, 1 => 1%Q | 4, 0 | 4, 1 => (1#2)%Q | _, _ => 0%Q
  end.
Definition lo_formula (e : nat) : nat := match e with 3 => 0 | 4 => 3 | _ => e end.
Definition lo_epa (e : nat) : Q := match e with 0 => (-2#1)%Q | 3 => (-19#10)%Q | 4 => (-1#1)%Q | _ => 0%Q end.
Definition lo_borders : list halfspace :=
  [([-1#1; 0], -100#1); ([1; 0], 0); ([0; -1#1], -100#1); ([0; 1], 0)]%Q.
Definition lo_vertices : list (list Q * list nat) :=
  [([0; -6#1]%Q, [0; 2; 5]); ([-3#1; 0]%Q, [0; 3; 7]); ([0; -100#1]%Q, [2; 5; 6]); ([-100#1; 0]%Q, [3; 4; 7]); ([-100#1; -100#1]%Q, [4; 6])].
Definition lo_planes : list nat := [0; 4; 1; 2].
Definition lo_domains : list (nat * list (list Q)) :=
  [(0, [[0; -6#1]; [-3#1; 0]]%Q); (1, [[0; -6#1]; [0; -100#1]]%Q); (2, [[-3#1; 0]; [-100#1; 0]]%Q)].

Ltac five H := repeat (destruct H as [<-|H]; [|]); try destruct H.
Lemma lo_fractions : fractions lo_els lo_frac lo_formula lo_entries.
Proof.
  constructor.
  - intros e el H. five H; destruct el as [|[|el]]; vm_compute; discriminate.
  - intros e el H N. five H; cbn in N; destruct el as [|[|el]]; try reflexivity; exfalso; apply N; auto.
  - intros e el H E. five H; try discriminate E; injection E as <-; reflexivity.
  - intros e x He Hx E. five He; five Hx; try discriminate E; (split; [reflexivity|intros el; reflexivity]).
  - intros e x el He Hx E E'. five He; try discriminate E; five Hx; try discriminate E'; try reflexivity; cbn in E, E'; congruence.
Qed.
Lemma lo_same a b : In a lo_entries -> In b lo_entries -> Nat.eqb a b = true <-> a = b.
Proof. intros _ _. apply Nat.eqb_eq. Qed.
Lemma lo_init : diagram_init lo_els lo_frac lo_formula lo_epa Nat.eqb lo_entries = Ok ([0; 1], [0; 1; 2; 4], lo_planes).
Proof. vm_compute. reflexivity. Qed.
Lemma lo_intersection : intersection 2 (all_halfspaces lo_frac lo_epa [0; 1] lo_planes lo_borders) lo_vertices.
Proof.
  intros p facet H. repeat (destruct H as [H|H]; [injection H as <- <-|]); try destruct H;
    (split; [reflexivity|]; split; [intros h Hh; repeat (destruct Hh as [<-|Hh]; [vm_compute; discriminate|]); destruct Hh|];
     intros v Hv; repeat (destruct Hv as [<-|Hv]; [eexists; split; [reflexivity|vm_compute; reflexivity]|]); destruct Hv).
Qed.
Lemma lo_named : all_named (all_halfspaces lo_frac lo_epa [0; 1] lo_planes lo_borders) lo_vertices.
Proof.
  intros p facet v h H E S. repeat (destruct H as [H|H]; [injection H as <- <-|]); try destruct H;
    (do 8 (destruct v as [|v]; [injection E as <-; first [cbn; tauto|exfalso; vm_compute in S; discriminate]|]); destruct v; discriminate).
Qed.
Definition lo_ref (el : nat) : nat := match el with 0 => 1 | _ => 2 end.
Lemma lo_references : references lo_els lo_formula lo_epa lo_entries lo_ref.
Proof.
  intros e el He Hel. assert (A : el = 0 \/ el = 1) by (five He; cbn in Hel; intuition). destruct A as [->| ->]; (split; [split; [cbn; tauto|]|reflexivity]); intros x Hx E; five Hx; try discriminate E; vm_compute; discriminate.
Qed.
Lemma lo_found : get_domains lo_formula lo_planes 4 lo_vertices = Ok lo_domains.
Proof. vm_compute. reflexivity. Qed.

(* Li2O and Li alone *)
Lemma no_oxygen : exists els frac formula epa same entries e el, fractions els frac formula entries
  /\ (forall a b, In a entries -> In b entries -> same a b = true <-> a = b) /\ In e entries /\ In el (els e) /\ (forall x, In x entries -> els x <> [el])
  /\ diagram_init els frac formula epa same entries = Err KeyError.
Proof.
  exists lo_els, lo_frac, lo_formula, lo_epa, Nat.eqb, [0; 1], 0, 1. split.
  { constructor.
    - intros e el H. five H; destruct el as [|[|el]]; vm_compute; discriminate.
    - intros e el H N. five H; cbn in N; destruct el as [|[|el]]; try reflexivity; exfalso; apply N; auto.
    - intros e el H E. five H; try discriminate E; injection E as <-; reflexivity.
    - intros e x He Hx E. five He; five Hx; try discriminate E; (split; [reflexivity|intros el; reflexivity]).
    - intros e x el He Hx E E'. five He; try discriminate E; five Hx; try discriminate E'; reflexivity. }
  split; [intros a b _ _; apply Nat.eqb_eq|]. split; [cbn; tauto|]. split; [cbn; tauto|]. split; [intros x [<-|[<-|[]]]; discriminate|]. vm_compute. reflexivity.
Qed.
