(* Concrete cases for networks that are saved and loaded. *)
From Coq Require Import String.
From Verif Require Import Prelude NumQ EnumModel NetModel NetSpec NetCheck YenModel YenSpec ShortestPath LoadModel LoadSpec.
Local Open Scope string_scope. Open Scope nat_scope. Open Scope list_scope.

Definition lmade (entries : list nat) (rxns : list nrxn) (ops : list net_op) : result lnetwork := lrun_ops (lbuild (lnew entries rxns)) ops.

(* Two entries, YMnO3 and O2, with the elements in order of electronegativity. *)
Definition sample_elems (e : nat) : list string := match e with 0 => ["Mn"; "O"; "Y"] | _ => ["O"] end.
Definition sample_order (l : list string) : list string := filter (fun s => existsb (String.eqb s) l) ["Y"; "Mn"; "O"].
Lemma sample_eq : equivalence Nat.eqb.
Proof. split; [exact Nat.eqb_refl|]. split; [exact Nat.eqb_sym|]. intros a b c H1 H2. apply Nat.eqb_eq in H1 as ->. exact H2. Qed.
Lemma sample_elems_eq a b : Nat.eqb a b = true -> forall s, In s (sample_elems a) <-> In s (sample_elems b).
Proof. intros H. apply Nat.eqb_eq in H as ->. reflexivity. Qed.
Lemma sample_order_eq a b : (forall s, In s a <-> In s b) -> sample_order a = sample_order b.
Proof.
  intros H. unfold sample_order. apply filter_ext. intros s. apply eq_true_iff_eq. rewrite !existsb_exists.
  split; intros (x & I & Q); exists x; (split; [apply H; exact I|exact Q]).
Qed.
