(* Finite sums of rationals over lists. *)
From Coq Require Import Setoid Morphisms.
From Verif Require Import Prelude NumQ.
Open Scope Q_scope.

Definition sumQ {A} (f : A -> Q) (l : list A) : Q := fold_right (fun a s => f a + s) 0 l.

Section Sums.
Context {A B : Type}.
Implicit Types (f g : A -> Q) (l : list A).

Lemma sumQ_cons f a l : sumQ f (a :: l) = f a + sumQ f l.
Proof. reflexivity. Qed.

Lemma sumQ_app f l1 l2 : sumQ f (l1 ++ l2) == sumQ f l1 + sumQ f l2.
Proof. induction l1; simpl; [ring|]. rewrite IHl1. ring. Qed.

Lemma sumQ_ext f g l : (forall a, In a l -> f a == g a) -> sumQ f l == sumQ g l.
Proof.
  induction l as [|a l IH]; simpl; intros H; [reflexivity|].
  rewrite (H a) by auto. rewrite IH by auto. reflexivity.
Qed.

Lemma sumQ_zero l : sumQ (fun _ => 0) l == 0.
Proof. induction l; simpl; [reflexivity|]. rewrite IHl. ring. Qed.

Lemma sumQ_all_zero f l : (forall a, In a l -> f a == 0) -> sumQ f l == 0.
Proof. intros H. rewrite <- (sumQ_zero l). apply sumQ_ext, H. Qed.

Lemma sumQ_add f g l : sumQ (fun a => f a + g a) l == sumQ f l + sumQ g l.
Proof. induction l; simpl; [ring|]. rewrite IHl. ring. Qed.

Lemma sumQ_scale_l c f l : sumQ (fun a => c * f a) l == c * sumQ f l.
Proof. induction l; simpl; [ring|]. rewrite IHl. ring. Qed.

Lemma sumQ_scale_r c f l : sumQ (fun a => f a * c) l == sumQ f l * c.
Proof. induction l; simpl; [ring|]. rewrite IHl. ring. Qed.

Lemma sumQ_const c l : sumQ (fun _ => c) l == inject_Z (Z.of_nat (length l)) * c.
Proof.
  induction l as [|a l IH]; [cbn; ring|].
  cbn [sumQ fold_right length]. fold (sumQ (fun _ : A => c) l). rewrite IH, Nat2Z.inj_succ.
  unfold Z.succ. rewrite inject_Z_plus. ring.
Qed.

Lemma sumQ_map (h : B -> A) f (l : list B) : sumQ f (map h l) = sumQ (fun b => f (h b)) l.
Proof. induction l; simpl; congruence. Qed.

Lemma sumQ_flat_map (h : B -> list A) f (l : list B) :
  sumQ f (flat_map h l) == sumQ (fun b => sumQ f (h b)) l.
Proof. induction l; simpl; [reflexivity|]. rewrite sumQ_app, IHl. reflexivity. Qed.

Lemma sumQ_perm f l1 l2 : Permutation l1 l2 -> sumQ f l1 == sumQ f l2.
Proof.
  induction 1; simpl; try ring.
  - rewrite IHPermutation. reflexivity.
  - rewrite IHPermutation1. assumption.
Qed.

Lemma sumQ_nonpos f l : (forall a, In a l -> f a <= 0) -> sumQ f l <= 0.
Proof.
  induction l as [|a l IH]; simpl; intros H; [apply Qle_refl|].
  apply (Qplus_le_compat (f a) 0 (sumQ f l) 0); auto.
Qed.

Lemma sumQ_nonneg f l : (forall a, In a l -> 0 <= f a) -> 0 <= sumQ f l.
Proof.
  induction l as [|a l IH]; simpl; intros H; [apply Qle_refl|].
  apply (Qplus_le_compat 0 (f a) 0 (sumQ f l)); auto.
Qed.

Lemma sumQ_le f g l : (forall a, In a l -> f a <= g a) -> sumQ f l <= sumQ g l.
Proof.
  induction l as [|a l IH]; simpl; intros H; [apply Qle_refl|].
  apply Qplus_le_compat; auto.
Qed.
End Sums.

Lemma sumQ_swap {A B} (F : A -> B -> Q) (l : list A) (m : list B) :
  sumQ (fun a => sumQ (F a) m) l == sumQ (fun b => sumQ (fun a => F a b) l) m.
Proof.
  induction l as [|a l IH]; simpl.
  - symmetry. apply sumQ_zero.
  - rewrite IH, <- sumQ_add. reflexivity.
Qed.

Lemma sumQ_mul {A B} (f : A -> Q) (g : B -> Q) l m :
  sumQ f l * sumQ g m == sumQ (fun a => sumQ (fun b => f a * g b) m) l.
Proof.
  rewrite <- sumQ_scale_r. apply sumQ_ext. intros a _. rewrite sumQ_scale_l. reflexivity.
Qed.

(* Indicator. *)
Definition ind (b : bool) : Q := if b then 1 else 0.

Lemma sumQ_filter {A} (p : A -> bool) f l : sumQ f (filter p l) == sumQ (fun a => ind (p a) * f a) l.
Proof.
  induction l as [|a l IH]; simpl; [reflexivity|].
  destruct (p a); simpl; rewrite IH; unfold ind; ring.
Qed.

Lemma fold_left_Qplus l acc : fold_left Qplus l acc == acc + sumQ (fun x => x) l.
Proof. revert acc; induction l; intros acc; simpl; [ring|]. rewrite IHl. ring. Qed.

Lemma Qsum_sumQ l : Qsum l == sumQ (fun x => x) l.
Proof. reflexivity. Qed.

(* Sums over intervals of naturals. *)
Lemma sumQ_seq_shift f s n k : sumQ f (seq (s + k) n) == sumQ (fun i => f (i + k)%nat) (seq s n).
Proof.
  revert s; induction n as [|n IH]; intros s; simpl; [reflexivity|].
  rewrite <- (IH (S s)). reflexivity.
Qed.

Lemma sumQ_seq_split f s n m : (m <= n)%nat ->
  sumQ f (seq s n) == sumQ f (seq s m) + sumQ f (seq (s + m) (n - m)).
Proof.
  intros H. replace n with (m + (n - m))%nat at 1 by lia. rewrite seq_app, sumQ_app. reflexivity.
Qed.
