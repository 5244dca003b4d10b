(* Finite tables of compositions, for concrete examples. *)
From Coq Require Import Lqa.
From Verif Require Import Prelude NumQ SumQ ReactionModel ReactionSpec ReactionBaseProofs.
Open Scope nat_scope.

(* One row per composition: amounts, reduced composition, factor. *)
Notation chem_row := (list (nat * Q) * nat * Q)%type.
Definition row (t : list chem_row) (c : nat) : chem_row := nth c t ([], c, 1%Q).
Definition amount_in (l : list (nat * Q)) (e : nat) : Q :=
  match dict_get e l with Some a => a | None => 0%Q end.
Definition table_chem (t : list chem_row) : chem :=
  {| elems c := map fst (fst (fst (row t c)));
     amt c e := amount_in (fst (fst (row t c))) e;
     red c := snd (fst (row t c));
     fac c := snd (row t c) |}.

Definition row_ok (t : list chem_row) (c : nat) : bool :=
  let C := table_chem t in
  nodupb Nat.eqb (elems C c)
  && forallb (fun ea => Qlt_bool 0 (snd ea)) (fst (fst (row t c)))
  && Nat.eqb (red C (red C c)) (red C c)
  && Qlt_bool 0 (fac C c)
  && forallb (fun e => Qeq_bool (amt C c e) (fac C c * amt C (red C c) e)) (elems C c)
  && (if list_eq_dec Nat.eq_dec (elems C (red C c)) (elems C c) then true else false).
Definition table_ok (t : list chem_row) : bool := forallb (row_ok t) (seq 0 (length t)).

Lemma nodupb_NoDup l : nodupb Nat.eqb l = true -> NoDup l.
Proof.
  induction l as [|x l IH]; intros H; [constructor|]. simpl in H. apply andb_true_iff in H as [H1 H2].
  constructor; [|auto]. apply negb_true_iff, memb_false in H1. assumption.
Qed.

Lemma dict_get_in {V} e (l : list (nat * V)) v : dict_get e l = Some v -> In (e, v) l.
Proof.
  induction l as [|[k w] l IH]; simpl; [discriminate|]. destruct (Nat.eqb_spec e k) as [->|Hn].
  - intros H. injection H as ->. left. reflexivity.
  - intros H. right. auto.
Qed.
Lemma dict_get_none {V} e (l : list (nat * V)) : ~ In e (map fst l) -> dict_get e l = None.
Proof.
  induction l as [|[k w] l IH]; simpl; [reflexivity|]. intros H. destruct (Nat.eqb_spec e k) as [->|Hn]; [exfalso; tauto|].
  apply IH. tauto.
Qed.
Lemma dict_get_some {V} e (l : list (nat * V)) : In e (map fst l) -> exists v, dict_get e l = Some v.
Proof.
  induction l as [|[k w] l IH]; simpl; [intros []|]. intros H. destruct (Nat.eqb_spec e k) as [->|Hn]; [eexists; reflexivity|].
  destruct H as [H|H]; [congruence|auto].
Qed.

Lemma table_ok_wf t : table_ok t = true -> wf_chem (table_chem t).
Proof.
  intros H. unfold table_ok in H. rewrite forallb_forall in H.
  set (C := table_chem t) in *.
  assert (R : forall c, row_ok t c = true).
  { intros c. destruct (Nat.lt_ge_cases c (length t)) as [Hc|Hc].
    - apply H, in_seq. lia.
    - unfold row_ok, table_chem, row. cbn [elems amt red fac]. rewrite !(nth_overflow t) by assumption.
      cbn. rewrite Nat.eqb_refl. reflexivity. }
  assert (P : forall c,
     NoDup (elems C c) /\ (forall e, In e (elems C c) -> (0 < amt C c e)%Q)
     /\ red C (red C c) = red C c /\ (0 < fac C c)%Q
     /\ (forall e, In e (elems C c) -> (amt C c e == fac C c * amt C (red C c) e)%Q)
     /\ elems C (red C c) = elems C c).
  { intros c. specialize (R c). unfold row_ok in R. fold C in R. rewrite !andb_true_iff in R.
    destruct R as (((((R1 & R2) & R3) & R4) & R5) & R6).
    rewrite forallb_forall in R2, R5. split; [apply nodupb_NoDup; assumption|].
    split.
    { intros e He. unfold C, table_chem in *. cbn [amt elems] in *. unfold amount_in.
      destruct (dict_get_some e _ He) as (v & E). rewrite E. apply dict_get_in in E. apply R2 in E.
      apply Qlt_bool_iff' in E. exact E. }
    split; [apply Nat.eqb_eq; assumption|]. split; [apply Qlt_bool_iff'; assumption|].
    split; [intros e He; apply Qeq_bool_iff; auto|].
    destruct (list_eq_dec Nat.eq_dec (elems C (red C c)) (elems C c)); [assumption|discriminate]. }
  assert (Z : forall c e, ~ In e (elems C c) -> (amt C c e == 0)%Q).
  { intros c e He. unfold C, table_chem in *. cbn [amt elems] in *. unfold amount_in.
    rewrite dict_get_none by assumption. reflexivity. }
  constructor; try (intros c; apply P); [exact Z|].
  intros c e. destruct (in_dec Nat.eq_dec e (elems C c)) as [He|He]; [apply P; assumption|].
  rewrite (Z c e He), (Z (red C c) e); [ring|]. replace (elems C (red C c)) with (elems C c) by (symmetry; apply P). assumption.
Qed.
