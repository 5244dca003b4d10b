(* Concrete pathways: witnesses and non-vacuity for C40-C44 and C73-C76. *)
From Verif Require Import Prelude NumQ UtilsModel ReactionModel ReactionSpec ReactionCheck RxnSetModel RxnSetSpec RxnSetCheck PathModel PathSpec PathProofs.
Open Scope nat_scope.

Definition bp {R} (l : list R) : path R := {| p_rxns := l; p_costs := []; p_coeffs := None; p_balanced := false |}.
Definition cp {R} (l : list R) (cs ms : list Q) : path R := {| p_rxns := l; p_costs := cs; p_coeffs := Some ms; p_balanced := true |}.

Lemma nat_equivalence : equivalence Nat.eqb.
Proof. split; [apply Nat.eqb_refl|]. split; [intros a b H; apply Nat.eqb_eq in H; subst; apply Nat.eqb_refl|]. intros a b c H1 H2. apply Nat.eqb_eq in H1, H2. subst. apply Nat.eqb_refl. Qed.

(* C41 *)
Lemma prefix_witness : exists p q : path nat, path_eq Nat.eqb p q = Ok true /\ path_eq Nat.eqb q p = Ok true /\ length (p_rxns p) <> length (p_rxns q).
Proof. exists (bp [1]), (bp [1; 2]). repeat split; try reflexivity. discriminate. Qed.
Lemma chain_witness : exists p q r : path nat, path_eq Nat.eqb p q = Ok true /\ path_eq Nat.eqb q r = Ok true /\ path_eq Nat.eqb p r = Ok false.
Proof. exists (bp [1; 2]), (bp [1]), (bp [1; 3]). repeat split. Qed.
Lemma one_way_witness : exists p q : path nat, same_shape p q /\ path_eq Nat.eqb p q = Ok true /\ path_eq Nat.eqb q p = Ok false.
Proof.
  exists (cp [1] [1%Q] [1%Q]), (cp [1] [(100001001005 # 100000000000)%Q] [1%Q]). split; [split; [split; discriminate|split; reflexivity]|].
  split; vm_compute; reflexivity.
Qed.
Lemma uneven_witness : exists p q : path nat, path_eq Nat.eqb p q = Err ValueError.
Proof. exists (cp [1; 2; 3] [1; 2; 3]%Q [1; 1; 1]%Q), (cp [1; 2] [1; 2]%Q [1; 1]%Q). vm_compute. reflexivity. Qed.

(* C73 *)
Lemma hash_witness : exists p q : path nat, path_eq Nat.eqb p q = Ok true /\ same_shape p q /\ hash_key (fun r => r) p <> hash_key (fun r => r) q.
Proof. exists (cp [1] [1%Q] [1%Q]), (cp [1] [1%Q] [2%Q]). split; [vm_compute; reflexivity|]. split; [split; [split; discriminate|split; reflexivity]|]. discriminate. Qed.

(* C44: 0 makes phase 10 from the precursor; 1 uses it to make 11; 2 recovers it. *)
Definition made_from (r : nat) : list nat := nth r [[0]; [10]; [11]; [13]; [12]] [].
Definition makes (r : nat) : list nat := nth r [[10]; [11]; [10; 12]; [12]; [13; 14]] [].
Definition phases (r : nat) : list nat := made_from r ++ makes r.
Lemma recycled_witness : contains_interdependent Nat.eqb made_from makes phases (bp [0; 1; 2]) [0] = true
  /\ ~ interdependent made_from makes phases [0] (bp [0; 1; 2]).
Proof.
  split; [vm_compute; reflexivity|]. intros (group & N & L & I & H1 & H2).
  assert (H0 : ~ In 0 group). { intros H. apply (H1 0 H). cbn. auto. }
  assert (In 1 group).
  { destruct (in_dec Nat.eq_dec 1 group) as [Y|Y]; [exact Y|exfalso]. assert (A : forall r, In r group -> In r [2]).
    { intros r Hr. pose proof (I r Hr) as Hi. cbn in Hi. destruct Hi as [<-|[<-|[<-|[]]]]; [contradiction|contradiction|left; reflexivity]. }
    pose proof (NoDup_incl_length N A). cbn in *. lia. }
  destruct (H2 1 H) as (r' & c & _ & _ & Hc & _ & _ & Ok). cbn in Hc. destruct Hc as [<-|[]]. apply (Ok 0); [left; reflexivity|exact H0|]. cbn. auto.
Qed.
(* 3 and 4 need each other. *)
Lemma needing_witness : contains_interdependent Nat.eqb made_from makes phases (bp [0; 3; 4]) [0] = true /\ interdependent made_from makes phases [0] (bp [0; 3; 4]).
Proof.
  split; [vm_compute; reflexivity|]. exists [3; 4]. split; [repeat constructor; cbn; intuition lia|]. split; [cbn; lia|]. split; [cbn; intros r; tauto|]. split.
  - intros r [<-|[<-|[]]] H; [specialize (H 13 (or_introl eq_refl))|specialize (H 12 (or_introl eq_refl))]; cbn in H; intuition lia.
  - intros r [<-|[<-|[]]]; [exists 4, 13|exists 3, 12]; cbn; (split; [auto|]); (split; [discriminate|]); (split; [auto|]); (split; [auto|]); (split; [intuition lia|]);
      intros q [<-|[<-|[<-|[]]]] Hq; cbn; intuition lia.
Qed.

(* C74: 2 (BaCO3 + TiO2 -> BaTiO3 + CO2) *)
Definition titanate_entries : list entry := [mk 0 9 (-30#1); mk 1 10 (-20#1); mk 2 11 (-35#1); mk 3 12 (-17#1)].
Lemma energy_witness : exists p e e', let es := titanate_entries in let ks := [-1; -1; 1; 1]%Q in
  p = cp [RComputed (computed_init ReactionCheck.demo es ks (Some 0))] [1%Q] [2%Q] /\ path_energy ReactionCheck.demo p = Ok e
  /\ energy ReactionCheck.demo (RComputed (computed_init ReactionCheck.demo es (map (fun k => 2 * k)%Q ks) (Some 0))) = Ok e' /\ conserving ReactionCheck.demo (c_base (computed_init ReactionCheck.demo es ks (Some 0)))
  /\ (e == -2)%Q /\ (e' == -4)%Q.
Proof.
  do 3 eexists. cbv zeta. split; [reflexivity|]. split; [vm_compute; reflexivity|]. split; [vm_compute; reflexivity|].
  split; [intros e; all_elements e|]. split; vm_compute; reflexivity.
Qed.
(* the same step twice *)
Lemma per_atom_witness : exists p e e', let es := titanate_entries in let ks := [-1; -1; 1; 1]%Q in let r := RComputed (computed_init ReactionCheck.demo es ks (Some 0)) in
  p = cp [r; r] [1%Q; 1%Q] [1%Q; 1%Q] /\ path_energy_per_atom ReactionCheck.demo p = Ok e
  /\ energy_per_atom ReactionCheck.demo (RComputed (computed_init ReactionCheck.demo es (map (fun k => 2 * k)%Q ks) (Some 0))) = Ok e' /\ conserving ReactionCheck.demo (c_base (computed_init ReactionCheck.demo es ks (Some 0)))
  /\ (e == 2 * e')%Q /\ ~ (e == e')%Q.
Proof.
  do 3 eexists. cbv zeta. split; [reflexivity|]. split; [vm_compute; reflexivity|]. split; [vm_compute; reflexivity|].
  split; [intros e; all_elements e|]. split; vm_compute; [reflexivity|discriminate].
Qed.
Lemma path_per_atom C (p : path rxn) es : Forall2 (fun r e => energy_per_atom C r = Ok e) (p_rxns p) es ->
  exists v, path_energy_per_atom C p = Ok v /\ (v == Qsum es)%Q.
Proof.
  intros H. unfold path_energy_per_atom. assert (E : mapM (energy_per_atom C) (p_rxns p) = Ok es).
  { induction H as [|r e rs es E H IH]; [reflexivity|]. cbn [mapM]. rewrite E, IH. reflexivity. }
  rewrite E. eexists. split; [reflexivity|]. apply Qeq_refl.
Qed.

(* reactions with the same content *)
Definition mu_eqb (a b : option (list (nat * Q))) : bool :=
  match a, b with
  | None, None => true
  | Some l, Some m => Nat.eqb (length l) (length m) && forallb (fun xy => Nat.eqb (fst (fst xy)) (fst (snd xy)) && Qeq_bool (snd (fst xy)) (snd (snd xy))) (combine l m)
  | _, _ => false
  end.
Definition content_eqb (a b : srxn) : bool :=
  (if list_eq_dec sentry_eq_dec (x_entries a) (x_entries b) then true else false)
  && Nat.eqb (length (x_coeffs a)) (length (x_coeffs b)) && forallb (fun xy => Qeq_bool (fst xy) (snd xy)) (combine (x_coeffs a) (x_coeffs b)) && mu_eqb (x_mu a) (x_mu b).
Lemma content_refl r : content_eqb r r = true.
Proof.
  unfold content_eqb. destruct (list_eq_dec sentry_eq_dec (x_entries r) (x_entries r)) as [_|n]; [|congruence]. rewrite Nat.eqb_refl.
  assert (A : forall l : list Q, forallb (fun xy => Qeq_bool (fst xy) (snd xy)) (combine l l) = true) by (induction l as [|q l IH]; [reflexivity|]; cbn; rewrite IH, Qeq_bool_refl; reflexivity).
  rewrite A. cbn. destruct (x_mu r) as [l|]; [|reflexivity]. cbn. rewrite Nat.eqb_refl. cbn. induction l as [|q l IH]; [reflexivity|]. cbn. rewrite IH, Nat.eqb_refl, Qeq_bool_refl. reflexivity.
Qed.

(* C40: an open and a closed step *)
Definition half_open : path srxn := bp [rx [en 0; en 1] [-1; 1]%Q 5; {| x_entries := [en 1; en 2]; x_coeffs := [-1; 1]%Q; x_data := 6; x_mu := Some [(7, 1%Q)] |}].
Lemma half_open_path_witness : from_paths content_eqb arrange [half_open] = Err ValueError
  /\ (forall r, In r (p_rxns half_open) -> plain r).
Proof.
  split; [vm_compute; reflexivity|]. intros r [<-|[<-|[]]]; (split; [repeat constructor; cbn; intuition discriminate|]); (split; [reflexivity|]); cbn; intros c [<-|[<-|[]]]; discriminate.
Qed.

(* C75 *)
Definition step_path : path srxn := cp [rx [en 0; en 1] [-1; 1]%Q 5; rx [en 1; en 2; en 3] [-1; -1; 1]%Q 6] [3; 4]%Q [1; 2]%Q.
Lemma flag_lost_witness : exists ps p, from_paths content_eqb arrange [step_path] = Ok ps /\ get_paths ps = Ok [p] /\ p_balanced step_path = true /\ p_balanced p = false
  /\ p_rxns p = p_rxns step_path /\ p_costs p = [3; 4]%Q /\ p_coeffs p = Some [1; 2]%Q.
Proof. do 2 eexists. split; [vm_compute; reflexivity|]. split; [vm_compute; reflexivity|]. repeat split. Qed.
