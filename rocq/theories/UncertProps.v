(* C102: the uncertainty of reaction energies. *)
From Coq Require Import QArith.
From Verif Require Import Prelude NumQ SumQ UtilsSpec ReactionModel ReactionSpec ReactionCheck UncertModel UncertSpec UncertProofs UncertCheck.
Open Scope nat_scope.

(* --- C102 --- *)
Theorem C102_variance : forall C unc es ks n, es <> [] -> ks <> [] ->
  let r := computed_init C es ks n in let sp := species (c_base r) in
  exists v g, energy_variance C unc r = Ok v
  /\ (forall c, In c (map fst sp) -> stands_for C es c (g c))
  /\ (v == sumQ (fun c => square (net_of sp c * spread C unc es (g c))) (nodup Nat.eq_dec (map fst sp)))%Q.
Proof. exact variance_spec. Qed.
Print Assumptions C102_variance.

Theorem C102_quadrature : forall C unc es ks n v, NoDup (map (fun e => red C (e_comp e)) es) -> length ks = length es ->
  energy_variance C unc (computed_init C es ks n) = Ok v ->
  (v == sumQ (fun ek => square (snd ek * (match unc (fst ek) with Some s => s | None => 0 end / fac C (e_comp (fst ek))))) (combine es ks))%Q.
Proof. exact variance_distinct. Qed.
Print Assumptions C102_quadrature.

Theorem C102_scaled : forall C unc es ks n n' s,
  same_value (energy_variance C unc (computed_init C es (map (fun q => q * s)%Q ks) n'))
             (bind (energy_variance C unc (computed_init C es ks n)) (fun v => Ok (square s * v)%Q)).
Proof. exact variance_scaled. Qed.
Print Assumptions C102_scaled.

Theorem C102_per_atom : forall C unc es ks n n' s, (0 < s)%Q ->
  same_value (energy_variance_per_atom C unc (computed_init C es (map (fun q => q * s)%Q ks) n'))
             (energy_variance_per_atom C unc (computed_init C es ks n)).
Proof. exact variance_per_atom. Qed.
Print Assumptions C102_per_atom.

Example C102_per_atom_demo : exists v, energy_variance_per_atom demo lio_unc (computed_init demo lio_entries lio_coeffs None) = Ok v /\ (v == 13#4)%Q.
Proof. eexists. split; vm_compute; reflexivity. Qed.

Theorem C102_nonneg : forall C unc es ks n v, energy_variance C unc (computed_init C es ks n) = Ok v -> (0 <= v)%Q.
Proof. exact variance_nonneg. Qed.
Print Assumptions C102_nonneg.

(* Both entries of lithium are correlated through the cheaper one: (1 + 1)^2 (6/2)^2 + 2^2 2^2. *)
Example C102_demo : exists v, energy_variance demo lio_unc (computed_init demo lio_entries lio_coeffs None) = Ok v /\ (v == 52)%Q
  /\ ~ NoDup (map (fun e => red demo (e_comp e)) lio_entries).
Proof.
  eexists. split; [vm_compute; reflexivity|]. split; [vm_compute; reflexivity|]. intros N. inversion N as [|x l H _]; subst. apply H. left. vm_compute. reflexivity.
Qed.

Example C102_distinct : exists v, NoDup (map (fun e => red demo (e_comp e)) (tl lio_entries))
  /\ energy_variance demo lio_unc (computed_init demo (tl lio_entries) [-2#1; -1#1; 2#1]%Q None) = Ok v /\ (v == 20)%Q.
Proof.
  eexists. split; [|split; [vm_compute; reflexivity|vm_compute; reflexivity]].
  vm_compute. repeat constructor; cbn; intuition discriminate.
Qed.
