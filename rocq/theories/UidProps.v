(* C116: theorems about the identifiers of entries in reaction sets. *)
From Coq Require Import Permutation.
From Verif Require Import Prelude NumQ UtilsModel ReactionModel ReactionSpec ReactionCheck GibbsModel GibbsSpec GibbsCheck UidModel UidSpec UidProofs UidCheck.
Open Scope nat_scope.

(* Whatever the identifiers are: a reaction comes back with the entries that the last
   one of each identifier is, and only one entry per identifier is ever returned. *)
Theorem C116_by_id : forall E U (same : E -> E -> bool) (uid : E -> U) same_uid arrange,
  (forall l, Permutation (arrange l) l) -> equivalence same_uid -> forall rxns entries s,
  uids_from_rxns same uid same_uid arrange rxns entries = Ok s ->
  exists out, uids_get_rxns s = Ok out
  /\ Forall2 (same_rxn (fun z e => In z (match entries with [] => flat_map u_entries rxns | _ => entries end) /\ same_uid (uid e) (uid z) = true)) out rxns
  /\ forall s1 s2 x y, In s1 out -> In s2 out -> In x (u_entries s1) -> In y (u_entries s2) -> same_uid (uid x) (uid y) = true -> x = y.
Proof. exact @by_id. Qed.
Print Assumptions C116_by_id.

(* Without a list of entries, the only error is KeyError, and there is one only if two
   entries count as the same and have different identifiers. *)
Theorem C116_error : forall E U (same : E -> E -> bool) (uid : E -> U) same_uid arrange,
  (forall l, Permutation (arrange l) l) -> equivalence same_uid -> forall rxns er,
  uids_from_rxns same uid same_uid arrange rxns [] = Err er ->
  er = KeyError /\ exists x y, In x (flat_map u_entries rxns) /\ In y (flat_map u_entries rxns)
    /\ ((same x y = true \/ exists w, In w (flat_map u_entries rxns) /\ same x w = true /\ same w y = true)
        /\ same_uid (uid x) (uid y) = false).
Proof. exact @key_error. Qed.
Print Assumptions C116_error.

(* Full claim: for all entries; shown here for entries that their identifiers tell apart. *)
Theorem C116_round_trip_partial : forall E U (same : E -> E -> bool) (uid : E -> U) same_uid arrange,
  (forall l, Permutation (arrange l) l) -> equivalence same_uid -> forall rxns entries,
  told_apart same uid same_uid (entries ++ flat_map u_entries rxns) ->
  (entries = [] \/ forall e, In e (flat_map u_entries rxns) -> exists z, In z entries /\ same z e = true) ->
  exists s out, uids_from_rxns same uid same_uid arrange rxns entries = Ok s /\ uids_get_rxns s = Ok out
  /\ Forall2 (same_rxn (fun z e => same e z = true)) out rxns.
Proof. exact @told_round_trip. Qed.
Print Assumptions C116_round_trip_partial.

(* When the identifiers of each class do tell the entries apart. *)
Theorem C116_gibbs_partial : forall ln C l,
  (forall x y, In x l -> In y l -> ge_id x = ge_id y -> (pyval (ge_temp x) == pyval (ge_temp y))%Q ->
     ge_comp x = ge_comp y /\ (gibbs_energy ln C x == gibbs_energy ln C y)%Q) ->
  (forall x, In x l -> is_int (ge_temp x)) \/ (forall x, In x l -> ~ is_int (ge_temp x)) ->
  equivalence same_gibbs_uid /\ told_apart (gibbs_same ln C) gibbs_uid same_gibbs_uid l.
Proof. exact (fun ln C l H K => conj pair_uid_equivalence (gibbs_told ln C l H K)). Qed.
Print Assumptions C116_gibbs_partial.

Theorem C116_experimental_partial : forall ln C l,
  (forall x y, In x l -> In y l -> red C (xe_comp x) = red C (xe_comp y) -> (pyval (xe_temp x) == pyval (xe_temp y))%Q ->
     xe_comp x = xe_comp y /\ (correction ln (xe_adjs x) == correction ln (xe_adjs y))%Q) ->
  equivalence same_exp_uid /\ told_apart (exp_same ln C) (exp_uid C) same_exp_uid l.
Proof. exact (fun ln C l H => conj pair_uid_equivalence (exp_told ln C l H)). Qed.
Print Assumptions C116_experimental_partial.

Theorem C116_interpolated_partial : forall l,
  (forall x y, In x l -> In y l -> ie_id x = ie_id y -> ie_comp x = ie_comp y /\ (ie_energy x == ie_energy y)%Q) ->
  equivalence Nat.eqb /\ told_apart interp_same interp_uid Nat.eqb l.
Proof. exact (fun l H => conj nat_uid_equivalence (interp_told l H)). Qed.
Print Assumptions C116_interpolated_partial.

(* Interpolated entries without an id of their own: the formula tells them apart. *)
Theorem C116_default_partial : forall formula_id l,
  (forall a b, In a l -> In b l -> formula_id (fst a) = formula_id (fst b) -> fst a = fst b /\ (snd a == snd b)%Q) ->
  told_apart interp_same interp_uid Nat.eqb (map (fun ce => interp_init formula_id (fst ce) (snd ce) None) l).
Proof. exact default_told. Qed.
Print Assumptions C116_default_partial.
Example C116_default_demo : let l := [(0, (-1)%Q); (1, (-2)%Q); (2, (-2)%Q)] in
  (forall a b, In a l -> In b l -> fst a + 10 = fst b + 10 -> fst a = fst b /\ (snd a == snd b)%Q)
  /\ map interp_uid (map (fun ce => interp_init (fun c => c + 10) (fst ce) (snd ce) None) l) = [10; 11; 12].
Proof.
  split; [|reflexivity]. intros a b [<-|[<-|[<-|[]]]] [<-|[<-|[<-|[]]]]; cbn; intros H; try lia; split; reflexivity.
Qed.

Example C116_demo : forall ln, told_apart (gibbs_same ln demo) gibbs_uid same_gibbs_uid ([] ++ flat_map u_entries trio_rxns)
  /\ length (flat_map u_entries trio_rxns) = 5
  /\ exists s out, uids_from_rxns (gibbs_same ln demo) gibbs_uid same_gibbs_uid (@rev gentry) trio_rxns [] = Ok s
     /\ uids_get_rxns s = Ok out /\ out = trio_rxns.
Proof.
  intros ln. split; [exact (trio_ok ln)|]. split; [reflexivity|]. do 2 eexists. split; [vm_compute; reflexivity|]. split; vm_compute; reflexivity.
Qed.

(* Equal entries, one at 300 and one at 300.0: the set cannot be built. *)
Theorem C116_int_float_refuted : forall ln, exists C a b, wf_chem C /\ built ln C a /\ built ln C b /\ gibbs_same ln C a b = true
  /\ forall arrange, (forall l, Permutation (arrange l) l) ->
     uids_from_rxns (gibbs_same ln C) gibbs_uid same_gibbs_uid arrange [single a (-1)%Q; single b (-1)%Q] [] = Err KeyError.
Proof. exact int_float_witness. Qed.
Print Assumptions C116_int_float_refuted.

(* Different entries with one identifier: the reaction comes back with the other entry. *)
Theorem C116_gibbs_refuted : forall ln, exists C a b s out, wf_chem C /\ built ln C a /\ built ln C b /\ ge_comp a = ge_comp b
  /\ ~ (gibbs_energy ln C a == gibbs_energy ln C b)%Q /\ gibbs_same ln C a b = false
  /\ uids_from_rxns (gibbs_same ln C) gibbs_uid same_gibbs_uid (fun l => l) [single a (-1)%Q; single b (-1)%Q] [] = Ok s
  /\ uids_get_rxns s = Ok out /\ out = [single b (-1)%Q; single b (-1)%Q].
Proof. exact gibbs_merged_witness. Qed.
Print Assumptions C116_gibbs_refuted.

Theorem C116_experimental_refuted : forall ln, exists C refs deprecated a b s out, wf_chem C
  /\ exp_init C refs deprecated (xe_comp a) (xe_temp a) [] = Ok a /\ exp_init C refs deprecated (xe_comp b) (xe_temp b) [] = Ok b
  /\ (exists el, ~ (amt C (xe_comp a) el == amt C (xe_comp b) el)%Q)
  /\ uids_from_rxns (exp_same ln C) (exp_uid C) same_exp_uid (fun l => l) [single a (-2)%Q; single b (-1)%Q] [] = Ok s
  /\ uids_get_rxns s = Ok out /\ out = [single b (-2)%Q; single b (-1)%Q].
Proof. exact exp_merged_witness. Qed.
Print Assumptions C116_experimental_refuted.

Theorem C116_interpolated_refuted : forall formula_id, exists c ea eb s out, ~ (ea == eb)%Q
  /\ interp_same (interp_init formula_id c ea None) (interp_init formula_id c eb None) = false
  /\ uids_from_rxns interp_same interp_uid Nat.eqb (fun l => l)
       [single (interp_init formula_id c ea None) (-1)%Q; single (interp_init formula_id c eb None) (-1)%Q] [] = Ok s
  /\ uids_get_rxns s = Ok out
  /\ out = [single (interp_init formula_id c eb None) (-1)%Q; single (interp_init formula_id c eb None) (-1)%Q].
Proof. exact interp_merged_witness. Qed.
Print Assumptions C116_interpolated_refuted.
