(* C17-C23, C67-C69: theorems about reaction sets. *)
From Verif Require Import Prelude NumQ UtilsModel UtilsSpec RxnSetModel RxnSetSpec RxnSetBaseProofs RxnSetProofs RxnSetDupProofs
  RxnSetFilterProofs RxnSetParProofs RxnSetTempProofs RxnSetCheck.
Open Scope nat_scope.

(* --- C17 --- *)
Theorem C17_round_trip : forall arrange rxns entries mu, arranges arrange ->
  (entries = [] \/ forall r e, In r rxns -> In e (x_entries r) -> In e entries) ->
  (forall x y, In x (entries ++ all_entries rxns) -> In y (entries ++ all_entries rxns) -> uid x = uid y -> x = y) ->
  (forall r, In r rxns -> length (x_coeffs r) = length (x_entries r)) ->
  (forall r, In r rxns -> x_mu r = None) \/ (exists el q, forall r, In r rxns -> x_mu r = Some [(el, q)]) ->
  exists s out, from_rxns arrange rxns entries None mu = Ok s /\ well_formed s /\ get_rxns s = Ok out
  /\ Permutation out rxns /\ (forall n, filter (of_size n) out = filter (of_size n) rxns)
  /\ rset_len s = length rxns
  /\ NoDup (r_entries s) /\ forall e, In e (r_entries s) <-> In e (if entries then flat_map x_entries rxns else entries).
Proof. exact round_trip. Qed.
Print Assumptions C17_round_trip.

Example C17_demo : exists s out, from_rxns arrange demo [] None 0 = Ok s /\ get_rxns s = Ok out /\ map x_data out = [10; 12; 13; 11]
  /\ arranges arrange.
Proof. do 2 eexists. split; [vm_compute; reflexivity|]. split; [vm_compute; reflexivity|]. split; [reflexivity|exact arrange_arranges]. Qed.

(* --- C18 --- *)
Theorem C18_add_set : forall a b, well_formed a -> well_formed b ->
  exists ra rb, get_rxns a = Ok ra /\ get_rxns b = Ok rb
  /\ (r_entries a <> r_entries b -> add_rxn_set a b = Err ValueError)
  /\ (r_entries a = r_entries b ->
       exists s out, add_rxn_set a b = Ok s /\ well_formed s /\ get_rxns s = Ok out
       /\ Permutation out (ra ++ map (with_mu (mu_dict a)) rb)
       /\ r_entries s = r_entries a /\ r_open s = r_open a /\ r_chempot s = r_chempot a).
Proof. exact add_rxn_set_spec. Qed.
Print Assumptions C18_add_set.

(* The entries are re-sorted by add_rxns, so they have to be in sorted order already. *)
Theorem C18_add_rxns : forall arrange s rxns, arranges arrange -> well_formed s -> arrange (r_entries s) = r_entries s ->
  r_entries s <> [] ->
  (forall r e, In r rxns -> In e (x_entries r) -> In e (r_entries s)) ->
  (forall x y, In x (r_entries s) -> In y (r_entries s) -> uid x = uid y -> x = y) ->
  (forall r, In r rxns -> length (x_coeffs r) = length (x_entries r)) ->
  exists rs s' out, get_rxns s = Ok rs /\ add_rxns arrange s rxns = Ok s' /\ well_formed s' /\ get_rxns s' = Ok out
  /\ Permutation out (rs ++ map (with_mu (mu_dict s)) rxns)
  /\ r_entries s' = r_entries s /\ r_open s' = r_open s /\ r_chempot s' = r_chempot s.
Proof. exact add_rxns_spec. Qed.
Print Assumptions C18_add_rxns.

Example C18_demo : exists s out, add_rxn_set demo_set demo_set = Ok s /\ get_rxns s = Ok out /\ length out = 8
  /\ well_formed demo_set /\ arrange (r_entries demo_set) = r_entries demo_set.
Proof. do 2 eexists. split; [vm_compute; reflexivity|]. split; [vm_compute; reflexivity|]. split; [reflexivity|]. split; [exact demo_wf|vm_compute; reflexivity]. Qed.

(* --- C19 --- *)
(* Full claim: also with coefficients that are zero or tiny (refuted below). *)
Theorem C19_by_reactants_partial : forall s rs fs, well_formed s -> get_rxns s = Ok rs ->
  (forall r, In r rs -> exists e c, takes_part r e c /\ (c < 0)%Q) ->
  (forall r e c, In r rs -> takes_part r e c -> (c < 1 # 1000000000000)%Q -> (c < 0)%Q) ->
  exists out, get_rxns_by_reactants s fs = Ok out /\ selects (only_reactants fs) rs out.
Proof. exact by_reactants_spec. Qed.
Print Assumptions C19_by_reactants_partial.

Theorem C19_zero_coefficient_refuted : exists s r fs, well_formed s /\ get_rxns s = Ok [r] /\ (exists e c, takes_part r e c /\ (c < 0)%Q)
  /\ only_reactants fs r /\ get_rxns_by_reactants s fs = Ok [].
Proof. exact zero_reactant_witness. Qed.
Print Assumptions C19_zero_coefficient_refuted.

Example C19_demo : exists out, get_rxns_by_reactants demo_set [0; 1] = Ok out /\ map x_data out = [10; 12; 11].
Proof. eexists. split; [vm_compute; reflexivity|reflexivity]. Qed.

(* --- C20 --- *)
(* Full claim: for every position and number of the entries with the formula. *)
Theorem C20_by_product_partial : forall s rs f p, well_formed s -> get_rxns s = Ok rs -> 0 < p ->
  (forall i e, nth_error (r_entries s) i = Some e -> form e = f <-> i = p) ->
  (forall r e c, In r rs -> takes_part r e c -> (- (1 # 1000000000000) < c)%Q -> (0 < c)%Q) ->
  exists out, get_rxns_by_product s f = Ok out /\ selects (forms_product f) rs out.
Proof. exact by_product_spec. Qed.
Print Assumptions C20_by_product_partial.

Theorem C20_first_entry_refuted : exists s r f, well_formed s /\ get_rxns s = Ok [r] /\ plain r /\ forms_product f r
  /\ get_rxns_by_product s f = Ok [].
Proof. exact product_first_witness. Qed.
Print Assumptions C20_first_entry_refuted.

Theorem C20_polymorph_refuted : exists s r1 r2 f, well_formed s /\ get_rxns s = Ok [r1; r2] /\ plain r1 /\ plain r2
  /\ forms_product f r1 /\ forms_product f r2 /\ exists r, get_rxns_by_product s f = Ok [r].
Proof. exact product_polymorph_witness. Qed.
Print Assumptions C20_polymorph_refuted.

Theorem C20_zero_coefficient_refuted : exists s r f, well_formed s /\ get_rxns s = Ok [r] /\ ~ forms_product f r
  /\ get_rxns_by_product s f = Ok [r].
Proof. exact product_zero_witness. Qed.
Print Assumptions C20_zero_coefficient_refuted.

Example C20_demo : exists out, get_rxns_by_product demo_set 3 = Ok out /\ map x_data out = [13; 11].
Proof. eexists. split; [vm_compute; reflexivity|reflexivity]. Qed.

(* --- C21 --- *)
(* Full claim: also when the tolerance confuses reactions, and with zero coefficients. *)
Theorem C21_families_partial : forall argsort shuffle,
  (forall l, Permutation (argsort l) (seq 0 (length l))) -> (forall l, Permutation (shuffle l) l) ->
  forall s, well_formed s -> NoDup (r_entries s) ->
  forall rs, get_rxns s = Ok rs -> (forall r, In r rs -> plain r) -> sharp rs ->
  exists s' out, filter_duplicates argsort shuffle s [] = Ok s' /\ well_formed s' /\ get_rxns s' = Ok out
  /\ (exists rest, Permutation rs (out ++ rest))
  /\ (forall r, In r rs -> exists r', In r' out /\ multiples r r')
  /\ ForallOrdPairs (fun r r' => ~ multiples r r') out.
Proof. exact no_ensured_families. Qed.
Print Assumptions C21_families_partial.

Theorem C21_tolerance_refuted : exists s rs s' r1 r2, well_formed s /\ NoDup (r_entries s) /\ get_rxns s = Ok rs /\ (forall r, In r rs -> plain r)
  /\ filter_duplicates argsort (fun l => l) s [] = Ok s' /\ get_rxns s' = Ok [r1; r2]
  /\ nearly_multiples r1 r2 /\ nearly_multiples r2 r1.
Proof. exact chain_witness. Qed.
Print Assumptions C21_tolerance_refuted.

Theorem C21_zero_coefficient_refuted : exists s rs, well_formed s /\ get_rxns s = Ok rs
  /\ (forall r, In r rs -> NoDup (x_entries r) /\ length (x_coeffs r) = length (x_entries r))
  /\ filter_duplicates argsort (fun l => l) s [] = Err IndexError.
Proof. exact zero_duplicates_witness. Qed.
Print Assumptions C21_zero_coefficient_refuted.

Example C21_demo : exists s out, filter_duplicates argsort (fun l => l) demo_set [] = Ok s /\ get_rxns s = Ok out
  /\ map x_data out = [13; 10; 11] /\ (forall l, Permutation (argsort l) (seq 0 (length l))) /\ well_formed demo_set /\ NoDup (r_entries demo_set).
Proof.
  do 2 eexists. split; [vm_compute; reflexivity|]. split; [vm_compute; reflexivity|]. split; [reflexivity|]. split; [exact argsort_perm|].
  split; [exact demo_wf|exact demo_nodup].
Qed.

Example C21_demo_hypotheses : exists rs, get_rxns demo_set = Ok rs /\ (forall r, In r rs -> plain r) /\ sharp rs
  /\ exists r r', In r rs /\ In r' rs /\ r <> r' /\ multiples r r'.
Proof. exact demo_list. Qed.

(* --- C22 --- *)
(* Full claim: also on a cluster with one CPU (refuted below). *)
Theorem C22_schedule_partial : forall argsort shuffle s cpus wait ensure, well_formed s -> 2 <= cpus -> valid_schedule wait ->
  agree (fun a b => exists ra rb, get_rxns a = Ok ra /\ get_rxns b = Ok rb /\ Permutation ra rb)
    (filter_duplicates argsort shuffle s ensure) (filter_duplicates_parallel argsort shuffle cpus wait s ensure).
Proof. exact parallel_spec. Qed.
Print Assumptions C22_schedule_partial.

Theorem C22_one_cpu_refuted : exists s s', well_formed s /\ filter_duplicates argsort (fun l => l) s [] = Ok s'
  /\ forall wait, filter_duplicates_parallel argsort (fun l => l) 1 wait s [] = Err ZeroDivisionError.
Proof. exact one_cpu_witness. Qed.
Print Assumptions C22_one_cpu_refuted.

Example C22_demo : exists s out, filter_duplicates_parallel argsort (fun l => l) 3 lifo_any demo_set [] = Ok s /\ get_rxns s = Ok out
  /\ map x_data out = [13; 10; 11] /\ forall R, valid_schedule (@lifo_any R).
Proof. do 2 eexists. split; [vm_compute; reflexivity|]. split; [vm_compute; reflexivity|]. split; [reflexivity|exact @lifo_any_valid]. Qed.

(* --- C23 --- *)
Theorem C23_ensured_kept : forall argsort shuffle,
  (forall l, Permutation (argsort l) (seq 0 (length l))) -> (forall l, Permutation (shuffle l) l) ->
  forall s, well_formed s -> NoDup (r_entries s) ->
  forall rs, get_rxns s = Ok rs -> (forall r, In r rs -> plain r) ->
  forall ensure, (forall a, In a ensure -> x_entries a <> [] /\ exists r, In r rs /\ same_rxn r a) ->
  exists s' out, filter_duplicates argsort shuffle s ensure = Ok s' /\ well_formed s' /\ get_rxns s' = Ok out
  /\ (forall r, In r out -> In r rs)
  /\ (forall a, In a ensure -> exists r, In r out /\ same_rxn r a).
Proof. exact filter_keeps. Qed.
Print Assumptions C23_ensured_kept.

(* Ensuring some reactions does not disturb the others. *)
Theorem C23_families : forall argsort shuffle,
  (forall l, Permutation (argsort l) (seq 0 (length l))) -> (forall l, Permutation (shuffle l) l) ->
  forall s, well_formed s -> NoDup (r_entries s) ->
  forall rs, get_rxns s = Ok rs -> (forall r, In r rs -> plain r) ->
  forall ensure, (forall a, In a ensure -> x_entries a <> [] /\ exists r, In r rs /\ same_rxn r a) -> sharp rs ->
  exists s' out, filter_duplicates argsort shuffle s ensure = Ok s' /\ well_formed s' /\ get_rxns s' = Ok out
  /\ (exists rest, Permutation rs (out ++ rest))
  /\ (forall r, In r rs -> exists r', In r' out /\ multiples r r')
  /\ ForallOrdPairs (fun r r' => multiples r r' -> (exists a, In a ensure /\ same_rxn r a) /\ (exists a, In a ensure /\ same_rxn r' a)) out
  /\ (forall a, In a ensure -> exists r, In r out /\ same_rxn r a).
Proof. exact filter_families. Qed.
Print Assumptions C23_families.

(* Full claim: ValueError for every reaction that is not in the set. *)
Theorem C23_missing_partial : forall argsort shuffle s rs l1 a l2, well_formed s -> NoDup (r_entries s) -> get_rxns s = Ok rs ->
  (forall b, In b l1 -> x_entries b <> [] /\ exists r, In r rs /\ same_rxn r b) ->
  (forall r, In r rs -> ~ same_rxn r a) -> x_entries a <> [] ->
  (exists e, In e (x_entries a) /\ ~ In e (r_entries s)) \/ (exists r, In r rs /\ length (x_entries r) = length (x_entries a)) ->
  filter_duplicates argsort shuffle s (l1 ++ a :: l2) = Err ValueError.
Proof. exact filter_missing. Qed.
Print Assumptions C23_missing_partial.

Theorem C23_missing_size_refuted : exists s rs a, well_formed s /\ NoDup (r_entries s) /\ get_rxns s = Ok rs /\ plain a /\ x_entries a <> []
  /\ (forall r, In r rs -> ~ same_rxn r a)
  /\ filter_duplicates argsort (fun l => l) s [a] = Err KeyError.
Proof. exact missing_size_witness. Qed.
Print Assumptions C23_missing_size_refuted.

Example C23_demo : exists s out, filter_duplicates argsort (fun l => l) demo_set [rx [en 1; en 0; en 2] [-2#1; -2#1; 2#1]%Q 12] = Ok s
  /\ get_rxns s = Ok out /\ map x_data out = [13; 12; 11].
Proof. do 2 eexists. split; [vm_compute; reflexivity|]. split; [vm_compute; reflexivity|reflexivity]. Qed.

(* --- C67 --- *)
Theorem C67_without_data_refuted : exists es idx co, let s := rset_init es idx co None 0 None in
  rset_len s = 1 /\ get_rxns s = Ok [].
Proof. exact no_data_witness. Qed.
Print Assumptions C67_without_data_refuted.

(* Full claim: also without all_data. *)
Theorem C67_length_partial : forall s, well_formed s -> exists rs, get_rxns s = Ok rs /\ length rs = rset_len s.
Proof. exact length_spec. Qed.
Print Assumptions C67_length_partial.

(* --- C68 --- *)
Theorem C68_set_chempot : forall s rs el q, well_formed s -> get_rxns s = Ok rs ->
  well_formed (set_chempot s el q) /\ r_entries (set_chempot s el q) = r_entries s
  /\ get_rxns (set_chempot s el q)
     = Ok (map (with_mu (match el with Some e => Some [(e, match q with Some v => v | None => 0%Q end)] | None => None end)) rs).
Proof. exact set_chempot_spec. Qed.
Print Assumptions C68_set_chempot.

Theorem C68_different_chempots_refuted : exists rxns s out, (forall r, In r rxns -> plain r /\ x_mu r <> None)
  /\ from_rxns arrange rxns [] None 0 = Ok s /\ get_rxns s = Ok out /\ length out = length rxns /\ forall r, In r out -> x_mu r = None.
Proof. exact mixed_mu_witness. Qed.
Print Assumptions C68_different_chempots_refuted.

Theorem C68_one_closed_refuted : exists rxns s out, (exists r, In r rxns /\ x_mu r <> None)
  /\ from_rxns arrange rxns [] None 0 = Ok s /\ get_rxns s = Ok out /\ forall r, In r out -> x_mu r = None.
Proof. exact half_open_witness. Qed.
Print Assumptions C68_one_closed_refuted.

Example C68_demo : exists rs, get_rxns demo_set = Ok rs /\ length rs = 4 /\ well_formed demo_set.
Proof. eexists. split; [vm_compute; reflexivity|]. split; [reflexivity|exact demo_wf]. Qed.

(* --- C69 --- *)
(* Full claim: also for sets with polymorphs (refuted below). *)
Theorem C69_temperature_partial : forall arrange warm s rs, arranges arrange -> well_formed s -> get_rxns s = Ok rs ->
  NoDup (map comp (r_entries s)) ->
  (forall x y, In x (r_entries s) -> In y (r_entries s) -> uid (warm x) = uid (warm y) -> warm x = warm y) ->
  exists s' out, set_new_temperature arrange warm s = Ok s' /\ well_formed s' /\ get_rxns s' = Ok out
  /\ Permutation out (map (warmed warm) rs) /\ rset_len s' = length rs.
Proof. exact new_temperature_spec. Qed.
Print Assumptions C69_temperature_partial.

Theorem C69_polymorph_refuted : exists s rs s' out, well_formed s /\ NoDup (r_entries s) /\ get_rxns s = Ok rs
  /\ (forall x y, warm x = warm y -> x = y)
  /\ set_new_temperature arrange warm s = Ok s' /\ get_rxns s' = Ok out /\ ~ Permutation out (map (warmed warm) rs).
Proof. exact temperature_witness. Qed.
Print Assumptions C69_polymorph_refuted.

Example C69_demo : exists s', set_new_temperature arrange warm demo_set = Ok s' /\ NoDup (map comp (r_entries demo_set)).
Proof. eexists. split; [vm_compute; reflexivity|]. repeat constructor; simpl; intuition discriminate. Qed.
