(* C62, C85, C86: theorems about the competition job. *)
From Verif Require Import Prelude NumQ UtilsModel UtilsSpec RxnSetSpec RxnSetCheck JobsModel JobsSpec JobsProofs JobsCheck.
Open Scope nat_scope.

(* --- C62 --- *)
(* Missing: a cluster where not even one task fits into memory. *)
Theorem C62_once_partial : forall same round4 interface arrange wait chunk_size num_rxns cpus memory targets all open,
  valid_schedule wait -> 1 <= chunk_size -> fits num_rxns cpus memory ->
  agree (@Permutation scored) (competition same round4 interface arrange wait chunk_size num_rxns cpus memory targets all open)
    (mapM (decorate same round4 interface arrange all open) targets).
Proof. exact competition_spec. Qed.
Print Assumptions C62_once_partial.

(* Up to the tolerance of isclose; exact if no other energy is positive and below it. *)
Theorem C62_single : forall same round4 interface arrange all open r, length (j_reactants r) = 1 ->
  exists v p s, decorate same round4 interface arrange all open r = Ok (r, (round4 p, round4 s))
  /\ lowest (other_energy same all open r) v
  /\ (j_energy r - v - (1 # 100000000) <= p)%Q /\ (p <= j_energy r - v)%Q /\ (s == Qmax p 0)%Q
  /\ ((forall e, other_energy same all open r e -> (0 < e)%Q -> (1 # 100000000 < e)%Q) -> (p == j_energy r - v)%Q).
Proof. exact decorate_single. Qed.
Print Assumptions C62_single.

Theorem C62_memory_refuted : exists r, length (j_reactants r) = 1
  /\ forall wait, competition same_id keep no_hull keep wait 100 1 1 249 [r] [r] None = Err ZeroDivisionError.
Proof. exact little_memory. Qed.
Print Assumptions C62_memory_refuted.

Example C62_demo : fits 4 8 1000 /\ ~ (8 * (250 * 4) <= 1000)%Q
  /\ competition same_id keep hull_of keep lifo_any 100 4 8 1000 (by_product 2 some_all) some_all (Some 7)
     = Ok [(rx 0 [1] [2] (-1 # 10), (40 # 100, 40 # 100)%Q); (rx 3 [5] [2] (1 # 10), (1 # 10, 1 # 10)%Q)].
Proof. split; [right; split; [lia|vm_compute; discriminate]|]. split; [vm_compute; intro H; apply H; reflexivity|]. vm_compute. reflexivity. Qed.

(* --- C85 --- *)
(* Missing: an open formula, except with three reactants of which it is one. *)
Theorem C85_closed_partial : forall same round4 interface arrange all r,
  (forall a b, j_reactants r = [a; b] -> decorate same round4 interface arrange all None r
     = bind (interface a b (by_reactants [a; b] all) r) (fun s => Ok (r, s)))
  /\ (3 <= length (j_reactants r) -> decorate same round4 interface arrange all None r = Err ValueError).
Proof. intros same round4 interface arrange all r. exact (conj (fun a b => decorate_pair same round4 interface arrange all r a b) (decorate_closed same round4 interface arrange all r)). Qed.
Print Assumptions C85_closed_partial.

Theorem C85_open_partial : forall same round4 interface arrange all o r, (forall l, Permutation (arrange l) l) ->
  NoDup (j_reactants r) -> length (j_reactants r) = 3 -> In o (j_reactants r) ->
  exists a b, precursors (Some o) r [a; b]
  /\ decorate same round4 interface arrange all (Some o) r = bind (interface a b (by_reactants (j_reactants r ++ [o]) all) r) (fun s => Ok (r, s)).
Proof. exact decorate_three. Qed.
Print Assumptions C85_open_partial.

Theorem C85_three_refuted : exists all r o out, precursors (Some o) r [1; 2; 3] /\ decorate same_id keep hull_of keep all (Some o) r = Ok out.
Proof. exact three_accepted. Qed.
Print Assumptions C85_three_refuted.

(* One precursor and the open formula are taken for two precursors. *)
Theorem C85_one_refuted : exists all r o, precursors (Some o) r [1]
  /\ decorate same_id keep no_hull keep all (Some o) r = Err ValueError
  /\ exists out, decorate same_id keep no_hull keep all (Some o) (rx (j_id r) [1] (j_products r) (j_energy r)) = Ok out.
Proof. exact open_counted. Qed.
Print Assumptions C85_one_refuted.

Example C85_demo : NoDup [1; 7; 3] /\ In 7 [1; 7; 3]
  /\ decorate same_id keep hull_of keep [] (Some 7) (rx 0 [1; 7; 3] [2] 0) = Ok (rx 0 [1; 7; 3] [2] 0, (1, 3)%Q)
  /\ decorate same_id keep hull_of keep [] None (rx 0 [1; 7] [2] 0) = Ok (rx 0 [1; 7] [2] 0, (1, 7)%Q).
Proof. split; [repeat constructor; cbn; intuition discriminate|]. split; [cbn; tauto|]. split; vm_compute; reflexivity. Qed.

(* --- C86 --- *)
(* Missing: an open formula that no target reaction consumes. *)
Theorem C86_competing_partial : forall same round4 interface arrange wait chunk_size cpus memory target all open,
  valid_schedule wait -> 1 <= chunk_size ->
  (open = None \/ exists t o, open = Some o /\ In t all /\ In target (j_products t) /\ In o (j_reactants t)) ->
  (forall n, n <= length all -> fits n cpus memory) ->
  exists targets, (forall r, In r targets <-> In r all /\ In target (j_products r)) /\ subseq targets all
  /\ (targets = [] -> make same round4 interface arrange wait chunk_size cpus memory target all open = Err ValueError)
  /\ (targets <> [] -> agree (@Permutation scored) (make same round4 interface arrange wait chunk_size cpus memory target all open)
       (mapM (decorate same round4 interface arrange all open) targets)).
Proof. exact make_spec. Qed.
Print Assumptions C86_competing_partial.

Theorem C86_open_refuted : exists all target o r s s', decorate same_id keep no_hull keep all (Some o) r = Ok (r, s)
  /\ (forall wait, valid_schedule wait -> make same_id keep no_hull keep wait 100 1 1000000 target all (Some o) = Ok [(r, s')])
  /\ ~ (fst s == fst s')%Q.
Proof. exact competitor_lost. Qed.
Print Assumptions C86_open_refuted.

Example C86_demo : (exists t, In t some_all /\ In 4 (j_products t) /\ In 7 (j_reactants t))
  /\ (forall n, n <= length some_all -> fits n 8 1000000)
  /\ make same_id keep hull_of keep lifo_any 100 8 1000000 4 some_all (Some 7) = Ok [(rx 2 [1; 7] [4] (-5 # 10), (1, 7)%Q)].
Proof.
  split; [exists (rx 2 [1; 7] [4] (-5 # 10)); cbn; tauto|]. split; [|vm_compute; reflexivity].
  intros n Hn. left. cbn in Hn. do 5 (destruct n as [|n]; [vm_compute; discriminate|]). lia.
Qed.
