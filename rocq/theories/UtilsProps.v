(* Property theorems for utils/funcs.py and utils/ray.py. *)
From Verif Require Import Prelude UtilsModel UtilsSpec UtilsProofs.

(* C01: every non-empty sub-collection of size at most m, once, in order of size.
   The last clause says that positions, not values, are enumerated (so equal
   items are treated as different items). *)
Theorem C01_limited_powerset_exact : forall A (l : list A) m,
  (forall s, In s (limited_powerset l m) <-> subseq s l /\ 1 <= length s <= m)
  /\ (NoDup l -> NoDup (limited_powerset l m))
  /\ sizes_ascending (limited_powerset l m)
  /\ (forall B (f : A -> B), limited_powerset (map f l) m = map (map f) (limited_powerset l m)).
Proof. exact @limited_powerset_spec. Qed.
Print Assumptions C01_limited_powerset_exact.

Example C01_example : limited_powerset [1;2;3] 2 = [[1];[2];[3];[1;2];[1;3];[2;3]]
  /\ NoDup [1;2;3].
Proof. split; [reflexivity|]. repeat constructor; simpl; intuition lia. Qed.

(* C02: chunks lose, duplicate and reorder nothing. *)
Theorem C02_grouper_lossless : forall A (l : list A) n fill,
  1 <= n ->
  exists gs k, grouper l n fill = Ok gs
    /\ concat gs = l ++ repeat fill k /\ k < n
    /\ Forall (fun g => length g = n) gs
    /\ length gs = (length l + n - 1) / n
    /\ (forall eqb : A -> A -> bool,
          (forall x y, eqb x y = true <-> x = y) -> ~ In fill l ->
          concat (map (filter (fun x => negb (eqb x fill))) gs) = l).
Proof. exact @grouper_spec. Qed.
Print Assumptions C02_grouper_lossless.

Example C02_example : grouper [1;2;3;4;5] 2 0 = Ok [[1;2];[3;4];[5;0]] /\ ~ In 0 [1;2;3;4;5].
Proof. split; [reflexivity|]. simpl; intuition lia. Qed.

(* C03: each result exactly once, whatever the schedule. *)
Theorem C03_to_iterator_exact : forall Ref V wait (get : Ref -> V) refs,
  valid_schedule wait ->
  (exists out, to_iterator wait get refs = Ok out
    /\ length out = length refs /\ Permutation out (map get refs))
  /\ (exists out, to_iterator_ids wait get (length refs) 0 refs = Ok out
    /\ Permutation (map fst out) refs /\ (forall r v, In (r, v) out -> v = get r)).
Proof. exact @to_iterator_spec. Qed.
Print Assumptions C03_to_iterator_exact.

(* A schedule that always finishes the last pending task first is valid. *)
Definition lifo (k : nat) (refs : list nat) : list nat * list nat :=
  ([last refs 0], removelast refs).
Example C03_schedule_example : valid_schedule lifo
  /\ to_iterator lifo (fun r => 10 * r) [1;2;3] = Ok [30;20;10].
Proof.
  split; [|reflexivity]. intros k refs Hne. exists (last refs 0), (removelast refs).
  split; [reflexivity|]. rewrite (app_removelast_last 0 Hne) at 1.
  symmetry. apply Permutation_cons_append.
Qed.
