(* C120: theorems about the competition job on reactions. *)
From Verif Require Import Prelude NumQ UtilsModel UtilsSpec ReactionModel ReactionSpec HullModel HullSpec HullCheck IrhModel IrhSpec IrhCheck JobsModel JobsSpec
  CompModel CompSpec CompProofs CompCheck.
From Verif Require RxnSetCheck.
Open Scope nat_scope.

(* --- C120 --- *)
(* Without an open formula; with one, see C85, C86 and C113. *)
Theorem C120_scores : forall C, wf_chem C -> forall round4 round12, rounds12 round12 -> (forall a b, (a == b)%Q -> (round12 a == round12 b)%Q) ->
  forall argsort, sorts argsort -> forall convex_hull lsq, (forall c, lsq [c] [c] [1] = [-1; 1]%Q) ->
  forall rank req arrange rs, (forall r, In r rs -> genuine C r) ->
  forall wait chunk_size cpus memory target out, valid_schedule wait -> 1 <= chunk_size -> (forall n, n <= length rs -> fits n cpus memory) ->
  competition_job C round4 round12 argsort convex_hull lsq rank req arrange wait chunk_size cpus memory target rs None = Ok out ->
  (exists targets, subseq targets rs /\ targets <> [] /\ (forall r, In r targets <-> In r rs /\ produces r target) /\ Permutation (map fst out) targets)
  /\ forall r p s, In (r, (p, s)) out -> single_scored C round4 req rs r p s \/ pair_scored C convex_hull rs r p s.
Proof. exact job_scores. Qed.
Print Assumptions C120_scores.

Theorem C120_failure : forall C, wf_chem C -> forall round4 round12, rounds12 round12 -> (forall a b, (a == b)%Q -> (round12 a == round12 b)%Q) ->
  forall argsort, sorts argsort -> forall convex_hull lsq, (forall c, lsq [c] [c] [1] = [-1; 1]%Q) ->
  forall rank req arrange rs, (forall r, In r rs -> genuine C r) ->
  forall wait chunk_size cpus memory target er, valid_schedule wait -> 1 <= chunk_size -> (forall n, n <= length rs -> fits n cpus memory) ->
  competition_job C round4 round12 argsort convex_hull lsq rank req arrange wait chunk_size cpus memory target rs None = Err er ->
  (er = ValueError /\ forall r, In r rs -> ~ produces r target)
  \/ exists r, In r rs /\ produces r target /\ (three_reactants r \/ pair_unscored C convex_hull rs r).
Proof. exact job_failure. Qed.
Print Assumptions C120_failure.

(* One target reaction of three reactants, and no reaction gets a score. *)
Theorem C120_three : forall C, wf_chem C -> forall round4 round12, rounds12 round12 -> (forall a b, (a == b)%Q -> (round12 a == round12 b)%Q) ->
  forall argsort, sorts argsort -> forall convex_hull lsq, (forall c, lsq [c] [c] [1] = [-1; 1]%Q) ->
  forall rank req arrange rs, (forall r, In r rs -> genuine C r) ->
  forall wait chunk_size cpus memory target r, valid_schedule wait -> 1 <= chunk_size -> (forall n, n <= length rs -> fits n cpus memory) ->
  In r rs -> produces r target -> three_reactants r ->
  exists er, competition_job C round4 round12 argsort convex_hull lsq rank req arrange wait chunk_size cpus memory target rs None = Err er.
Proof. exact job_stops. Qed.
Print Assumptions C120_three.

(* A + B -> AB, 2 A + B -> A2B and 2 AB -> A2B + B with the target A2B; the hull of the first
   two is found right *)
Example C120_demo : wf_chem ab /\ rounds12 round12 /\ (forall a b, (a == b)%Q -> (round12 a == round12 b)%Q) /\ sorts RxnSetCheck.argsort
  /\ (forall c, one_one [c] [c] [1] = [-1; 1]%Q) /\ (forall r, In r (three_in :: ab_rxns) -> genuine ab r) /\ (forall n, n <= 4 -> fits n 8 1000000)
  /\ (exists p s p' s', comp_job 3 ab_rxns = Ok [(a_a2b, (p', s')); (ab_split, (p, s))]
      /\ (p == 1 # 10)%Q /\ (s == 1 # 10)%Q /\ (p' == - (1 # 15))%Q /\ (0 < s')%Q)
  /\ correct_hull (coords (i_hull ab_built)) (qhull (i_hull ab_built)) [0; 1; 2; 3]
  /\ three_reactants three_in /\ comp_job 3 (three_in :: ab_rxns) = Err ValueError /\ comp_job 6 ab_rxns = Err ValueError.
Proof.
  split; [exact ab_wf|]. split; [exact round12_rounds|]. split; [exact round12_eq|]. split; [exact argsort_sorts|]. split; [reflexivity|].
  split; [intros r H; apply genuine_all; cbn in *; intuition|]. split; [exact fits_all|]. split; [exact comp_demo|]. split; [exact ab_correct|].
  split; [exact three_in_three|]. split; vm_compute; reflexivity.
Qed.
