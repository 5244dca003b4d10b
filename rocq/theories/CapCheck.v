(* A concrete run of the job with exact linear algebra: non-vacuity for C124. *)
From Coq Require Import Lqa.
From Verif Require Import Prelude NumQ SumQ ListFacts UtilsModel UtilsSpec ReactionModel ReactionSpec ChemTable PathModel PathSpec SolverModel SolverSpec SolverCheck FlowModel SolveJobModel SolveJobSpec SolveJobCheck LinModel LinSpec PinvModel CapSpec.
Open Scope nat_scope.

(* Reactions are compared by what they make of the entries. *)
Definition alike (a b : rxn) : bool := forallb (fun i => Qeq_bool (turnover a i) (turnover b i)) (seq 0 7).
Lemma alike_refl a : alike a a = true.
Proof. apply forallb_forall. intros i _. apply Qeq_bool_iff. reflexivity. Qed.
Lemma restated_alike ents r r' : restated lio ents r r' ->
  forallb (fun i => Qeq_bool (turnover r i) (sumQ (fun ek => if Nat.eqb (e_id (fst ek)) i then snd ek else 0%Q) (filter (fun ek => Qlt_bool (1 # 100000000) (Qabs (snd ek))) (map (fun e => (e, turnover r (e_id e))) ents)))) (seq 0 7) = true ->
  alike r r' = true.
Proof.
  intros (_ & F) H. apply forallb_forall. intros i I. rewrite forallb_forall in H. specialize (H i I). cbv beta in *. apply Qeq_bool_iff in H. apply Qeq_bool_iff. rewrite H. clear - F. unfold turnover at 2. revert F.
  generalize (filter (fun ek => Qlt_bool (1 # 100000000) (Qabs (snd ek))) (map (fun e => (e, turnover r (e_id e))) ents)) as l2. generalize (parts r') as l1.
  induction 1 as [|a b l1 l2 (E1 & E2) _ IH]; [reflexivity|]. rewrite !sumQ_cons, IH, E1. destruct (Nat.eqb _ i); [rewrite E2|]; reflexivity.
Qed.

Definition lio_maker : solver_maker := {| sm_precursors := [0]; sm_targets := [2; 3]; sm_open := None; sm_chempot := 0%Q |}.
Definition lio_steps : list (rxn * Q) := combine (match lio_paths 0 with p :: _ => p_rxns p | [] => [] end) [1; 2]%Q.
Definition lio_exact (fi : bool) := solve_job lio (exact_solve lio) (exact_rank lio) (lio_entries 0) [0; 1; 2; 3] alike path_pinv lifo lifo (fun l => l) (fun l => l) (fun _ => 0%Q) (fun _ _ _ => Err ValueError) 10 3
  lio_maker 2 false fi (lio_paths 0).

Lemma lio_only : only_combination lio ([0] ++ [2; 3]) [-2; 1; 2]%Q.
Proof.
  split; [|split].
  - split; [reflexivity|]. intros [|[|e]]; [vm_compute; reflexivity..|]. unfold net. cbn. destruct e; vm_compute; reflexivity.
  - intros k [<-|[<-|[<-|[]]]] H; vm_compute in H; discriminate.
  - intros w (L & H). destruct w as [|a [|b [|c [|d w]]]]; cbn in L; try discriminate. exists b.
    pose proof (H 0) as H0. pose proof (H 1) as H1. unfold net in H0, H1. cbn in H0, H1.
    constructor; [lra|]. constructor; [ring|]. constructor; [lra|]. constructor.
Qed.
Lemma lio_sides : LinSpec.sides 1 [-2; 1; 2]%Q.
Proof. intros [|[|[|i]]] k; cbn; intros H; try (injection H as <-; split; [intros; first [reflexivity|lia]|intros; first [reflexivity|lia]]). destruct i; discriminate. Qed.
Lemma lio_entry f : In f ([0] ++ [2; 3]) -> exists e, In e (lio_entries 0) /\ red lio (e_comp e) = f.
Proof. intros [<-|[<-|[<-|[]]]]; [exists (en 0 0 (-1)%Q)|exists (en 2 2 0%Q)|exists (en 3 3 0%Q)]; (split; [cbn; tauto|reflexivity]). Qed.
Lemma lio_between s : In s lio_steps -> between (lio_entries 0) (fst s).
Proof.
  intros [<-|[<-|[]]]; (split; [eexists; split; [left; reflexivity|]; split; [reflexivity|]; split; [repeat constructor; cbn; intuition discriminate|]; intros e I; cbn in I; cbn; tauto|exists 0; vm_compute; reflexivity]).
Qed.
Lemma lio_restated s r : In s lio_steps -> restated lio (lio_entries 0) (fst s) r -> exists s', In s' lio_steps /\ alike (fst s') r = true.
Proof.
  intros I H. exists s. split; [exact I|]. apply (restated_alike (lio_entries 0)); [exact H|]. destruct I as [<-|[<-|[]]]; vm_compute; reflexivity.
Qed.
Lemma lio_separate : separate (map fst lio_steps).
Proof.
  intros ks L H. destruct ks as [|a [|b [|c ks]]]; try discriminate L. pose proof (H 2) as H2. pose proof (H 3) as H3. unfold overall, turnover in H2, H3. cbn in H2, H3.
  constructor; [lra|]. constructor; [lra|]. constructor.
Qed.
Lemma lio_no_circle : ~ circle (consumes lio (lio_entries 0)) (yields lio (lio_entries 0)) [0] (map fst lio_steps).
Proof.
  intros (group & rest & P & L & H). assert (G : forall r, In r group -> In r (map fst lio_steps)) by (intros r I; apply (Permutation_in _ (Permutation_sym P)), in_or_app; left; exact I).
  assert (E : exists s1 s2, map fst lio_steps = [s1; s2] /\ forall f, consumes lio (lio_entries 0) s1 f -> f = 0).
  { do 2 eexists. split; [reflexivity|]. intros f (e & Ie & Ef & U). destruct Ie as [<-|[<-|[<-|[<-|[]]]]]; first [symmetry; exact Ef|vm_compute in U; discriminate]. }
  destruct E as (s1 & s2 & E & Only). assert (I1 : In s1 group).
  { rewrite E in P. pose proof (Permutation_length P) as Lp. rewrite app_length in Lp. cbn in Lp. assert (rest = []) as -> by (destruct rest; [reflexivity|cbn in Lp; lia]). rewrite app_nil_r in P. apply (Permutation_in _ P). left. reflexivity. }
  apply in_split in I1 as (a & b & Eg). destruct (H a s1 b Eg) as (r' & f & _ & U & _ & Ng). apply Ng. rewrite (Only f U). left. reflexivity.
Qed.
Lemma lio_exact_run : exists net0 p, lio_exact false = Ok (net0, [p]) /\ lio_exact true = Ok (net0, [p]) /\ option_map (map Qred) (p_coeffs p) = Some [1; 1]%Q
  /\ pool alike (map fst (solver_init alike (lio_paths 0))) net0 (solver_init alike (lio_paths 0)) = lio_steps
  /\ forall i, (overall [1; 1]%Q (map fst lio_steps) i == turnover net0 i)%Q.
Proof.
  do 2 eexists. split; [vm_compute; reflexivity|]. split; [vm_compute; reflexivity|]. split; [vm_compute; reflexivity|]. split; [vm_compute; reflexivity|].
  intros [|[|[|[|i]]]]; vm_compute; reflexivity.
Qed.
