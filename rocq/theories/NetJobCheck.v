(* Concrete runs of the network job. *)
From Verif Require Import Prelude NumQ UtilsModel UtilsSpec RxnSetModel RxnSetSpec RxnSetCheck NetModel YenModel ShortestPath FlowModel NetJobModel NetJobSpec.
Open Scope nat_scope.

Definition unit_cost (r : srxn) : Q := 1.
Definition job_of (cpus : nat) (mk : network_maker) (sets : list rset) :=
  network_job arrange argsort (fun l => l) cpus lifo_any (fun u => u) (fun _ => 0%Q) unit_cost (fun weight => search weight) mk sets.
Definition maker (ps ts : option (list nat)) (k : nat) : network_maker := {| nm_precursors := ps; nm_targets := ts; nm_k := Some k; nm_open := None; nm_chempot := 0%Q |}.

(* 0 + 1 -> 2 then 0 + 2 -> 3, and 1 -> 2 3. *)
Lemma job_run : exists w rs p q, job_of 3 (maker (Some [0; 1]) (Some [3]) 5) [demo_set; demo_set] = Ok (w, rs, Some [p; q])
  /\ map x_data rs = [10; 13; 11] /\ map (fun pc => match fst pc with Rxn n => n_id n | _ => 9 end) p = [2] /\ map (fun pc => match fst pc with Rxn n => n_id n | _ => 9 end) q = [0; 1].
Proof. do 4 eexists. split; [vm_compute; reflexivity|]. repeat split; reflexivity. Qed.

Lemma no_precursors : exists s rs, get_rxns s = Ok rs /\ (forall r, In r rs -> plain r) /\ job_of 3 (maker None (Some [3]) 5) [s] = Err AttributeError.
Proof.
  destruct demo_list as (rs & E & P & _). exists demo_set, rs. split; [exact E|]. split; [exact P|]. vm_compute. reflexivity.
Qed.

Lemma one_cpu : exists s rs w rs' ps, get_rxns s = Ok rs /\ (forall r, In r rs -> plain r) /\ sharp rs /\ job_of 2 (maker (Some [0; 1]) (Some [3]) 5) [s] = Ok (w, rs', Some ps)
  /\ job_of 1 (maker (Some [0; 1]) (Some [3]) 5) [s] = Err ZeroDivisionError.
Proof.
  destruct demo_list as (rs & E & P & S & _). exists demo_set, rs. do 3 eexists. split; [exact E|]. split; [exact P|]. split; [exact S|]. split; vm_compute; reflexivity.
Qed.

(* The hypotheses of the theorem about the job hold of this run. *)
Lemma job_hypotheses : exists ls, Forall2 (fun s l => get_rxns s = Ok l) [demo_set; demo_set] ls
  /\ (forall x y, In x (all_entries (concat ls)) -> In y (all_entries (concat ls)) -> uid x = uid y -> x = y)
  /\ (forall r, In r (concat ls) -> plain r) /\ sharp (concat ls) /\ (forall r e, In r (concat ls) -> In e (x_entries r) -> form e = uid e)
  /\ (forall f, In f ([0; 1] ++ [3]) -> exists r e, In r (concat ls) /\ In e (x_entries r) /\ form e = f).
Proof.
  destruct demo_list as (rs & E & P & S & _). exists [rs; rs]. split; [constructor; [exact E|constructor; [exact E|constructor]]|].
  cbn [concat]. rewrite app_nil_r. assert (I : forall r, In r (rs ++ rs) -> In r rs) by (intros r H; apply in_app_or in H as [H|H]; exact H).
  assert (Er : rs = match get_rxns demo_set with Ok l => l | Err _ => [] end) by (rewrite E; reflexivity).
  assert (F : forall r e, In r rs -> In e (x_entries r) -> e = en (uid e)).
  { rewrite Er. intros r e Hr He. vm_compute in Hr. repeat (destruct Hr as [<-|Hr]; [repeat (destruct He as [<-|He]; [reflexivity|]); destruct He|]). destruct Hr. }
  split; [|split; [intros r H; apply P, I, H|split; [intros r r' H H'; apply S; apply I; assumption|split]]].
  - intros x y Hx Hy U. apply in_flat_map in Hx as (r & Hr & Hx). apply in_flat_map in Hy as (r' & Hr' & Hy). rewrite (F r x (I r Hr) Hx), (F r' y (I r' Hr') Hy), U. reflexivity.
  - intros r e Hr He. rewrite (F r e (I r Hr) He). reflexivity.
  - intros f Hf. rewrite Er. exists (match f with 3 => nth 1 demo (rx [] [] 0) | _ => nth 0 demo (rx [] [] 0) end), (en f).
    destruct Hf as [<-|[<-|[<-|[]]]]; (split; [vm_compute; tauto|split; [vm_compute; tauto|reflexivity]]).
Qed.
