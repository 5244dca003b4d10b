(* Two steps by way of an intermediate, whose multiplicities are no double precision numbers. *)
From Coq Require Import Lia Lqa.
From Verif Require Import Prelude NumQ SumQ UtilsModel UtilsSpec RxnSetModel PathModel PathSpec PathCheck SolverModel SolverSpec SolverCheck PinvModel PinvProofs RoundModel RoundSpec RoundProofs RoundPathModel RoundPathSpec RoundPathProofs.
Open Scope nat_scope.

(* From left to right. *)
Definition left_dot (fl : Q -> Q) (xs ms : list Q) : Q :=
  match combine xs ms with [] => 0%Q | p :: l => fold_left (fun acc q => fl (acc + fl (fst q * snd q)))%Q l (fl (fst p * snd p)%Q) end.
Lemma left_added fl xs ms : added_up fl (combine xs ms) (left_dot fl xs ms).
Proof.
  unfold left_dot. destruct (combine xs ms) as [|[x m] l]; [constructor|]. cbn [fst snd].
  enough (H : forall l done acc, done <> [] -> added_up fl done acc -> added_up fl (done ++ l) (fold_left (fun acc q => fl (acc + fl (fst q * snd q)))%Q l acc)) by (apply (H l [(x, m)]); [discriminate|constructor]).
  clear. induction l as [|[y k] l IH]; intros done acc N A; [rewrite app_nil_r; exact A|]. cbn [fold_left fst snd].
  replace (done ++ (y, k) :: l) with ((done ++ [(y, k)]) ++ l) by (rewrite <- app_assoc; reflexivity). apply IH; [destruct done; discriminate|]. apply add_two; [exact N|discriminate|exact A|constructor].
Qed.

(* 3 A -> I and 3 I -> 3 B, one and a third times, make 3 A -> B. *)
Definition small_steps : list (list Q) := [[-3; 1; 0; 0]; [0; -3; 0; 3]]%Q.
Definition small_net : list Q := [-3; 0; 0; 1]%Q.
Definition small_ms : list Q := [1; 1 # 3]%Q.
Definition closest (ms : list Q) (M : list (list Q)) (net : list Q) : list Q := map binary64 ms.
Lemma small_sum : forall j, j < 4 -> (weighted small_ms small_steps j == nth j small_net 0)%Q /\ (sumQ (fun row => Qabs (nth j row 0)) small_steps <= 1000)%Q
  /\ (size_dot (map (fun row => nth j row 0%Q) small_steps) small_ms <= 1000000)%Q.
Proof. intros j L. destruct j as [|[|[|[|j]]]]; [| | | |lia]; (split; [reflexivity|split; vm_compute; discriminate]). Qed.
Lemma small_close : within (1 # 1000000000000) (closest small_ms small_steps small_net) small_ms /\ ~ Forall2 Qeq (closest small_ms small_steps small_net) small_ms.
Proof.
  split; [repeat constructor; vm_compute; discriminate|]. intros H. inversion H as [|? ? ? ? _ H2]; subst. inversion H2 as [|? ? ? ? H3 _]; subst. vm_compute in H3. discriminate.
Qed.

(* A -> 2^30 I and 49 * 2^30 I -> 49 B, one and a 49th times, make A -> B. *)
Definition large_steps : list (list Q) := [[-1; 1073741824 # 1; 0]; [0; -(52613349376) # 1; 49 # 1]]%Q.
Definition large_net : list Q := [-1; 0; 1]%Q.
Definition large_ms : list Q := [1; 1 # 49]%Q.
Lemma large_independent : independent 3 large_steps.
Proof.
  intros ms L H. destruct ms as [|a [|b [|c ms]]]; try discriminate L. pose proof (H 0 ltac:(lia)) as H0. pose proof (H 2 ltac:(lia)) as H2. unfold large_steps in H0, H2. rewrite !SolverMoreProofs.weighted_cons in H0, H2. cbn [nth] in H0, H2.
  change (weighted [] [] 0) with 0%Q in H0. change (weighted [] [] 2) with 0%Q in H2. repeat constructor; lra.
Qed.
Lemma large_refused : Forall (Forall (fun k => binary64 k == k)%Q) (large_net :: large_steps) /\ (forall j, j < 3 -> (weighted large_ms large_steps j == nth j large_net 0)%Q)
  /\ rounded_balance binary64 (left_dot binary64) (closest large_ms) large_net large_steps = None.
Proof.
  split; [repeat constructor|]. split; [intros j L; destruct j as [|[|[|j]]]; [| | |lia]; reflexivity|]. vm_compute. reflexivity.
Qed.

(* The exact multiplicities, each rounded, are what the solver gets. *)
Definition pinv64 (M : list (list Q)) (net : list Q) : list Q := map binary64 (path_pinv M net).
Lemma pinv64_length M net : length (pinv64 M net) = length M.
Proof. unfold pinv64. rewrite map_length. apply path_pinv_length. Qed.
Lemma small_pinv : within (1 # 1000000000000) (pinv64 small_steps small_net) small_ms /\ ~ Forall2 Qeq (pinv64 small_steps small_net) small_ms.
Proof.
  assert (E : pinv64 small_steps small_net = closest small_ms small_steps small_net) by (vm_compute; reflexivity). rewrite E. exact small_close.
Qed.
Definition small_rxns : list (list Q * Q) := combine small_steps [1; 2]%Q.
Definition run64 : result (list (path (list Q))) :=
  solve same_row row_of from_pairs ins outs occs ins pinv64 lifo lifo (fun l => l) small_steps small_rxns small_net true 1 None 3 2 true.
Lemma run64_finds : pool same_row small_steps small_net small_rxns = small_rxns
  /\ exists p, run64 = Ok [p] /\ p_coeffs p = Some (pinv64 small_steps small_net) /\ length (p_rxns p) = 2.
Proof. split; [vm_compute; reflexivity|]. eexists. split; [vm_compute; reflexivity|]. split; vm_compute; reflexivity. Qed.
