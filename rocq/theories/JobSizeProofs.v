(* Proofs for C46: the size and number of the jobs of the solver. *)
From Verif Require Import Prelude NumQ SolverModel SolverProofs.
Open Scope nat_scope.

Lemma take_sizes_length {A} sizes : forall l : list A, length (take_sizes sizes l) = length sizes.
Proof. induction sizes as [|n sizes IH]; intros l; [reflexivity|]. cbn. rewrite IH. reflexivity. Qed.

Lemma take_sizes_bound {A} b sizes : (forall n, In n sizes -> n <= b) -> forall (l g : list A), In g (take_sizes sizes l) -> length g <= b.
Proof.
  induction sizes as [|n sizes IH]; intros H l g Hg; [destruct Hg|]. destruct Hg as [<-|Hg].
  - rewrite firstn_length. specialize (H n (or_introl eq_refl)). lia.
  - exact (IH (fun m Hm => H m (or_intror Hm)) _ _ Hg).
Qed.

Lemma array_split_length {A} (l : list A) k : 1 <= k -> length (array_split l k) = k.
Proof.
  intros Hk. unfold array_split. rewrite take_sizes_length, app_length, !repeat_length.
  pose proof (Nat.mod_upper_bound (length l) k). lia.
Qed.

Lemma array_split_bound {A} (l g : list A) chunk : 1 <= chunk -> In g (array_split l (length l / chunk + 1)) -> length g <= chunk.
Proof.
  intros Hc Hg. unfold array_split in Hg. refine (take_sizes_bound chunk _ _ _ _ Hg). set (k := length l / chunk + 1).
  assert (Hl : length l < chunk * k) by (unfold k; pose proof (Nat.div_mod (length l) chunk); pose proof (Nat.mod_upper_bound (length l) chunk); nia).
  assert (Hk : 1 <= k) by (unfold k; lia). pose proof (Nat.div_mod (length l) k) as D.
  assert (Hq : length l / k < chunk) by (apply Nat.div_lt_upper_bound; nia).
  intros n Hn. apply in_app_iff in Hn. destruct Hn as [Hn|Hn]; apply repeat_spec in Hn; lia.
Qed.

Lemma filter_len {A} (f : A -> bool) l : length (filter f l) <= length l.
Proof. induction l as [|x l IH]; [reflexivity|]. cbn. destruct (f x); cbn; lia. Qed.

Lemma job_sizes : forall chunk d, 1 <= chunk ->
  concat (jobs_of chunk d) = concat (map snd d)
  /\ (forall g, In g (jobs_of chunk d) -> g <> [] /\ exists n Ms, In (n, Ms) d /\ (n < 4 /\ g = Ms \/ 4 <= n /\ length g <= chunk))
  /\ length (jobs_of chunk d) <= list_sum (map (fun nM => length (snd nM) / chunk + 1) d).
Proof.
  intros chunk d Hc. split; [apply jobs_concat|]. split.
  - intros g Hg. unfold jobs_of in Hg. apply in_flat_map in Hg. destruct Hg as ([n Ms] & Hd & Hg). apply filter_In in Hg. destruct Hg as [Hg N]. cbn [fst snd] in Hg.
    split; [intros ->; discriminate|]. exists n, Ms. split; [exact Hd|]. destruct (4 <=? n) eqn:E.
    + right. apply Nat.leb_le in E. split; [exact E|]. exact (array_split_bound _ _ _ Hc Hg).
    + left. apply Nat.leb_gt in E. destruct Hg as [<-|[]]. split; [exact E|reflexivity].
  - induction d as [|[n Ms] d IH]; [reflexivity|]. unfold jobs_of in *. cbn [flat_map map fst snd].
    change (list_sum (?a :: ?b)) with (a + list_sum b). rewrite app_length. cbn [list_sum fold_right]. apply Nat.add_le_mono; [|exact IH].
    etransitivity; [apply filter_len|]. destruct (4 <=? n); [rewrite array_split_length; lia|cbn; lia].
Qed.
