(* C61: database queries. *)
From Coq Require Import String Ascii Sorted.
From Verif Require Import Prelude ListFacts UtilsModel UtilsSpec UtilsProofs EnumSpec EntryDbModel EntryDbSpec.
Open Scope list_scope.
Open Scope nat_scope.

(* --- Order of strings --- *)
Lemma ascii_lt a b : Ascii.compare a b = Lt <-> (N_of_ascii a < N_of_ascii b)%N.
Proof. unfold Ascii.compare. rewrite N.compare_lt_iff. reflexivity. Qed.
Lemma ascii_refl a : Ascii.compare a a = Eq.
Proof. unfold Ascii.compare. apply N.compare_refl. Qed.
Lemma str_refl s : String.compare s s = Eq.
Proof. induction s as [|a s IH]; [reflexivity|]. cbn. rewrite ascii_refl. exact IH. Qed.
Lemma lt_trans : forall a b c, String.compare a b = Lt -> String.compare b c = Lt -> String.compare a c = Lt.
Proof.
  induction a as [|x a IH]; intros [|y b] [|z c] H K; cbn in *; try discriminate; try reflexivity.
  destruct (Ascii.compare x y) eqn:E1; try discriminate; destruct (Ascii.compare y z) eqn:E2; try discriminate.
  - apply Ascii.compare_eq_iff in E1. apply Ascii.compare_eq_iff in E2. subst. rewrite ascii_refl. eapply IH; eassumption.
  - apply Ascii.compare_eq_iff in E1. subst. rewrite E2. reflexivity.
  - apply Ascii.compare_eq_iff in E2. subst. rewrite E1. reflexivity.
  - apply ascii_lt in E1. apply ascii_lt in E2. assert (E : Ascii.compare x z = Lt) by (apply ascii_lt; eapply N.lt_trans; eassumption). rewrite E. reflexivity.
Qed.
Notation le a b := (String.leb a b = true).
Lemma leb_trans a b c : le a b -> le b c -> le a c.
Proof.
  unfold String.leb. destruct (String.compare a b) eqn:E; intros H; try discriminate.
  - apply String.compare_eq_iff in E. subst. tauto.
  - destruct (String.compare b c) eqn:F; intros K; try discriminate.
    + apply String.compare_eq_iff in F. subst. rewrite E. reflexivity.
    + rewrite (lt_trans a b c E F). reflexivity.
Qed.
Lemma leb_refl a : le a a.
Proof. unfold String.leb. rewrite str_refl. reflexivity. Qed.

Notation sorted_str := (StronglySorted (fun a b => le a b)).
Lemma insert_perm x l : Permutation (insert_str x l) (x :: l).
Proof.
  induction l as [|y l IH]; [reflexivity|]. cbn. destruct (String.leb x y); [reflexivity|].
  rewrite IH. apply perm_swap.
Qed.
Lemma sort_perm l : Permutation (sort_str l) l.
Proof. induction l as [|x l IH]; [reflexivity|]. cbn. rewrite insert_perm, IH. reflexivity. Qed.
Lemma insert_sorted x l : sorted_str l -> sorted_str (insert_str x l).
Proof.
  induction l as [|y l IH]; intros S; cbn; [repeat constructor|]. inversion S as [|? ? Sl F]; subst.
  destruct (String.leb x y) eqn:E.
  - constructor; [exact S|]. constructor; [exact E|]. rewrite Forall_forall in *. intros z I. apply leb_trans with y; [exact E|apply F; exact I].
  - constructor; [apply IH; exact Sl|]. rewrite Forall_forall in *. intros z I. apply (Permutation_in z (insert_perm x l)) in I.
    destruct I as [<-|I]; [|apply F; exact I]. destruct (String.leb_total x y) as [H|H]; [congruence|exact H].
Qed.
Lemma sort_sorted l : sorted_str (sort_str l).
Proof. induction l as [|x l IH]; [constructor|]. cbn. apply insert_sorted. exact IH. Qed.
Lemma sorted_unique : forall l l', sorted_str l -> sorted_str l' -> Permutation l l' -> l = l'.
Proof.
  induction l as [|x l IH]; intros l' S S' P; [apply Permutation_nil in P; subst; reflexivity|].
  destruct l' as [|y l']; [apply Permutation_sym, Permutation_nil in P; discriminate|].
  inversion S as [|? ? Sl F]; subst. inversion S' as [|? ? Sl' F']; subst. rewrite Forall_forall in F, F'.
  assert (x = y).
  { assert (I : In x (y :: l')) by (apply (Permutation_in x P); left; reflexivity).
    assert (J : In y (x :: l)) by (apply (Permutation_in y (Permutation_sym P)); left; reflexivity).
    destruct I as [->|I]; [reflexivity|]. destruct J as [->|J]; [reflexivity|]. apply String.leb_antisym; [apply F; exact J|apply F'; exact I]. }
  subst y. f_equal. apply IH; [exact Sl|exact Sl'|]. apply Permutation_cons_inv in P. exact P.
Qed.
Lemma names_sort els name : names els name <-> name = join_dash (sort_str els).
Proof.
  split.
  - intros (l & P & S & ->). f_equal. apply sorted_unique; [exact S|apply sort_sorted|]. rewrite P. symmetry. apply sort_perm.
  - intros ->. exists (sort_str els). split; [apply sort_perm|]. split; [apply sort_sorted|reflexivity].
Qed.

(* --- Joining and splitting --- *)
Lemma split_not_nil s : split_dash s <> [].
Proof. destruct s as [|c s]; [discriminate|]. cbn. destruct (Ascii.eqb c dash); [discriminate|]. destruct (split_dash s); discriminate. Qed.
Lemma split_symbol s : symbol s -> split_dash s = [s].
Proof.
  unfold symbol. induction s as [|c s IH]; intros H; [reflexivity|]. cbn in *. destruct (Ascii.eqb_spec c dash) as [->|N]; [tauto|].
  rewrite IH by tauto. reflexivity.
Qed.
Lemma split_app s r : symbol s -> split_dash (s ++ String dash r) = s :: split_dash r.
Proof.
  unfold symbol. induction s as [|c s IH]; intros H; [reflexivity|]. cbn in *. destruct (Ascii.eqb_spec c dash) as [->|N]; [tauto|].
  rewrite IH by tauto. reflexivity.
Qed.
Lemma split_join l : l <> [] -> Forall symbol l -> split_dash (join_dash l) = l.
Proof.
  induction l as [|x l IH]; intros N F; [contradiction|]. inversion F as [|? ? Hx Fl]; subst. destruct l as [|y l].
  - cbn. apply split_symbol. exact Hx.
  - change (join_dash (x :: y :: l)) with (x ++ String dash (join_dash (y :: l)))%string. rewrite split_app by exact Hx. f_equal. apply IH; [discriminate|exact Fl].
Qed.
Lemma join_inj l l' : l <> [] -> l' <> [] -> Forall symbol l -> Forall symbol l' -> join_dash l = join_dash l' -> l = l'.
Proof. intros N N' F F' E. rewrite <- (split_join l N F), E. apply split_join; assumption. Qed.
Lemma sort_nonempty l : l <> [] -> sort_str l <> [].
Proof. intros N E. apply N. apply Permutation_nil. rewrite <- E. apply sort_perm. Qed.
Lemma sort_symbols l : Forall symbol l -> Forall symbol (sort_str l).
Proof. rewrite !Forall_forall. intros F x I. apply F. apply (Permutation_in x (sort_perm l)). exact I. Qed.
Lemma name_inj s s' : s <> [] -> s' <> [] -> Forall symbol s -> Forall symbol s' -> join_dash (sort_str s) = join_dash (sort_str s') -> Permutation s s'.
Proof.
  intros N N' F F' E. assert (H : sort_str s = sort_str s') by (apply join_inj; auto using sort_nonempty, sort_symbols).
  rewrite <- (sort_perm s), H. apply sort_perm.
Qed.

(* --- Subsequences of a list without repetition --- *)
Lemma memb_str_iff x l : memb_str x l = true <-> In x l.
Proof.
  unfold memb_str. rewrite existsb_exists. split; [intros (y & I & E); apply String.eqb_eq in E; subst; exact I|].
  intros I. exists x. split; [exact I|apply String.eqb_refl].
Qed.
Lemma filter_subseq {A} (f : A -> bool) l : subseq (filter f l) l.
Proof. induction l as [|x l IH]; cbn; [constructor|]. destruct (f x); constructor; exact IH. Qed.
Lemma subseq_is_filter s l : subseq s l -> NoDup l -> s = filter (fun x => memb_str x s) l.
Proof.
  induction 1 as [|x s l H IH|x s l H IH]; intros N; [reflexivity| |].
  - inversion N as [|? ? Nx Nl]; subst. cbn. destruct (memb_str x s) eqn:E; [|apply IH; exact Nl].
    apply memb_str_iff in E. apply (subseq_In s l x H) in E. contradiction.
  - inversion N as [|? ? Nx Nl]; subst. cbn. rewrite String.eqb_refl. cbn. f_equal. rewrite (IH Nl) at 1. apply filter_ext_in.
    intros y I. cbn. destruct (String.eqb_spec y x) as [->|]; [contradiction|reflexivity].
Qed.
Lemma subseq_perm (s s' l : list string) : subseq s l -> subseq s' l -> NoDup l -> Permutation s s' -> s = s'.
Proof.
  intros A B N P. rewrite (subseq_is_filter s l A N), (subseq_is_filter s' l B N). apply filter_ext_in. intros x _.
  apply eq_true_iff_eq. rewrite !memb_str_iff. split; apply Permutation_in; [|symmetry]; exact P.
Qed.

(* --- The list of subsystems --- *)
Lemma all_subseq (elements s : list string) : In s (flat_map (fun i => combinations elements (i + 1)) (seq 0 (length elements))) <-> subseq s elements /\ s <> [].
Proof.
  rewrite in_flat_map. split.
  - intros (i & I & J). apply in_combinations in J as [J L]. split; [exact J|]. intros ->. cbn in L. lia.
  - intros [J N]. assert (L := subseq_length _ _ J). exists (length s - 1). destruct s; [contradiction|]. cbn in *. split; [apply in_seq; lia|].
    apply in_combinations. split; [exact J|cbn; lia].
Qed.
Lemma all_subseq_nodup (elements : list string) : NoDup elements -> NoDup (flat_map (fun i => combinations elements (i + 1)) (seq 0 (length elements))).
Proof.
  intros N. rewrite flat_map_concat_map.
  replace (map (fun i => combinations elements (i + 1)) (seq 0 (length elements))) with (map (combinations elements) (map (fun i => i + 1) (seq 0 (length elements)))) by (rewrite map_map; reflexivity).
  apply NoDup_concat_sizes; [exact N|]. apply FinFun.Injective_map_NoDup; [intros a b; lia|apply seq_NoDup].
Qed.
Lemma NoDup_map_inj_in {A B} (f : A -> B) l : (forall x y, In x l -> In y l -> f x = f y -> x = y) -> NoDup l -> NoDup (map f l).
Proof.
  intros H N. induction N as [|x l Nx N IH]; [constructor|]. cbn. constructor.
  - rewrite in_map_iff. intros (y & E & I). apply Nx. rewrite (H x y); [exact I|left; reflexivity|right; exact I|congruence].
  - apply IH. intros a b Ia Ib. apply H; right; assumption.
Qed.
Section Plan.
Variable elements : list string.
Hypothesis once : NoDup elements.
Hypothesis symbols : Forall symbol elements.
Lemma sub_symbols s : incl s elements -> Forall symbol s.
Proof. rewrite Forall_forall in *. intros I x J. apply symbols, I. exact J. Qed.
Lemma chemsyses_nodup : NoDup (all_chemsyses elements).
Proof.
  unfold all_chemsyses. apply NoDup_map_inj_in; [|apply all_subseq_nodup; exact once].
  intros s s' I J E. apply all_subseq in I as [I N]. apply all_subseq in J as [J N'].
  apply (subseq_perm s s' elements I J once). apply name_inj; try assumption; apply sub_symbols; intros x; eapply subseq_In; eassumption.
Qed.
Lemma chemsyses_In name : In name (all_chemsyses elements) <-> exists sub, sub <> [] /\ NoDup sub /\ incl sub elements /\ names sub name.
Proof.
  unfold all_chemsyses. rewrite in_map_iff. split.
  - intros (s & <- & I). apply all_subseq in I as [I N]. exists s. split; [exact N|]. split; [eapply subseq_NoDup; eassumption|].
    split; [intros x; eapply subseq_In; exact I|]. apply names_sort. reflexivity.
  - intros (sub & N & D & I & H). apply names_sort in H. subst name.
    exists (filter (fun x => memb_str x sub) elements).
    assert (P : Permutation (filter (fun x => memb_str x sub) elements) sub).
    { apply NoDup_Permutation; [apply NoDup_filter; exact once|exact D|]. intros x. rewrite filter_In, memb_str_iff. split; [tauto|]. intros J. split; [apply I; exact J|exact J]. }
    split; [f_equal; apply sorted_unique; [apply sort_sorted|apply sort_sorted|]; rewrite !sort_perm; exact P|].
    apply all_subseq. split; [apply filter_subseq|]. intros E. rewrite E in P. apply Permutation_nil in P. contradiction.
Qed.
Lemma doc_listed d : wf_doc d -> (In (doc_chemsys d) (all_chemsyses elements) <-> within elements d).
Proof.
  intros [S O Y N]. rewrite chemsyses_In. split.
  - intros (sub & Ns & _ & I & H). apply names_sort in N. apply names_sort in H. rewrite N in H.
    assert (P : Permutation (doc_elements d) sub) by (apply name_inj; try assumption; apply sub_symbols; exact I).
    intros x J. apply I. apply (Permutation_in x P). exact J.
  - intros W. exists (doc_elements d). split; [exact S|]. split; [exact O|]. split; [exact W|exact N].
Qed.
End Plan.

(* --- Chunks --- *)
Lemma chunks_spec {A} n : 0 < n -> forall fuel (l : list A), length l <= fuel ->
  concat (chunks_fuel fuel n l) = l /\ Forall (fun g => g <> [] /\ length g <= n) (chunks_fuel fuel n l).
Proof.
  intros Hn. induction fuel as [|f IH]; intros l L.
  - destruct l; [|cbn in L; lia]. split; [reflexivity|constructor].
  - destruct l as [|x l]; [split; [reflexivity|constructor]|]. cbn [chunks_fuel].
    destruct (IH (skipn n (x :: l))) as [E F]; [rewrite skipn_length; cbn [length] in *; lia|]. split.
    + cbn [concat]. rewrite E. apply firstn_skipn.
    + constructor; [|exact F]. split; [destruct n; [lia|discriminate]|]. rewrite firstn_length. lia.
Qed.
Lemma chunks_ok {A} n (l : list A) : 0 < n -> exists gs, divide_chunks n l = Ok gs /\ concat gs = l /\ Forall (fun g => g <> [] /\ length g <= n) gs.
Proof.
  intros Hn. unfold divide_chunks. destruct (Nat.eqb_spec n 0); [lia|]. eexists. split; [reflexivity|]. apply chunks_spec; [exact Hn|reflexivity].
Qed.
Lemma plan_spec n elements : 0 < n -> NoDup elements -> Forall symbol elements -> length elements <= 13 ->
  exists gs, query_plan n elements = Ok (map ChemsysIn gs) /\ Forall (fun g => length g <= n) gs /\ NoDup (concat gs)
  /\ forall name, In name (concat gs) <-> exists sub, sub <> [] /\ NoDup sub /\ incl sub elements /\ names sub name.
Proof.
  intros Hn O S L. unfold query_plan. destruct (Nat.leb_spec (length elements) 13); [|lia].
  destruct (chunks_ok n (all_chemsyses elements) Hn) as (gs & E & Cc & F). rewrite E. cbn [bind]. exists gs. split; [reflexivity|].
  split; [eapply Forall_impl; [|exact F]; cbn; tauto|]. rewrite Cc. split; [apply chemsyses_nodup; assumption|]. intros name. apply chemsyses_In; assumption.
Qed.

(* --- What the queries return --- *)
Lemma filter_or {A} (P Q : A -> bool) l : (forall x, In x l -> P x = true -> Q x = true -> False) ->
  Permutation (filter P l ++ filter Q l) (filter (fun x => P x || Q x) l).
Proof.
  induction l as [|x l IH]; intros D; [reflexivity|]. assert (IH' := IH (fun y I => D y (or_intror I))). cbn.
  destruct (P x) eqn:Px; cbn.
  - destruct (Q x) eqn:Qx; [exfalso; exact (D x (or_introl eq_refl) Px Qx)|]. constructor. exact IH'.
  - destruct (Q x); [|exact IH']. rewrite <- Permutation_middle. constructor. exact IH'.
Qed.
Lemma perm_eq {A} (l r : list A) : l = r -> Permutation l r.
Proof. intros ->. reflexivity. Qed.
Lemma nodup_right {A} (l r : list A) : NoDup (l ++ r) -> NoDup r.
Proof. induction l as [|x l IH]; intros N; [exact N|]. inversion N; subst. apply IH. assumption. Qed.
Lemma groups_filter (db : list doc) gs : NoDup (concat gs) ->
  Permutation (flat_map (fun g => filter (fun d => memb_str (doc_chemsys d) g) db) gs) (filter (fun d => memb_str (doc_chemsys d) (concat gs)) db).
Proof.
  induction gs as [|g gs IH]; intros N.
  - cbn. clear. induction db as [|d db IH]; [reflexivity|exact IH].
  - cbn [concat flat_map] in *. rewrite IH by (exact (nodup_right g (concat gs) N)).
    rewrite filter_or.
    + erewrite filter_ext; [reflexivity|]. intros d. cbn. apply eq_true_iff_eq. rewrite orb_true_iff, !memb_str_iff, in_app_iff. reflexivity.
    + intros d _ A B. apply memb_str_iff in A. apply memb_str_iff in B. induction g as [|y g IHg]; [destruct A|].
      cbn in N. inversion N as [|? ? Ny N']; subst. destruct A as [->|A]; [apply Ny, in_or_app; right; exact B|apply IHg; assumption].
Qed.
Lemma pick_taken docs : Forall2 (fun d o => forall e, o = Some e <-> chosen d e) docs (map (fun d => match pick_entry d with e :: _ => Some e | [] => None end) docs).
Proof.
  induction docs as [|d docs IH]; cbn [map]; constructor; [|exact IH]. intros e. unfold pick_entry, chosen.
  destruct (doc_none d), (doc_ggau d) as [a|], (doc_gga d) as [b|]; cbn; intuition congruence.
Qed.
Lemma pick_single d : pick_entry d = match match pick_entry d with e :: _ => Some e | [] => None end with Some e => [e] | None => [] end.
Proof. unfold pick_entry. destruct (doc_none d), (doc_ggau d), (doc_gga d); reflexivity. Qed.
Lemma taken_pick docs out : Permutation out (flat_map pick_entry docs) -> taken docs out.
Proof.
  intros P. eexists. split; [apply pick_taken|]. rewrite P. apply perm_eq.
  clear. induction docs as [|d docs IH]; [reflexivity|]. cbn. rewrite IH, (pick_single d) at 1. reflexivity.
Qed.
Lemma picks_filter {A} (P : A -> Prop) (f : A -> bool) l : (forall x, In x l -> (f x = true <-> P x)) -> picks P l (filter f l).
Proof.
  induction l as [|x l IH]; intros H; cbn; [constructor|]. assert (IH' := IH (fun y I => H y (or_intror I))).
  assert (Hx := H x (or_introl eq_refl)). destruct (f x); constructor; try exact IH'; [apply Hx; reflexivity|]. intros Px. apply Hx in Px. discriminate.
Qed.

Lemma all_entries_spec n db elements : 0 < n -> NoDup elements -> Forall symbol elements -> Forall wf_doc db ->
  exists docs out, all_entries n db elements = Ok out /\ picks (within elements) db docs /\ taken docs out.
Proof.
  intros Hn O S W. rewrite Forall_forall in W. unfold all_entries.
  destruct (Nat.le_gt_cases (length elements) 13) as [L|L].
  - unfold query_plan. destruct (Nat.leb_spec (length elements) 13); [|lia].
    destruct (chunks_ok n (all_chemsyses elements) Hn) as (gs & E & Cc & F). rewrite E. cbn [bind].
    exists (filter (fun d => memb_str (doc_chemsys d) (concat gs)) db). eexists. split; [reflexivity|]. split.
    + apply picks_filter. intros d I. rewrite memb_str_iff, Cc. apply doc_listed; auto.
    + apply taken_pick. rewrite <- groups_filter by (rewrite Cc; apply chemsyses_nodup; assumption).
      apply perm_eq. clear. induction gs as [|g gs IH]; [reflexivity|]. cbn. rewrite IH, flat_map_app. reflexivity.
  - unfold query_plan. destruct (Nat.leb_spec (length elements) 13); [lia|]. cbn [bind].
    exists (filter (matches (ElementsWithin elements)) db). eexists. split; [reflexivity|]. split.
    + apply picks_filter. intros d I. cbn. rewrite forallb_forall. unfold within. split; intros M x J; apply memb_str_iff, M; exact J.
    + apply taken_pick. cbn. rewrite app_nil_r. reflexivity.
Qed.

Lemma all_entries_in_chemsys_spec db elements : NoDup elements -> Forall symbol elements -> Forall wf_doc db ->
  (exists docs out, all_entries_in_chemsys db (inr elements) = Ok out /\ picks (within elements) db docs /\ taken docs out)
  /\ (elements <> [] -> all_entries_in_chemsys db (inl (join_dash elements)) = all_entries_in_chemsys db (inr elements)).
Proof.
  intros O S W. split.
  - apply all_entries_spec; try assumption. lia.
  - intros N. unfold all_entries_in_chemsys. rewrite split_join by assumption. reflexivity.
Qed.

(* --- C84 --- *)
Lemma same_choice d : doc_none d = false -> doc_gga d = None \/ doc_ggau d = None -> pick_premade d = pick_entry d.
Proof. unfold pick_premade, pick_entry. intros -> [-> | ->]; [destruct (doc_ggau d)|destruct (doc_gga d)]; reflexivity. Qed.
Lemma other_choice : exists d e e', wf_doc d /\ pick_entry d = [e] /\ pick_premade d = [e'] /\ e <> e' /\ chosen d e.
Proof.
  exists {| doc_chemsys := "Fe-O"; doc_elements := ["Fe"; "O"]%string; doc_none := false; doc_ggau := Some 1; doc_gga := Some 2 |}, 1, 2.
  split; [constructor; [discriminate|repeat constructor; cbv; intuition discriminate|repeat constructor; cbv; intuition discriminate|]|].
  - exists ["Fe"; "O"]%string. split; [reflexivity|]. split; [repeat constructor|reflexivity].
  - split; [reflexivity|]. split; [reflexivity|]. split; [discriminate|]. split; [reflexivity|left; reflexivity].
Qed.
