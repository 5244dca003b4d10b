(* Concrete reaction sets: witnesses and non-vacuity for C17-C23 and C67-C69. *)
From Verif Require Import Prelude NumQ UtilsModel UtilsSpec RxnSetModel RxnSetSpec.
Open Scope nat_scope.

(* --- concrete library functions --- *)
Fixpoint ins {A} (le : A -> A -> bool) (x : A) (l : list A) : list A :=
  match l with [] => [x] | y :: l' => if le x y then x :: l else y :: ins le x l' end.
Definition isort {A} (le : A -> A -> bool) (l : list A) : list A := fold_right (ins le) [] l.

Lemma ins_perm {A} (le : A -> A -> bool) x l : Permutation (ins le x l) (x :: l).
Proof.
  induction l as [|y l IH]; simpl; [apply Permutation_refl|]. destruct (le x y); [apply Permutation_refl|].
  eapply perm_trans; [apply perm_skip; exact IH|apply perm_swap].
Qed.
Lemma isort_perm {A} (le : A -> A -> bool) l : Permutation (isort le l) l.
Proof.
  induction l as [|x l IH]; simpl; [constructor|]. eapply perm_trans; [apply ins_perm|]. apply perm_skip. exact IH.
Qed.

(* np.argsort, stable *)
Definition argsort (l : list Q) : list nat :=
  map snd (isort (fun a b => Qle_bool (fst a) (fst b)) (combine l (seq 0 (length l)))).
Lemma argsort_perm l : Permutation (argsort l) (seq 0 (length l)).
Proof.
  unfold argsort. eapply perm_trans; [apply Permutation_map, isort_perm|].
  assert (H : forall n, map snd (combine l (seq n (length l))) = seq n (length l)).
  { induction l as [|x l IH]; intros n; [reflexivity|]. simpl. rewrite IH. reflexivity. }
  rewrite H. apply Permutation_refl.
Qed.

(* sorted(set(l), key=composition) *)
Definition arrange (l : list sentry) : list sentry := isort (fun a b => Nat.leb (comp a) (comp b)) (nodup sentry_eq_dec l).
Lemma arrange_arranges : arranges arrange.
Proof.
  intros l. unfold arrange. split.
  - apply (Permutation_NoDup (Permutation_sym (isort_perm _ _))), NoDup_nodup.
  - intros e. rewrite <- (nodup_In sentry_eq_dec l e). split; apply Permutation_in; [|apply Permutation_sym]; apply isort_perm.
Qed.

(* --- entries and reactions --- *)
Definition en (i : nat) : sentry := {| uid := i; comp := i; form := i |}.
Definition poly : sentry := {| uid := 9; comp := 2; form := 2 |}.
Definition rx (es : list sentry) (ks : list Q) (d : nat) : srxn := {| x_entries := es; x_coeffs := ks; x_data := d; x_mu := None |}.
Definition rxo (es : list sentry) (ks : list Q) (d : nat) (q : Q) : srxn :=
  {| x_entries := es; x_coeffs := ks; x_data := d; x_mu := Some [(7, q)] |}.

Definition demo : list srxn :=
  [ rx [en 0; en 1; en 2] [-1#1; -1#1; 1#1]%Q 10;
    rx [en 1; en 3] [-1#1; 2#1]%Q 11;
    rx [en 1; en 0; en 2] [-2#1; -2#1; 2#1]%Q 12;
    rx [en 0; en 2; en 3] [-1#1; -1#1; 1#1]%Q 13 ].
Definition set_of (l : list srxn) : rset :=
  match from_rxns arrange l [] None 0 with Ok s => s | Err _ => rset_init [] [] [] None 0 None end.
Definition demo_set : rset := Eval vm_compute in set_of demo.

(* Decides well_formed on a concrete set. *)
Definition wf_check (s : rset) : bool :=
  (if list_eq_dec Nat.eq_dec (nodup Nat.eq_dec (map fst (r_indices s))) (map fst (r_indices s)) then true else false)
  && (if list_eq_dec Nat.eq_dec (map fst (r_coeffs s)) (map fst (r_indices s)) then true else false)
  && (if list_eq_dec Nat.eq_dec (map fst (r_data s)) (map fst (r_indices s)) then true else false)
  && forallb (fun i => forallb (fun c => forallb (fun d =>
       negb (Nat.eqb (fst i) (fst c) && Nat.eqb (fst i) (fst d))
       || (Nat.eqb (length (snd c)) (length (snd i)) && Nat.eqb (length (snd d)) (length (snd i))
           && forallb (fun idx => Nat.eqb (length idx) (fst i) && forallb (fun k => Nat.ltb k (length (r_entries s))) idx) (snd i)
           && forallb (fun q => Nat.eqb (length q) (fst i)) (snd c)))
       (r_data s)) (r_coeffs s)) (r_indices s).
Lemma wf_check_ok s : wf_check s = true -> well_formed s.
Proof.
  unfold wf_check. rewrite !andb_true_iff. intros [[[H1 H2] H3] H4].
  destruct (list_eq_dec Nat.eq_dec (nodup _ _) _) as [E1|]; [|discriminate].
  destruct (list_eq_dec Nat.eq_dec (map fst (r_coeffs s)) _) as [E2|]; [|discriminate].
  destruct (list_eq_dec Nat.eq_dec (map fst (r_data s)) _) as [E3|]; [|discriminate].
  split; [rewrite <- E1; apply NoDup_nodup|]. split; [exact E2|]. split; [exact E3|].
  intros n is cs ds Hi Hc Hd. rewrite forallb_forall in H4. pose proof (H4 _ Hi) as H. rewrite forallb_forall in H.
  specialize (H _ Hc). rewrite forallb_forall in H. specialize (H _ Hd). cbn [fst snd] in H. rewrite !Nat.eqb_refl in H. cbn [andb negb orb] in H.
  rewrite !andb_true_iff in H. destruct H as [[[A B] I] D]. apply Nat.eqb_eq in A, B. split; [exact A|]. split; [exact B|]. split.
  - intros idx Hx. rewrite forallb_forall in I. specialize (I idx Hx). apply andb_true_iff in I as [I1 I2]. apply Nat.eqb_eq in I1.
    split; [exact I1|]. intros k Hk. rewrite forallb_forall in I2. apply Nat.ltb_lt. apply I2. exact Hk.
  - intros c Hx. rewrite forallb_forall in D. apply Nat.eqb_eq. apply D. exact Hx.
Qed.
Lemma demo_wf : well_formed demo_set.
Proof. apply wf_check_ok. vm_compute. reflexivity. Qed.
Lemma demo_nodup : NoDup (r_entries demo_set).
Proof. repeat constructor; simpl; intuition discriminate. Qed.

(* --- C19: a species with coefficient zero --- *)
Definition zero_rxn : srxn := rx [en 0; en 1; en 2] [-1#1; 1#1; 0]%Q 0.
Lemma zero_reactant_witness : exists s r fs, well_formed s /\ get_rxns s = Ok [r] /\ (exists e c, takes_part r e c /\ (c < 0)%Q)
  /\ only_reactants fs r /\ get_rxns_by_reactants s fs = Ok [].
Proof.
  exists (set_of [zero_rxn]), zero_rxn, [0]. split; [apply wf_check_ok; vm_compute; reflexivity|]. split; [vm_compute; reflexivity|].
  split; [exists (en 0), (-1#1)%Q; split; [left; reflexivity|reflexivity]|]. split.
  - intros e c [H|[H|[H|[]]]] Hc; injection H as <- <-; [left; reflexivity|discriminate|discriminate].
  - vm_compute. reflexivity.
Qed.

(* --- C20 --- *)
Definition first_rxn : srxn := rx [en 1; en 0] [-1#1; 1#1]%Q 0.
Lemma product_first_witness : exists s r f, well_formed s /\ get_rxns s = Ok [r] /\ plain r /\ forms_product f r
  /\ get_rxns_by_product s f = Ok [].
Proof.
  exists (set_of [first_rxn]), first_rxn, 0. split; [apply wf_check_ok; vm_compute; reflexivity|]. split; [vm_compute; reflexivity|].
  split; [split; [repeat constructor; simpl; intuition discriminate|split; [reflexivity|intros c [<-|[<-|[]]]; discriminate]]|].
  split; [exists (en 0), (1#1)%Q; split; [right; left; reflexivity|split; reflexivity]|vm_compute; reflexivity].
Qed.
(* With two polymorphs only the first one's reactions are found. *)
Definition poly_rxns : list srxn := [rx [en 1; en 2] [-1#1; 1#1]%Q 0; rx [en 1; poly] [-1#1; 1#1]%Q 1].
Lemma product_polymorph_witness : exists s r1 r2 f, well_formed s /\ get_rxns s = Ok [r1; r2] /\ plain r1 /\ plain r2
  /\ forms_product f r1 /\ forms_product f r2 /\ exists r, get_rxns_by_product s f = Ok [r].
Proof.
  exists (set_of poly_rxns), (rx [en 1; en 2] [-1#1; 1#1]%Q 0), (rx [en 1; poly] [-1#1; 1#1]%Q 1), 2.
  split; [apply wf_check_ok; vm_compute; reflexivity|]. split; [vm_compute; reflexivity|].
  split; [split; [repeat constructor; simpl; intuition discriminate|split; [reflexivity|intros c [<-|[<-|[]]]; discriminate]]|].
  split; [split; [repeat constructor; simpl; intuition discriminate|split; [reflexivity|intros c [<-|[<-|[]]]; discriminate]]|].
  split; [exists (en 2), (1#1)%Q; split; [right; left; reflexivity|split; reflexivity]|].
  split; [exists poly, (1#1)%Q; split; [right; left; reflexivity|split; reflexivity]|].
  eexists. vm_compute. reflexivity.
Qed.
(* A species with coefficient zero counts as a product. *)
Lemma product_zero_witness : exists s r f, well_formed s /\ get_rxns s = Ok [r] /\ ~ forms_product f r /\ get_rxns_by_product s f = Ok [r].
Proof.
  exists (set_of [zero_rxn]), zero_rxn, 2. split; [apply wf_check_ok; vm_compute; reflexivity|]. split; [vm_compute; reflexivity|].
  split; [|vm_compute; reflexivity]. intros (e & c & [H|[H|[H|[]]]] & Hc & Hf); injection H as <- <-; discriminate.
Qed.

(* --- C21 --- *)
Definition chain (i : nat) (q : Q) : srxn := rx [en 0; en 1] [-1#1; q]%Q i.
Definition chained : list srxn := [chain 0 1; chain 1 (1 + (9 # 1000000)); chain 2 (1 + (18 # 1000000))].
Lemma chained_plain r : In r chained -> plain r.
Proof.
  intros [<-|[<-|[<-|[]]]]; (split; [repeat constructor; simpl; intuition discriminate|split; [reflexivity|intros c [<-|[<-|[]]]; discriminate]]).
Qed.
Lemma near_refl_chain i j p q : (0 < q)%Q -> (Qabs ((1) - p / q) <= (1 # 100000000) + (1 # 100000) * Qabs (p / q))%Q ->
  nearly_multiples (chain i p) (chain j q).
Proof.
  intros Hq H. exists [(en 0, (-1#1)%Q, (-1#1)%Q); (en 1, p, q)], (en 0), (-1#1)%Q, (-1#1)%Q.
  split; [split; apply Permutation_refl|]. split; [left; reflexivity|].
  intros e x y [E|[E|[]]]; injection E as <- <- <-; [vm_compute; discriminate|exact H].
Qed.
Lemma chain_witness : exists s rs s' r1 r2, well_formed s /\ NoDup (r_entries s) /\ get_rxns s = Ok rs /\ (forall r, In r rs -> plain r)
  /\ filter_duplicates argsort (fun l => l) s [] = Ok s' /\ get_rxns s' = Ok [r1; r2]
  /\ nearly_multiples r1 r2 /\ nearly_multiples r2 r1.
Proof.
  exists (set_of chained), chained. eexists. exists (chain 0 1), (chain 1 (1 + (9 # 1000000))).
  split; [apply wf_check_ok; vm_compute; reflexivity|]. split; [repeat constructor; simpl; intuition discriminate|].
  split; [vm_compute; reflexivity|]. split; [exact chained_plain|]. split; [vm_compute; reflexivity|]. split; [vm_compute; reflexivity|].
  split; apply near_refl_chain; vm_compute; try reflexivity; discriminate.
Qed.
Lemma zero_duplicates_witness : exists s rs, well_formed s /\ get_rxns s = Ok rs
  /\ (forall r, In r rs -> NoDup (x_entries r) /\ length (x_coeffs r) = length (x_entries r))
  /\ filter_duplicates argsort (fun l => l) s [] = Err IndexError.
Proof.
  exists (set_of [zero_rxn; zero_rxn]), [zero_rxn; zero_rxn]. split; [apply wf_check_ok; vm_compute; reflexivity|].
  split; [vm_compute; reflexivity|]. split; [|vm_compute; reflexivity].
  intros r [<-|[<-|[]]]; (split; [repeat constructor; simpl; intuition discriminate|reflexivity]).
Qed.

(* --- C22: one CPU --- *)
Lemma one_cpu_witness : exists s s', well_formed s /\ filter_duplicates argsort (fun l => l) s [] = Ok s'
  /\ forall wait, filter_duplicates_parallel argsort (fun l => l) 1 wait s [] = Err ZeroDivisionError.
Proof.
  exists demo_set. eexists. split; [exact demo_wf|]. split; [vm_compute; reflexivity|]. intros wait. vm_compute. reflexivity.
Qed.

(* --- C23: a size the set does not have --- *)
Lemma missing_size_witness : exists s rs a, well_formed s /\ NoDup (r_entries s) /\ get_rxns s = Ok rs /\ plain a /\ x_entries a <> []
  /\ (forall r, In r rs -> ~ same_rxn r a)
  /\ filter_duplicates argsort (fun l => l) s [a] = Err KeyError.
Proof.
  exists demo_set. eexists. exists (rx [en 0; en 1; en 2; en 3] [-1#1; -1#1; 1#1; 1#1]%Q 0). split; [exact demo_wf|]. split; [exact demo_nodup|].
  split; [vm_compute; reflexivity|].
  split; [split; [repeat constructor; simpl; intuition discriminate|split; [reflexivity|intros c [<-|[<-|[<-|[<-|[]]]]]; discriminate]]|].
  split; [discriminate|]. split; [|vm_compute; reflexivity].
  intros r [<-|[<-|[<-|[<-|[]]]]] [E _]; discriminate.
Qed.

(* --- C67 --- *)
Lemma no_data_witness : exists es idx co, let s := rset_init es idx co None 0 None in
  rset_len s = 1 /\ get_rxns s = Ok [].
Proof. exists [en 0; en 1], [(2, [[0; 1]])], [(2, [[-1#1; 1#1]%Q])]. split; vm_compute; reflexivity. Qed.

(* --- C68 --- *)
Definition opens : list srxn := [rxo [en 0; en 1] [-1#1; 1#1]%Q 0 (1#1); rxo [en 0; en 2] [-1#1; 1#1]%Q 1 (2#1)].
Lemma mixed_mu_witness : exists rxns s out, (forall r, In r rxns -> plain r /\ x_mu r <> None)
  /\ from_rxns arrange rxns [] None 0 = Ok s /\ get_rxns s = Ok out /\ length out = length rxns /\ forall r, In r out -> x_mu r = None.
Proof.
  exists opens. do 2 eexists. split.
  { intros r [<-|[<-|[]]]; (split; [split; [repeat constructor; simpl; intuition discriminate|split; [reflexivity|intros c [<-|[<-|[]]]; discriminate]]|discriminate]). }
  split; [vm_compute; reflexivity|]. split; [vm_compute; reflexivity|]. split; [reflexivity|]. intros r [<-|[<-|[]]]; reflexivity.
Qed.
(* One closed reaction makes the whole set closed. *)
Definition half_open : list srxn := [rxo [en 0; en 1] [-1#1; 1#1]%Q 0 (1#1); rx [en 0; en 2] [-1#1; 1#1]%Q 1].
Lemma half_open_witness : exists rxns s out, (exists r, In r rxns /\ x_mu r <> None)
  /\ from_rxns arrange rxns [] None 0 = Ok s /\ get_rxns s = Ok out /\ forall r, In r out -> x_mu r = None.
Proof.
  exists half_open. do 2 eexists. split; [eexists; split; [left; reflexivity|discriminate]|].
  split; [vm_compute; reflexivity|]. split; [vm_compute; reflexivity|]. intros r [<-|[<-|[]]]; reflexivity.
Qed.

(* --- C69: polymorphs --- *)
Definition warm (e : sentry) : sentry := {| uid := uid e + 100; comp := comp e; form := form e |}.
Lemma temperature_witness : exists s rs s' out, well_formed s /\ NoDup (r_entries s) /\ get_rxns s = Ok rs
  /\ (forall x y, warm x = warm y -> x = y)
  /\ set_new_temperature arrange warm s = Ok s' /\ get_rxns s' = Ok out /\ ~ Permutation out (map (warmed warm) rs).
Proof.
  exists (set_of poly_rxns). do 3 eexists. split; [apply wf_check_ok; vm_compute; reflexivity|].
  split; [repeat constructor; simpl; intuition discriminate|]. split; [vm_compute; reflexivity|].
  split; [intros [a b c] [a' b' c'] H; unfold warm in H; simpl in H; injection H as H -> ->; f_equal; lia|].
  split; [vm_compute; reflexivity|]. split; [vm_compute; reflexivity|].
  intros P. apply (Permutation_map x_entries) in P. vm_compute in P.
  match type of P with Permutation ?l ?m =>
    assert (H : forall x, In x m -> In x l) by (intros x Hx; apply (Permutation_in _ (Permutation_sym P)); exact Hx) end.
  pose proof (H _ (or_introl eq_refl)) as H1. pose proof (H _ (or_intror (or_introl eq_refl))) as H2.
  destruct H1 as [H1|[H1|[]]], H2 as [H2|[H2|[]]]; congruence.
Qed.

(* --- the hypotheses of C21 and C22 hold for the demo set --- *)
Lemma aligned_entries r r' l e : length (x_coeffs r) = length (x_entries r) -> length (x_coeffs r') = length (x_entries r') ->
  aligned r r' l -> In e (x_entries r) -> In e (x_entries r').
Proof.
  intros L1 L2 [P1 P2] Hin.
  assert (F : forall (a : list sentry) (b : list Q), length b = length a -> map fst (combine a b) = a).
  { induction a as [|x a IH]; intros [|y b] H; try discriminate; [reflexivity|]. simpl. rewrite IH; [reflexivity|]. injection H; auto. }
  apply (Permutation_map fst) in P1. apply (Permutation_map fst) in P2. rewrite map_map in P1, P2. cbn [fst] in P1, P2.
  rewrite (F _ _ L1) in P1. rewrite (F _ _ L2) in P2. apply (Permutation_in _ P2), (Permutation_in _ (Permutation_sym P1)). exact Hin.
Qed.
Lemma plain_demo r : In r demo -> plain r.
Proof.
  intros [<-|[<-|[<-|[<-|[]]]]];
    (split; [repeat constructor; simpl; intuition discriminate|split; [reflexivity|intros c H; simpl in H; repeat (destruct H as [<-|H]; [discriminate|]); destruct H]]).
Qed.
Lemma sharp_demo : sharp demo.
Proof.
  assert (Self : forall r, multiples r r).
  { intros r. exists 1%Q, (map (fun ec => (fst ec, snd ec, snd ec)) (combine (x_entries r) (x_coeffs r))). split; [reflexivity|]. split.
    - split; rewrite map_map; cbn [fst snd]; (rewrite (map_ext _ (fun x => x)) by (intros [a b]; reflexivity)); rewrite map_id; apply Permutation_refl.
    - intros e x y H. apply in_map_iff in H as (p & E & _). injection E as <- <- <-. ring. }
  assert (No : forall r r' e, plain r -> plain r' -> In e (x_entries r) -> ~ In e (x_entries r') -> nearly_multiples r r' -> multiples r r').
  { intros r r' e (_ & L1 & _) (_ & L2 & _) H1 H2 (l & _ & _ & _ & Al & _). exfalso. apply H2. apply (aligned_entries r r' l); assumption. }
  assert (No' : forall r r' e, plain r -> plain r' -> ~ In e (x_entries r) -> In e (x_entries r') -> nearly_multiples r r' -> multiples r r').
  { intros r r' e (_ & L1 & _) (_ & L2 & _) H1 H2 (l & _ & _ & _ & Al & _). exfalso. apply H1.
    apply (aligned_entries r' r (map (fun t => (fst (fst t), snd t, snd (fst t))) l)); try assumption.
    destruct Al as [A B]. split; rewrite map_map; cbn [fst snd]; assumption. }
  intros r r' Hr Hr' Hn. pose proof (plain_demo r Hr) as P. pose proof (plain_demo r' Hr') as P'.
  destruct Hr as [<-|[<-|[<-|[<-|[]]]]], Hr' as [<-|[<-|[<-|[<-|[]]]]]; try apply Self;
    try (apply (No _ _ (en 0) P P'); [simpl; tauto|simpl; intuition discriminate|exact Hn]);
    try (apply (No' _ _ (en 0) P P'); [simpl; intuition discriminate|simpl; tauto|exact Hn]);
    try (apply (No _ _ (en 1) P P'); [simpl; tauto|simpl; intuition discriminate|exact Hn]);
    try (apply (No' _ _ (en 1) P P'); [simpl; intuition discriminate|simpl; tauto|exact Hn]).
  - exists 2%Q, [(en 0, (-1#1)%Q, (-2#1)%Q); (en 1, (-1#1)%Q, (-2#1)%Q); (en 2, (1#1)%Q, (2#1)%Q)]. split; [reflexivity|]. split.
    + split; [apply Permutation_refl|apply perm_swap].
    + intros e x y [E|[E|[E|[]]]]; injection E as <- <- <-; reflexivity.
  - exists (1#2)%Q, [(en 0, (-2#1)%Q, (-1#1)%Q); (en 1, (-2#1)%Q, (-1#1)%Q); (en 2, (2#1)%Q, (1#1)%Q)]. split; [reflexivity|]. split.
    + split; [apply perm_swap|apply Permutation_refl].
    + intros e x y [E|[E|[E|[]]]]; injection E as <- <- <-; reflexivity.
Qed.
Lemma demo_list : exists rs, get_rxns demo_set = Ok rs /\ (forall r, In r rs -> plain r) /\ sharp rs /\ exists r r', In r rs /\ In r' rs /\ r <> r' /\ multiples r r'.
Proof.
  eexists. split; [vm_compute; reflexivity|].
  match goal with |- (forall r, In r ?l -> _) /\ _ => assert (I : forall r, In r l -> In r demo) end.
  { intros r H. simpl in H. unfold demo. repeat (destruct H as [<-|H]; [vm_compute; tauto|]). destruct H. }
  split; [intros r H; apply plain_demo, I; exact H|]. split; [intros r r' H H'; apply sharp_demo; apply I; assumption|].
  do 2 eexists. split; [left; reflexivity|]. split; [right; left; reflexivity|]. split; [discriminate|].
  exists 2%Q, [(en 0, (-1#1)%Q, (-2#1)%Q); (en 1, (-1#1)%Q, (-2#1)%Q); (en 2, (1#1)%Q, (2#1)%Q)]. split; [reflexivity|]. split.
  + split; [apply Permutation_refl|apply perm_swap].
  + intros e x y [E|[E|[E|[]]]]; injection E as <- <- <-; reflexivity.
Qed.

(* The last reference finishes first. *)
Definition lifo_any {R} (k : nat) (refs : list R) : list R * list R :=
  match rev refs with [] => ([], []) | d :: rest => ([d], rev rest) end.
Lemma lifo_any_valid {R} : valid_schedule (@lifo_any R).
Proof.
  intros k refs Hne. unfold lifo_any. destruct (rev refs) as [|d rest] eqn:E.
  - exfalso. apply Hne. rewrite <- (rev_involutive refs), E. reflexivity.
  - exists d, (rev rest). split; [reflexivity|]. rewrite <- (rev_involutive refs), E. simpl. symmetry. apply Permutation_cons_append.
Qed.
