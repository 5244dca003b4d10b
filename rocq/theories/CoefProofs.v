(* Coefficients by phase. *)
From Coq Require Import Lqa.
From Verif Require Import Prelude NumQ SumQ ListFacts UtilsModel UtilsSpec ReactionModel ReactionSpec ReactionBaseProofs LinModel LinSpec LinProofs LinBalanceProofs.
Open Scope nat_scope.

Lemma nth_combine {A B} (l : list A) : forall (m : list B) j a b, nth_error (combine l m) j = Some (a, b) <-> nth_error l j = Some a /\ nth_error m j = Some b.
Proof.
  induction l as [|x l IH]; intros [|y m] [|j] a b; cbn; try (split; [discriminate|intros (H & K); discriminate]).
  - split; [intros [= -> ->]; auto|intros ([= ->] & [= ->]); reflexivity].
  - apply IH.
Qed.

(* --- coefficients by phase --- *)
Definition coef (l : list nat) (v : list Q) (i : nat) : Q := sumQ (fun ik => if Nat.eqb (fst ik) i then snd ik else 0%Q) (combine l v).

Lemma coef_none l v i : ~ In i l -> (coef l v i == 0)%Q.
Proof. intros H. apply sumQ_all_zero. intros [j k] I. cbn [fst snd]. destruct (Nat.eqb_spec j i) as [->|_]; [|reflexivity]. contradiction H. exact (in_combine_l _ _ _ _ I). Qed.
Lemma coef_cons j l k v i : (coef (j :: l) (k :: v) i == (if Nat.eqb j i then k else 0) + coef l v i)%Q.
Proof. unfold coef. cbn [combine]. rewrite sumQ_cons. reflexivity. Qed.
Lemma coef_all l : NoDup l -> forall v, length v = length l -> Forall2 (fun i k => (coef l v i == k)%Q) l v.
Proof.
  induction 1 as [|j l Hj N IH]; intros [|k v] L; try discriminate; [constructor|]. constructor.
  - rewrite coef_cons, Nat.eqb_refl, coef_none by exact Hj. ring.
  - cbn in L. specialize (IH v ltac:(lia)). assert (G : forall i, In i l -> (coef (j :: l) (k :: v) i == coef l v i)%Q).
    { intros i I. rewrite coef_cons. destruct (Nat.eqb_spec j i) as [->|_]; [contradiction|ring]. }
    clear -IH G. revert IH G. generalize (coef l v) as f, (coef (j :: l) (k :: v)) as g. intros f g F. induction F as [|i k' l v E F IH]; intros G; constructor; [rewrite (G i (or_introl eq_refl)); exact E|apply IH; intros a I; apply G; right; exact I].
Qed.
Lemma coef_nth l v j i k : NoDup l -> length v = length l -> nth_error l j = Some i -> nth_error v j = Some k -> (coef l v i == k)%Q.
Proof.
  intros N L E1 E2. pose proof (coef_all l N v L) as F. clear N L. revert F E1 E2. generalize (coef l v) as f. intros f F. revert j. induction F as [|a b l' v' E F IH]; intros [|j] E1 E2; try discriminate.
  - injection E1 as <-. injection E2 as <-. exact E.
  - exact (IH j E1 E2).
Qed.

Lemma sum_coef (g : nat -> Q) l v : NoDup l -> length v = length l -> (sumQ (fun ik => g (fst ik) * snd ik) (combine l v) == sumQ (fun i => g i * coef l v i) l)%Q.
Proof.
  intros N L. pose proof (coef_all l N v L) as F. clear N L. revert F. generalize (coef l v) as f. intros f F. induction F as [|a b l' v' E F IH]; [reflexivity|]. cbn [combine]. rewrite !sumQ_cons. cbn [fst snd].
  rewrite IH, E. reflexivity.
Qed.
Lemma combine_map_l {A B D} (f : A -> B) (l : list A) (v : list D) : combine (map f l) v = map (fun ak => (f (fst ak), snd ak)) (combine l v).
Proof. revert v. induction l as [|a l IH]; intros [|k v]; try reflexivity. cbn. rewrite IH. reflexivity. Qed.
Lemma combine_self {A B} (f : A -> B) l : combine l (map f l) = map (fun a => (a, f a)) l.
Proof. induction l as [|a l IH]; [reflexivity|]. cbn. rewrite IH. reflexivity. Qed.
Lemma multiple_self t (f g : nat -> Q) l : (forall i, In i l -> (g i == t * f i)%Q) -> multiple t (map f l) (map g l).
Proof. induction l as [|i l IH]; intros H; cbn; constructor; [apply H; left; reflexivity|apply IH; intros j J; apply H; right; exact J]. Qed.
Lemma multiple_inv t (f g : nat -> Q) l : multiple t (map f l) (map g l) -> forall i, In i l -> (g i == t * f i)%Q.
Proof. induction l as [|i l IH]; intros H; [intros i []|]. cbn in H. inversion H; subst. intros j [<-|J]; [assumption|apply IH; assumption]. Qed.

Section Coeffs.
Variable C : chem.
Variable form : nat -> nat.
Lemma net_form l v el : (ReactionSpec.net C (combine (map form l) v) el == sumQ (fun ik => amt C (form (fst ik)) el * snd ik) (combine l v))%Q.
Proof. unfold ReactionSpec.net. rewrite combine_map_l, sumQ_map. reflexivity. Qed.
Lemma net_self (w : nat -> Q) l el : (ReactionSpec.net C (combine (map form l) (map w l)) el == sumQ (fun i => amt C (form i) el * w i) l)%Q.
Proof. rewrite net_form, combine_self, sumQ_map. reflexivity. Qed.

Lemma only_perm l l' v : NoDup l -> Permutation l l' -> only_combination C (map form l) v -> only_combination C (map form l') (map (coef l v) l').
Proof.
  intros N P ((Lv & Nv) & Nz & O). rewrite map_length in Lv. pose proof (Permutation_NoDup P N) as N'. split; [split|split].
  - rewrite !map_length. reflexivity.
  - intros el. rewrite net_self, <- (sumQ_perm _ _ _ P), <- (sum_coef (fun i => amt C (form i) el) l v N Lv), <- net_form. apply Nv.
  - intros k I. apply in_map_iff in I as (i & <- & I). apply (Permutation_in _ (Permutation_sym P)) in I. destruct (Forall2_In_l _ _ _ _ (coef_all l N v Lv) I) as (k & Ik & E). rewrite E. exact (Nz k Ik).
  - intros w (Lw & Nw). rewrite map_length in Lw. destruct (O (map (coef l' w) l)) as (t & M).
    + split; [rewrite !map_length; reflexivity|]. intros el. rewrite net_self, (sumQ_perm _ _ _ P), <- (sum_coef (fun i => amt C (form i) el) l' w N' Lw), <- net_form. apply Nw.
    + exists t. assert (G : forall i, In i l -> (coef l' w i == t * coef l v i)%Q).
      { intros i I. pose proof (coef_all l N v Lv) as F. revert M F I. generalize (coef l' w) as g, (coef l v) as f. clear. intros g f M F. revert M. induction F as [|a b l v E F IH]; intros M I; [destruct I|].
        cbn in M. inversion M; subst. destruct I as [<-|I]; [rewrite E; assumption|apply IH; assumption]. }
      pose proof (coef_all l' N' w Lw) as F'. assert (G' : forall i, In i l' -> (coef l' w i == t * coef l v i)%Q) by (intros i I; apply G; exact (Permutation_in _ (Permutation_sym P) I)).
      revert F' G'. generalize (coef l' w) as g, (coef l v) as f. clear. intros g f F. induction F as [|a b l v E F IH]; intros G; cbn; constructor; [rewrite <- E; apply G; left; reflexivity|apply IH; intros i I; apply G; right; exact I].
Qed.
End Coeffs.
