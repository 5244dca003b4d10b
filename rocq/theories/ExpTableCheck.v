(* The two tables gone through row by row. *)
From Coq Require Import String Lqa.
From Verif Require Import Prelude NumQ ListFacts UtilsModel ReactionModel ReactionSpec GibbsModel GibbsSpec NistTableModel FreedTableModel ExpTableModel ExpTableSpec ExpTableProofs.
Open Scope string_scope.
Open Scope list_scope.
Open Scope nat_scope.

Definition namedb (s : string) (l : list string) : bool := existsb (String.eqb s) l.
Lemma namedb_iff s l : namedb s l = true <-> In s l.
Proof.
  unfold namedb. rewrite existsb_exists. split.
  - intros (y & I & E). apply String.eqb_eq in E. subst. exact I.
  - intros I. exists s. split; [exact I|apply String.eqb_refl].
Qed.
Lemma combine_at {A B} (l : list A) (l' : list B) a b : In (a, b) (combine l l') <-> exists i, nth_error l i = Some a /\ nth_error l' i = Some b.
Proof.
  revert l'. induction l as [|z l IH]; intros [|z' l']; cbn [combine In].
  - split; [intros []|]. intros ([|i] & E & _); discriminate.
  - split; [intros []|]. intros ([|i] & E & _); discriminate.
  - split; [intros []|]. intros ([|i] & _ & E); discriminate.
  - rewrite IH. split.
    + intros [E|(i & E & E')]; [injection E as <- <-; exists 0; split; reflexivity|exists (S i); split; assumption].
    + intros ([|i] & E & E'); [left; cbn in E, E'; congruence|right; exists i; split; assumption].
Qed.
Lemma nth_tl {A} (l : list A) i : nth_error (tl l) i = nth_error l (S i).
Proof. destruct l; [destruct i; reflexivity|reflexivity]. Qed.

Definition farb (n : Z) (p : Z * Z) : bool := (200000 * n <? Z.abs (fst p - snd p))%Z.
Definition jumpsb (n : Z) (vs : list Z) : bool := existsb (farb n) (combine vs (tl vs)).
Definition differsb (n : Z) (vs vs' : list Z) : bool := existsb (farb n) (combine vs vs').
Lemma differsb_iff n vs vs' : differsb n vs vs' = true <-> differs n vs vs'.
Proof.
  unfold differsb, differs. rewrite existsb_exists. split.
  - intros ((a, b) & I & E). apply combine_at in I as (i & Ha & Hb). apply Z.ltb_lt in E. exists i, a, b. auto.
  - intros (i & a & b & Ha & Hb & L). exists (a, b). split; [apply combine_at; exists i; auto|]. apply Z.ltb_lt. exact L.
Qed.
Lemma jumpsb_iff n vs : jumpsb n vs = true <-> jumps n vs.
Proof.
  change (differsb n vs (tl vs) = true <-> jumps n vs). rewrite differsb_iff. split; intros (i & a & b & Ha & Hb & L); exists i, a, b; rewrite nth_tl in *; repeat split; try assumption; lia.
Qed.

Definition rowb (l : list string) (row : string * Z * list Z) : bool :=
  match snd row with [] => false | _ :: _ => true end && Bool.eqb (jumpsb (snd (fst row)) (snd row)) (namedb (fst (fst row)) l).
Lemma nist_rows : forallb (rowb nist_jumps) nist_table = true.
Proof. vm_compute. reflexivity. Qed.
Lemma freed_rows : forallb (rowb freed_jumps) freed_table = true.
Proof. vm_compute. reflexivity. Qed.
Definition pairb (row row' : string * Z * list Z) : bool :=
  if String.eqb (fst (fst row)) (fst (fst row')) then Z.eqb (snd (fst row)) (snd (fst row')) && Bool.eqb (differsb (snd (fst row)) (snd row) (snd row')) (namedb (fst (fst row)) disputed) else true.
Lemma pair_rows : forallb (fun row => forallb (pairb row) freed_table) nist_table = true.
Proof. vm_compute. reflexivity. Qed.

Lemma row_known l tab f s n vs : forallb (rowb l) tab = true -> nth_error tab f = Some (s, n, vs) -> vs <> [] /\ (jumps n vs <-> In s l).
Proof.
  intros F E. rewrite forallb_forall in F. specialize (F _ (nth_error_In _ _ E)). unfold rowb in F. cbn [fst snd] in F. apply andb_true_iff in F as (F1 & F2). apply eqb_prop in F2.
  split; [destruct vs; [discriminate|discriminate]|]. rewrite <- jumpsb_iff, F2. apply namedb_iff.
Qed.
Lemma refs_known tab f s n vs : nth_error tab f = Some (s, n, vs) -> table_refs tab f = Some (rows_of vs).
Proof. intros E. unfold table_refs. rewrite E. reflexivity. Qed.

Lemma table_range tab l C deprecated c s n vs t adjs : forallb (rowb l) tab = true -> deprecated (red C c) = false -> nth_error tab (red C c) = Some (s, n, vs) ->
  ((300 <= pyval t <= last_row vs)%Q -> exists e, exp_init C (table_refs tab) deprecated c t adjs = Ok e) /\
  (~ (300 <= pyval t <= last_row vs)%Q -> exp_init C (table_refs tab) deprecated c t adjs = Err ValueError).
Proof.
  intros F D E. destruct (row_known _ _ _ _ _ _ F E) as (Ne & _). split.
  - intros H. destruct (rows_value vs C (table_refs tab) deprecated c t adjs D (refs_known _ _ _ _ _ E) Ne H) as (e & He & _). exists e. exact He.
  - intros H. exact (rows_outside vs C (table_refs tab) deprecated c t adjs D (refs_known _ _ _ _ _ E) H).
Qed.
Lemma in_thousands a b n : (Z.abs (a - b) <= 200000 * n)%Z -> (- ((2 # 10) * inject_Z n) <= (a # 1000000) - (b # 1000000) <= (2 # 10) * inject_Z n)%Q.
Proof. intros H. unfold Qle, Qminus, Qplus, Qopp, Qmult, inject_Z. cbn [Qnum Qden]. rewrite !Pos2Z.inj_mul. lia. Qed.
Lemma table_smooth tab l C deprecated c s n vs t t' adjs adjs' e e' : forallb (rowb l) tab = true -> deprecated (red C c) = false -> nth_error tab (red C c) = Some (s, n, vs) -> ~ In s l ->
  exp_init C (table_refs tab) deprecated c t adjs = Ok e -> exp_init C (table_refs tab) deprecated c t' adjs' = Ok e' ->
  (Qabs (xe_base e' - xe_base e) <= (2 # 1000) * inject_Z n * Qabs (pyval t' - pyval t))%Q.
Proof.
  intros F D E N He He'. destruct (row_known _ _ _ _ _ _ F E) as (_ & J).
  assert (M : (Qabs (xe_base e' - xe_base e) <= ((2 # 10) * inject_Z n) * (Qabs (pyval t' - pyval t) / 100))%Q).
  { apply (entries_move vs C (table_refs tab) deprecated ((2 # 10) * inject_Z n)%Q) with c adjs adjs'; [|exact D|exact (refs_known _ _ _ _ _ E)|exact He|exact He'].
    intros k K1 K2. unfold val. replace (Z.to_nat (k + 1 - 3)) with (S (Z.to_nat (k - 3))) by lia. apply in_thousands.
    destruct (Z.le_gt_cases (Z.abs (nth (S (Z.to_nat (k - 3))) vs 0%Z - nth (Z.to_nat (k - 3)) vs 0%Z)) (200000 * n)) as [L|L]; [exact L|]. exfalso. apply N, J.
    exists (Z.to_nat (k - 3)), (nth (Z.to_nat (k - 3)) vs 0%Z), (nth (S (Z.to_nat (k - 3))) vs 0%Z). split; [apply nth_error_nth'; lia|]. split; [apply nth_error_nth'; lia|lia]. }
  eapply Qle_trans; [exact M|]. apply Qle_lteq. right. field.
Qed.
Lemma tables_near C C' dep dep' c c' s n vs n' vs' t adjs adjs' e e' : nth_error nist_table (red C c) = Some (s, n, vs) -> nth_error freed_table (red C' c') = Some (s, n', vs') ->
  n = n' /\ (differs n vs vs' <-> In s disputed) /\
  (~ In s disputed -> dep (red C c) = false -> dep' (red C' c') = false -> exp_init C (table_refs nist_table) dep c t adjs = Ok e -> exp_init C' (table_refs freed_table) dep' c' t adjs' = Ok e' ->
    (Qabs (xe_base e - xe_base e') <= (2 # 10) * inject_Z n)%Q).
Proof.
  intros E E'. pose proof pair_rows as F. rewrite forallb_forall in F. specialize (F _ (nth_error_In _ _ E)). cbn beta in F. rewrite forallb_forall in F. specialize (F _ (nth_error_In _ _ E')). unfold pairb in F. cbn [fst snd] in F. rewrite String.eqb_refl in F.
  apply andb_true_iff in F as (F1 & F2). apply Z.eqb_eq in F1. apply eqb_prop in F2. assert (J : differs n vs vs' <-> In s disputed) by (rewrite <- differsb_iff, F2; apply namedb_iff).
  split; [exact F1|]. split; [exact J|]. intros N D D' He He'.
  refine (both_near vs vs' _ _ C C' _ _ dep dep' c c' t adjs adjs' e e' D (refs_known _ _ _ _ _ E) He D' (refs_known _ _ _ _ _ E') He').
  intros k K1 K2 K3. unfold val. apply in_thousands.
  destruct (Z.le_gt_cases (Z.abs (nth (Z.to_nat (k - 3)) vs 0%Z - nth (Z.to_nat (k - 3)) vs' 0%Z)) (200000 * n)) as [L|L]; [exact L|]. exfalso. apply N, J.
  exists (Z.to_nat (k - 3)), (nth (Z.to_nat (k - 3)) vs 0%Z), (nth (Z.to_nat (k - 3)) vs' 0%Z). split; [apply nth_error_nth'; lia|]. split; [apply nth_error_nth'; lia|lia].
Qed.

Definition by_place (a b : Q) : chem := {| elems := fun _ => [0; 1]; amt := fun _ e => if Nat.eqb e 0 then a else b; red := fun c => c; fac := fun _ => 1%Q |}.
Lemma bismuth_jumps : exists C c vs e e', nth_error freed_table (red C c) = Some ("Bi2S3", 5%Z, vs) /\
  exp_init C (table_refs freed_table) (fun _ => false) c (PInt 1800) [] = Ok e /\ exp_init C (table_refs freed_table) (fun _ => false) c (PInt 1900) [] = Ok e' /\ (17 < xe_base e' - xe_base e)%Q.
Proof. exists (by_place 2 3), 208. eexists. eexists. eexists. split; [vm_compute; reflexivity|]. split; [vm_compute; reflexivity|]. split; [vm_compute; reflexivity|]. vm_compute. reflexivity. Qed.
Lemma strontium_disputed : exists C c c' vs vs' e e', nth_error nist_table (red C c) = Some ("SrO", 2%Z, vs) /\ nth_error freed_table (red C c') = Some ("SrO", 2%Z, vs') /\
  exp_init C (table_refs nist_table) (fun _ => false) c (PInt 2000) [] = Ok e /\ exp_init C (table_refs freed_table) (fun _ => false) c' (PInt 2000) [] = Ok e' /\ ((27 # 10) < xe_base e' - xe_base e)%Q.
Proof. exists (by_place 1 1), 616, 1383. eexists. eexists. eexists. eexists. split; [vm_compute; reflexivity|]. split; [vm_compute; reflexivity|]. split; [vm_compute; reflexivity|]. split; [vm_compute; reflexivity|]. vm_compute. reflexivity. Qed.
Lemma carbon_dioxide : exists vs vs' e e' e'', nth_error nist_table 163 = Some ("CO2", 3%Z, vs) /\ nth_error freed_table 251 = Some ("CO2", 3%Z, vs') /\ ~ In "CO2" nist_jumps /\ ~ In "CO2" disputed /\
  exp_init (by_place 1 2) (table_refs nist_table) (fun _ => false) 163 (PInt 350) [] = Ok e /\ exp_init (by_place 1 2) (table_refs nist_table) (fun _ => false) 163 (PInt 450) [] = Ok e' /\ exp_init (by_place 1 2) (table_refs freed_table) (fun _ => false) 251 (PInt 350) [] = Ok e'' /\
  ~ (xe_base e == xe_base e')%Q /\ ~ (xe_base e == xe_base e'')%Q.
Proof.
  eexists. eexists. eexists. eexists. eexists. split; [vm_compute; reflexivity|]. split; [vm_compute; reflexivity|].
  split; [rewrite <- namedb_iff; vm_compute; discriminate|]. split; [rewrite <- namedb_iff; vm_compute; discriminate|].
  split; [vm_compute; reflexivity|]. split; [vm_compute; reflexivity|]. split; [vm_compute; reflexivity|]. split; vm_compute; discriminate.
Qed.
