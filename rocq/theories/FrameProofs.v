(* Proofs about the table of a reaction set. *)
From Coq Require Import String Sorted.
From Verif Require Import Prelude NumQ ListFacts ReactionModel ReactionBaseProofs RxnSetModel RxnSetSpec RxnSetBaseProofs FrameModel FrameSpec.
Local Open Scope string_scope.
Open Scope nat_scope.
Open Scope list_scope.

(* --- columns --- *)
Lemma put_new k d : ~ In k (map fst d) -> put k d = d ++ [(k, [])].
Proof.
  induction d as [|[k' v] d IH]; intros H; [reflexivity|]. cbn [put]. destruct (String.eqb_spec k k') as [->|N]; [exfalso; apply H; left; reflexivity|].
  rewrite IH; [reflexivity|]. intros I. apply H. right. exact I.
Qed.
Lemma put_all ks d : NoDup (map fst d ++ ks) -> fold_left (fun d k => put k d) ks d = d ++ map (fun k => (k, [])) ks.
Proof.
  revert d. induction ks as [|k ks IH]; intros d N; cbn [fold_left map]; [rewrite app_nil_r; reflexivity|].
  rewrite put_new; [|intros I; apply NoDup_remove_2 in N; apply N; apply in_or_app; left; exact I].
  rewrite IH; [rewrite <- app_assoc; reflexivity|]. rewrite map_app. cbn. rewrite <- app_assoc. exact N.
Qed.

(* --- appending --- *)
Definition add_to (k : string) (c : list cell) (kc : string * list cell) : string * list cell :=
  if String.eqb k (fst kc) then (fst kc, snd kc ++ c) else kc.
Lemma add_to_fst k c kc : fst (add_to k c kc) = fst kc.
Proof. unfold add_to. destruct (String.eqb k (fst kc)); reflexivity. Qed.
Lemma add_to_other k c d : ~ In k (map fst d) -> map (add_to k c) d = d.
Proof.
  induction d as [|[k' v] d IH]; intros H; [reflexivity|]. cbn [map]. unfold add_to at 1. cbn [fst snd]. destruct (String.eqb_spec k k') as [->|N].
  - exfalso. apply H. left. reflexivity.
  - rewrite IH; [reflexivity|]. intros I. apply H. right. exact I.
Qed.
Lemma append_in k c d : NoDup (map fst d) -> In k (map fst d) -> append k c d = Ok (map (add_to k [c]) d).
Proof.
  induction d as [|[k' v] d IH]; intros N H; [destruct H|]. cbn [append map]. cbn [map fst] in N. inversion N as [|? ? N1 N2]; subst. unfold add_to at 1. cbn [fst snd].
  destruct (String.eqb_spec k k') as [->|NE]; [rewrite add_to_other; [reflexivity|exact N1]|].
  destruct H as [H|H]; [symmetry in H; contradiction|]. rewrite (IH N2 H). reflexivity.
Qed.
Lemma append_out k c d : ~ In k (map fst d) -> append k c d = Err KeyError.
Proof.
  induction d as [|[k' v] d IH]; intros H; [reflexivity|]. cbn [append]. destruct (String.eqb_spec k k') as [->|NE]; [exfalso; apply H; left; reflexivity|].
  rewrite IH; [reflexivity|]. intros I. apply H. right. exact I.
Qed.

Fixpoint picked (k : string) (cells : list (string * result cell)) : list cell :=
  match cells with
  | [] => []
  | (k', Ok v) :: rest => if String.eqb k' k then v :: picked k rest else picked k rest
  | (_, Err _) :: rest => picked k rest
  end.
Definition good (keys : list string) (cells : list (string * result cell)) : Prop :=
  forall k c, In (k, c) cells -> In k keys /\ exists v, c = Ok v.

Lemma append_row_ok cells d : NoDup (map fst d) -> good (map fst d) cells ->
  append_row cells d = Ok (map (fun kc => (fst kc, snd kc ++ picked (fst kc) cells)) d).
Proof.
  revert d. induction cells as [|[k c] cells IH]; intros d N G; cbn [append_row picked].
  - f_equal. rewrite <- (map_id d) at 1. apply map_ext. intros [? ?]. cbn. rewrite app_nil_r. reflexivity.
  - destruct (G k c (or_introl eq_refl)) as (I & v & ->). cbn [bind]. rewrite (append_in k v d N I). cbn [bind].
    assert (M : map fst (map (add_to k [v]) d) = map fst d) by (rewrite map_map; apply map_ext; intros; apply add_to_fst).
    rewrite IH; [|rewrite M; exact N|rewrite M; intros ? ? H; apply (G _ _ (or_intror H))]. f_equal. rewrite map_map. apply map_ext. intros [k' w].
    unfold add_to. cbn [fst snd]. destruct (String.eqb k k'); cbn [fst snd]; [rewrite <- app_assoc|]; reflexivity.
Qed.
Lemma append_row_good cells d d' : NoDup (map fst d) -> append_row cells d = Ok d' -> good (map fst d) cells.
Proof.
  revert d. induction cells as [|[k c] cells IH]; intros d N H; [intros ? ? []|]. cbn [append_row] in H. destruct c as [v|e]; [|discriminate H]. cbn [bind] in H.
  destruct (in_dec string_dec k (map fst d)) as [I|I]; [|rewrite append_out in H by exact I; discriminate H]. rewrite (append_in k v d N I) in H. cbn [bind] in H.
  assert (M : map fst (map (add_to k [v]) d) = map fst d) by (rewrite map_map; apply map_ext; intros; apply add_to_fst).
  apply IH in H; [|rewrite M; exact N]. rewrite M in H. intros k' c' [E|I']; [inversion E; subst; split; [exact I|exists v; reflexivity]|exact (H k' c' I')].
Qed.

Definition filled (rows : list (list (string * result cell))) (d : frame) : frame :=
  map (fun kc => (fst kc, snd kc ++ flat_map (picked (fst kc)) rows)) d.
Lemma filled_keys rows d : map fst (filled rows d) = map fst d.
Proof. unfold filled. rewrite map_map. apply map_ext. reflexivity. Qed.
Lemma append_rows_ok rows d : NoDup (map fst d) -> (forall cells, In cells rows -> good (map fst d) cells) -> append_rows rows d = Ok (filled rows d).
Proof.
  revert d. induction rows as [|cells rows IH]; intros d N G; cbn [append_rows].
  - f_equal. unfold filled. rewrite <- (map_id d) at 1. apply map_ext. intros [? ?]. cbn. rewrite app_nil_r. reflexivity.
  - rewrite (append_row_ok cells d N (G _ (or_introl eq_refl))). cbn [bind].
    assert (M : map fst (map (fun kc : string * list cell => (fst kc, snd kc ++ picked (fst kc) cells)) d) = map fst d) by (rewrite map_map; apply map_ext; reflexivity).
    rewrite IH; [|rewrite M; exact N|rewrite M; intros c Hc; apply G; right; exact Hc]. f_equal. unfold filled. rewrite map_map. apply map_ext. intros [k v]. cbn [fst snd flat_map].
    rewrite <- app_assoc. reflexivity.
Qed.
Lemma append_rows_good rows d d' : NoDup (map fst d) -> append_rows rows d = Ok d' -> forall cells, In cells rows -> good (map fst d) cells.
Proof.
  revert d. induction rows as [|cells rows IH]; intros d N H c Hc; [destruct Hc|]. cbn [append_rows] in H. destruct (append_row cells d) as [d1|] eqn:E; [|discriminate H]. cbn [bind] in H.
  pose proof (append_row_good _ _ _ N E) as G. rewrite (append_row_ok cells d N G) in E. inversion E; subst d1. clear E.
  assert (M : map fst (map (fun kc : string * list cell => (fst kc, snd kc ++ picked (fst kc) cells)) d) = map fst d) by (rewrite map_map; apply map_ext; reflexivity).
  destruct Hc as [<-|Hc]; [exact G|]. rewrite <- M. apply (IH _ ltac:(rewrite M; exact N) H c Hc).
Qed.

Lemma picked_none k cells : ~ In k (map fst cells) -> picked k cells = [].
Proof.
  induction cells as [|[k' [v|e]] cells IH]; intros H; [reflexivity| |]; cbn [picked].
  - destruct (String.eqb_spec k' k) as [->|N]; [exfalso; apply H; left; reflexivity|]. apply IH. intros I. apply H. right. exact I.
  - apply IH. intros I. apply H. right. exact I.
Qed.
Lemma picked_one keys k cells : NoDup (map fst cells) -> good keys cells -> In k (map fst cells) -> exists v, picked k cells = [v] /\ In (k, Ok v) cells.
Proof.
  induction cells as [|[k' c] cells IH]; intros N G H; [destruct H|]. cbn [map fst] in N. inversion N as [|? ? N1 N2]; subst.
  destruct (G k' c (or_introl eq_refl)) as (_ & v & ->). cbn [picked]. destruct (String.eqb_spec k' k) as [->|NE].
  - exists v. split; [rewrite picked_none by exact N1; reflexivity|left; reflexivity].
  - destruct H as [H|H]; [contradiction|]. destruct (IH N2 (fun a b I => G a b (or_intror I)) H) as (w & E & I). exists w. split; [exact E|right; exact I].
Qed.

(* --- small facts --- *)
Lemma remove_first_In k l x : NoDup l -> (In x (remove_first k l) <-> In x l /\ x <> k).
Proof.
  induction l as [|y l IH]; intros N; cbn [remove_first]; [cbn; tauto|]. inversion N as [|? ? N1 N2]; subst. specialize (IH N2). destruct (String.eqb_spec y k) as [->|NE].
  - split; [intros H; split; [right; exact H|intros ->; contradiction]|]. intros [[H|H] D]; [symmetry in H; contradiction|exact H].
  - cbn [In]. rewrite IH. split; [intros [->|[H D]]; [split; [left; reflexivity|exact NE]|split; [right; exact H|exact D]]|]. intros [[->|H] D]; [left; reflexivity|right; split; assumption].
Qed.
Lemma remove_first_NoDup k l : NoDup l -> NoDup (remove_first k l).
Proof.
  induction l as [|y l IH]; intros N; cbn [remove_first]; [constructor|]. inversion N as [|? ? N1 N2]; subst. destruct (String.eqb y k); [exact N2|]. constructor; [|apply IH; exact N2].
  intros H. apply (remove_first_In k l y N2) in H. apply N1. apply H.
Qed.

Lemma maxQ_from l x : let m := fold_left (fun m y => if Qlt_bool m y then y else m) l x in (In m (x :: l)) /\ (forall y, In y (x :: l) -> (y <= m)%Q).
Proof.
  revert x. induction l as [|z l IH]; intros x; cbn [fold_left].
  - split; [left; reflexivity|]. intros y [<-|[]]. apply Qle_refl.
  - destruct (Qlt_bool x z) eqn:E.
    + destruct (IH z) as [I B]. split; [destruct I as [<-|I]; [right; left; reflexivity|right; right; exact I]|]. apply Qlt_bool_iff' in E.
      intros y [<-|H]; [apply Qle_trans with z; [apply Qlt_le_weak; exact E|apply B; left; reflexivity]|apply B; exact H].
    + destruct (IH x) as [I B]. split; [destruct I as [<-|I]; [left; reflexivity|right; right; exact I]|].
      intros y [<-|[<-|H]]; [apply B; left; reflexivity| |apply B; right; exact H]. apply Qle_trans with x; [|apply B; left; reflexivity].
      apply Qnot_lt_le. intros L. apply Qlt_bool_iff' in L. congruence.
Qed.
Lemma maxQ_spec {A} (f : A -> Q) l q : maxQ (map f l) = Ok q -> greatest f l q.
Proof.
  destruct l as [|x l]; [discriminate|]. cbn [map maxQ]. intros E. inversion E as [E']. clear E E'. destruct (maxQ_from (map f l) (f x)) as [I B]. split.
  - change (f x :: map f l) with (map f (x :: l)) in I. apply in_map_iff in I as (y & Ey & Iy). exists y. split; assumption.
  - intros y Iy. apply B. change (f x :: map f l) with (map f (x :: l)). apply in_map. exact Iy.
Qed.
Lemma maxN_from l x : let m := fold_left (fun m y => if Nat.ltb m y then y else m) l x in In m (x :: l) /\ forall y, In y (x :: l) -> y <= m.
Proof.
  revert x. induction l as [|z l IH]; intros x; cbn [fold_left].
  - split; [left; reflexivity|]. intros y [<-|[]]. lia.
  - destruct (Nat.ltb_spec x z) as [L|L].
    + destruct (IH z) as [I B]. split; [destruct I as [<-|I]; [right; left; reflexivity|right; right; exact I]|].
      intros y [<-|H]; [pose proof (B z (or_introl eq_refl)); lia|apply B; exact H].
    + destruct (IH x) as [I B]. split; [destruct I as [<-|I]; [left; reflexivity|right; right; exact I]|].
      intros y [<-|[<-|H]]; [apply B; left; reflexivity|pose proof (B x (or_introl eq_refl)); lia|apply B; right; exact H].
Qed.
Lemma maxN_spec l n : maxN l = Ok n -> In n l /\ forall m, In m l -> m <= n.
Proof. destruct l as [|x l]; [discriminate|]. cbn [maxN]. intros E. inversion E as [E']. apply maxN_from. Qed.

Lemma insert_el_In e l x : In x (insert_el e l) <-> x = e \/ In x l.
Proof. induction l as [|y l IH]; cbn [insert_el]; [cbn; intuition|]. destruct (Nat.leb e y); cbn [In]; [intuition|]. rewrite IH. intuition. Qed.
Lemma insert_el_sorted e l : StronglySorted lt l -> ~ In e l -> StronglySorted lt (insert_el e l).
Proof.
  induction 1 as [|y l S IH F]; intros H; cbn [insert_el]; [repeat constructor|]. rewrite Forall_forall in F. destruct (Nat.leb_spec e y) as [L|L].
  - assert (e < y) by (destruct (Nat.eq_dec e y) as [->|]; [exfalso; apply H; left; reflexivity|lia]).
    constructor; [constructor; [exact S|apply Forall_forall; exact F]|]. constructor; [assumption|]. apply Forall_forall. intros z Hz. specialize (F z Hz). lia.
  - constructor; [apply IH; intros I; apply H; right; exact I|]. apply Forall_forall. intros z Hz. apply insert_el_In in Hz as [->|Hz]; [exact L|apply F; exact Hz].
Qed.
Lemma added_spec r t : StronglySorted lt (added_elems r t) /\ forall e, In e (added_elems r t) <-> In e (f_system r) /\ ~ In e t.
Proof.
  unfold added_elems. assert (G : forall l, NoDup l -> StronglySorted lt (fold_right insert_el [] l) /\ forall e, In e (fold_right insert_el [] l) <-> In e l).
  { induction l as [|x l IH]; intros N; cbn [fold_right]; [split; [constructor|tauto]|]. inversion N as [|? ? N1 N2]; subst. destruct (IH N2) as [S M]. split.
    - apply insert_el_sorted; [exact S|]. rewrite M. exact N1.
    - intros e. rewrite insert_el_In, M. cbn. intuition. }
  destruct (G (filter (fun e => negb (memb Nat.eqb e t)) (nodup Nat.eq_dec (f_system r)))) as [S M]; [apply NoDup_filter, NoDup_nodup|]. split; [exact S|]. intros e. rewrite M, filter_In, nodup_In.
  split; intros [H1 H2]; (split; [exact H1|]).
  - intros I. apply memb_iff in I. rewrite I in H2. discriminate H2.
  - destruct (memb Nat.eqb e t) eqn:E; [|reflexivity]. apply memb_iff in E. contradiction.
Qed.

Lemma theoretical_split l : Permutation (filter (fun e => negb (f_experimental e)) l ++ filter f_experimental l) l /\ forall e, In e (filter (fun e => negb (f_experimental e)) l) -> f_experimental e = false.
Proof.
  split.
  - induction l as [|x l IH]; [constructor|]. cbn [filter]. destruct (f_experimental x); cbn [negb app]; [|constructor; exact IH]. symmetry. apply Permutation_cons_app. symmetry. exact IH.
  - intros e H. apply filter_In in H as [_ H]. destruct (f_experimental e); [discriminate H|reflexivity].
Qed.
Lemma get_datum_spec k d : NoDup (map fst d) -> (exists v, In (k, v) d /\ get_datum k d = Some v) \/ ((forall v, ~ In (k, v) d) /\ get_datum k d = None).
Proof.
  induction d as [|[k' v] d IH]; intros N; cbn [get_datum]; [right; split; [intros v []|reflexivity]|]. cbn [map fst] in N. inversion N as [|? ? N1 N2]; subst.
  destruct (String.eqb_spec k k') as [->|NE]; [left; exists v; split; [left; reflexivity|reflexivity]|].
  destruct (IH N2) as [(w & I & E)|[H E]]; [left; exists w; split; [right; exact I|exact E]|right; split; [|exact E]].
  intros w [I|I]; [inversion I; subst; contradiction|exact (H w I)].
Qed.

(* --- one row --- *)
Section Row.
Variable evaluate : frxn -> result Q.
Variable target : option (list nat).
Variables uncertainties separable hulls theoretical : bool.
Variable attrs : list string.
Hypothesis attrs_NoDup : NoDup attrs.
Hypothesis no_clash : forall a, In a attrs -> ~ In a reserved.
Notation row_of := (row evaluate target uncertainties separable hulls theoretical attrs).
Definition keys : list string := built_in target uncertainties separable hulls theoretical ++ attrs ++ ["cost"].

Lemma nodup_keys l : nodupb String.eqb l = true -> forallb (fun k => memb String.eqb k (removelast reserved)) l = true -> NoDup (l ++ attrs ++ ["cost"]).
Proof.
  intros B R. assert (N : NoDup l).
  { clear R. induction l as [|x l IH]; [constructor|]. cbn [nodupb] in B. apply andb_true_iff in B as [B1 B2]. constructor; [|apply IH; exact B2]. intros I.
    apply negb_true_iff in B1. assert (T : memb String.eqb x l = true) by (apply existsb_exists; exists x; split; [exact I|apply String.eqb_refl]). congruence. }
  assert (R' : forall k, In k l -> In k reserved /\ k <> "cost").
  { intros k I. rewrite forallb_forall in R. specialize (R k I). apply existsb_exists in R as (k' & I' & E). apply String.eqb_eq in E. subst k'. clear -I'. split.
    - change reserved with (removelast reserved ++ ["cost"]). apply in_or_app. left. exact I'.
    - intros ->. assert (F : memb String.eqb "cost" (removelast reserved) = true) by (apply existsb_exists; exists "cost"; split; [exact I'|reflexivity]). vm_compute in F. discriminate F. }
  assert (N2 : NoDup (attrs ++ ["cost"])).
  { apply (Permutation_NoDup (Permutation_app_comm ["cost"] attrs)). constructor; [|exact attrs_NoDup]. intros I. apply (no_clash _ I). change reserved with (removelast reserved ++ ["cost"]). apply in_or_app. right. left. reflexivity. }
  clear B R. induction N as [|x l Hx N IH]; [exact N2|]. cbn [app]. constructor; [|apply IH; intros k I; apply R'; right; exact I].
  intros I. apply in_app_or in I as [I|I]; [contradiction|]. destruct (R' x (or_introl eq_refl)) as [R1 R2]. apply in_app_or in I as [I|[I|[]]]; [exact (no_clash _ I R1)|congruence].
Qed.
Lemma map_if {A B} (f : A -> B) (b : bool) l : map f (if b then l else []) = if b then map f l else [].
Proof. destruct b; reflexivity. Qed.
Definition row_names : list string :=
  ["rxn"; "energy"]
  ++ (if uncertainties then ["dE"] else [])
  ++ (match target with Some _ => "added_elems" :: (if separable then ["separable"] else []) | None => [] end)
  ++ (if hulls then ["max_e_hull_reactants"; "max_e_hull_products"] else [])
  ++ (if theoretical then ["num_theoretical_reactants"; "num_theoretical_products"] else [])
  ++ ["max_num_precursor_elems"].
Lemma row_keys r : map fst (row_of r) = row_names ++ attrs ++ ["cost"] /\ NoDup (map fst (row_of r))
  /\ (forall k, In k row_names <-> In k (built_in target uncertainties separable hulls theoretical)).
Proof.
  assert (E : map fst (row_of r) = row_names ++ attrs ++ ["cost"]).
  { unfold row, row_names. rewrite !map_app, !map_if, map_map. cbn [fst]. rewrite map_id, <- !app_assoc. destruct target; cbn [map fst]; [rewrite map_if|]; reflexivity. }
  split; [exact E|]. split.
  - rewrite E. apply nodup_keys; unfold row_names; destruct target, uncertainties, separable, hulls, theoretical; vm_compute; reflexivity.
  - intros k. unfold row_names, built_in. rewrite !in_app_iff. tauto.
Qed.
Lemma keys_NoDup : NoDup keys.
Proof. unfold keys. apply nodup_keys; unfold built_in; destruct target, uncertainties, separable, hulls, theoretical; vm_compute; reflexivity. Qed.

Ltac just := unfold describes; repeat match goal with |- _ /\ _ => split end; intros Hk; try discriminate Hk;
  try (exfalso; apply Hk; cbn [In reserved]; tauto).
Lemma row_describes r k v : NoDup (map fst (f_data r)) -> In (k, Ok v) (row_of r) -> describes evaluate target r k v.
Proof.
  intros ND H. unfold row in H. apply in_app_or in H as [H|H].
  { destruct H as [H|[H|[]]].
    - inversion H; subst. just. reflexivity.
    - inversion H as [[E1 E2]]; subst. destruct (f_energy r) as [q|] eqn:E; [|discriminate E2]. cbn [bind] in E2. inversion E2; subst. just. exists q. split; [exact E|reflexivity]. }
  apply in_app_or in H as [H|H].
  { destruct uncertainties; [|destruct H]. destruct H as [H|[]]. inversion H as [[E1 E2]]; subst. destruct (f_uncertainty r) as [q|] eqn:E; [|discriminate E2]. cbn [bind] in E2. inversion E2; subst.
    just. exists q. split; [exact E|reflexivity]. }
  apply in_app_or in H as [H|H].
  { destruct target as [t|]; [|destruct H]. destruct H as [H|H].
    - inversion H; subst. just. exists t, (added_elems r t). destruct (added_spec r t). repeat split; auto; apply H1; auto.
    - destruct separable; [|destruct H]. destruct H as [H|[]]. inversion H as [[E1 E2]]; subst. destruct (f_separable r) as [q|] eqn:E; [|discriminate E2]. cbn [bind] in E2. inversion E2; subst.
      just. exists q. split; [exact E|reflexivity]. }
  apply in_app_or in H as [H|H].
  { destruct hulls; [|destruct H]. destruct H as [H|[H|[]]]; inversion H as [[E1 E2]]; subst.
    - destruct (maxQ _) as [q|] eqn:E in E2; [|discriminate E2]. cbn [bind] in E2. inversion E2; subst. just. exists q. split; [reflexivity|]. exact (maxQ_spec above _ _ E).
    - destruct (maxQ _) as [q|] eqn:E in E2; [|discriminate E2]. cbn [bind] in E2. inversion E2; subst. just. exists q. split; [reflexivity|]. exact (maxQ_spec above _ _ E). }
  apply in_app_or in H as [H|H].
  { destruct theoretical; [|destruct H]. destruct H as [H|[H|[]]]; inversion H as [[E1 E2]]; subst; just;
      (eexists; split; [apply theoretical_split|split; [apply theoretical_split|reflexivity]]). }
  apply in_app_or in H as [H|H].
  { destruct H as [H|[]]. inversion H as [[E1 E2]]; subst. destruct (maxN _) as [q|] eqn:E in E2; [|discriminate E2]. cbn [bind] in E2. inversion E2; subst. just. exists q. split; [reflexivity|]. exact (maxN_spec _ _ E). }
  apply in_app_or in H as [H|H].
  { apply in_map_iff in H as (a & E & I). inversion E; subst. pose proof (no_clash _ I) as NC. unfold describes.
    repeat match goal with |- (k = _ -> _) /\ _ => split; [intros ->; exfalso; apply NC; cbn [In reserved]; tauto|] end. intros _.
    destruct (get_datum_spec k (f_data r) ND) as [(w & I' & E')|[H' E']]; rewrite E'; [left; exists w; split; [exact I'|reflexivity]|right; split; [exact H'|reflexivity]]. }
  destruct H as [H|[]]. inversion H as [[E1 E2]]; subst. destruct (evaluate r) as [q|] eqn:E; [|discriminate E2]. cbn [bind] in E2. inversion E2; subst. just. exists q. split; [exact E|reflexivity].
Qed.
End Row.

(* --- sorting --- *)
Lemma take_all {A} (l : list A) perm : Permutation perm (seq 0 (length l)) -> exists o, mapM (index l) perm = Ok o /\ Permutation o l.
Proof.
  intros P. destruct l as [|a l]; [apply Permutation_sym, Permutation_nil in P; subst; exists []; split; [reflexivity|constructor]|].
  set (xs := a :: l) in *. exists (map (fun i => nth i xs a) perm). split.
  - assert (B : forall i, In i perm -> i < length xs) by (intros i I; apply (Permutation_in _ P), in_seq in I; lia). clear P. induction perm as [|i perm IH]; [reflexivity|]. cbn [mapM map]. unfold index at 1.
    rewrite (nth_error_nth' xs a (B i (or_introl eq_refl))). rewrite IH by (intros j J; apply B; right; exact J). reflexivity.
  - rewrite P. replace (map (fun i => nth i xs a) (seq 0 (length xs))) with xs; [reflexivity|]. clear P. clearbody xs.
    induction xs as [|x xs IH]; [reflexivity|]. cbn [length seq map]. rewrite <- seq_shift, map_map. cbn [nth]. rewrite <- IH. reflexivity.
Qed.
Lemma take_Forall2 {A B} (R : A -> B -> Prop) l1 l2 perm o : Forall2 R l1 l2 -> mapM (index l1) perm = Ok o -> exists o2, mapM (index l2) perm = Ok o2 /\ Forall2 R o o2.
Proof.
  intros F. revert o. induction perm as [|i perm IH]; intros o H; cbn [mapM] in *; [inversion H; exists []; split; [reflexivity|constructor]|].
  unfold index in H at 1. destruct (nth_error l1 i) as [a|] eqn:E; [|discriminate H]. destruct (mapM (index l1) perm) as [o'|]; [|discriminate H]. inversion H; subst. destruct (IH o' eq_refl) as (o2 & E2 & F2).
  assert (X : exists b, nth_error l2 i = Some b /\ R a b).
  { clear -F E. revert i E. induction F as [|x y l1 l2 Rxy F IH]; intros i E; destruct i; cbn in *; try discriminate E; [inversion E; subst; exists y; split; [reflexivity|exact Rxy]|apply IH; exact E]. }
  destruct X as (b & Eb & Rb). exists (b :: o2). unfold index at 1. rewrite Eb, E2. split; [reflexivity|constructor; assumption].
Qed.
Lemma take_nth (l : list Q) perm o : mapM (index l) perm = Ok o -> o = map (fun i => nth i l 0%Q) perm.
Proof.
  revert o. induction perm as [|i perm IH]; intros o H; cbn [mapM map] in *; [inversion H; reflexivity|]. unfold index in H at 1. destruct (nth_error l i) as [a|] eqn:E; [|discriminate H].
  destruct (mapM (index l) perm) as [o'|]; [|discriminate H]. inversion H; subst. rewrite (IH o' eq_refl). f_equal. symmetry. apply nth_error_nth. exact E.
Qed.
Lemma sorted_cheaper evaluate order costs : Forall2 (fun r q => evaluate r = Ok q) order costs -> StronglySorted Qle costs -> StronglySorted (cheaper evaluate) order.
Proof.
  induction 1 as [|r q order costs E F IH]; intros S; constructor; inversion S as [|? ? S1 S2]; subst; [apply IH; exact S1|]. rewrite Forall_forall in S2. apply Forall_forall. intros r' I.
  destruct (Forall2_In_l _ _ _ _ F I) as (q' & I' & E'). exists q, q'. split; [exact E|split; [exact E'|apply S2; exact I']].
Qed.

Section Table.
Variable evaluate : frxn -> result Q.
Variable target : option (list nat).
Variables uncertainties separable : bool.
Variable argsort : list Q -> list nat.
Hypothesis argsort_orders : orders argsort.
Variable rxns : list frxn.
Hypothesis data_dicts : forall r, In r rxns -> NoDup (map fst (f_data r)).
Hypothesis no_clash : forall k, attribute rxns k -> ~ In k reserved.

Lemma look_spec attrs hulls theoretical : first_look rxns = Ok (attrs, hulls, theoretical) ->
  (hulls = true <-> shows_hulls rxns) /\ (theoretical = true <-> shows_origin rxns) /\ NoDup attrs
  /\ forall k, In k (remove_first "num_constraints" attrs) <-> attribute rxns k.
Proof.
  destruct rxns as [|r rest] eqn:ER; cbn [first_look].
  - intros E. inversion E; subst. repeat split; try (intros H; discriminate H); try (intros (? & ? & ? & ? & ? & X & _); discriminate X); try (intros (? & ? & ? & ? & X & _); discriminate X); try constructor.
    + intros [].
    + intros (? & ? & ? & X & _). discriminate X.
  - unfold index. destruct (f_entries r) as [|e es] eqn:EE; [discriminate|]. cbn [nth_error bind]. intros E. inversion E; subst attrs hulls theoretical. clear E.
    assert (N : NoDup (map fst (f_data r))) by (apply data_dicts; left; reflexivity). repeat split.
    + intros H. destruct (f_hull e) as [q|] eqn:EH; [|discriminate H]. exists r, rest, e, es, q. auto.
    + intros (r' & rest' & e' & es' & q & X & Y & Z). inversion X; subst. rewrite EE in Y. inversion Y; subst. rewrite Z. reflexivity.
    + intros H. exists r, rest, e, es. auto.
    + intros (r' & rest' & e' & es' & X & Y & Z). inversion X; subst. rewrite EE in Y. inversion Y; subst. exact Z.
    + exact N.
    + intros H. apply remove_first_In in H as [H D]; [|exact N]. apply in_map_iff in H as ([k' v] & EK & I). cbn in EK. subst k'. exists r, rest, v. auto.
    + intros (r' & rest' & v & X & I & D). inversion X; subst. apply remove_first_In; [exact N|]. split; [apply in_map_iff; exists (k, v); auto|exact D].
Qed.

Lemma In_if {A} (k : A) (b : bool) l : In k (if b then l else []) <-> In k l /\ b = true.
Proof. destruct b; cbn [In]; [tauto|]. split; [intros []|intros [_ X]; discriminate X]. Qed.
Lemma In_match {A B} (k : A) (t : option B) a (b : bool) l : In k (match t with Some _ => a :: (if b then l else []) | None => [] end) <-> (In k [a] /\ t <> None) \/ (In k l /\ t <> None /\ b = true).
Proof.
  destruct t; [assert (T : Some b0 <> None) by discriminate; destruct b; cbn [In]; [|assert (F : false <> true) by discriminate]; tauto|]. cbn [In]. tauto.
Qed.
Lemma In_four {A} (k a b c d : A) : In k [a; b; c; d] <-> In k [a; b] \/ In k [c] \/ In k [d].
Proof. cbn. tauto. Qed.
Lemma keys_shown attrs hulls theoretical k : (hulls = true <-> shows_hulls rxns) -> (theoretical = true <-> shows_origin rxns) -> (In k attrs <-> attribute rxns k) ->
  (In k (keys target uncertainties separable hulls theoretical attrs) <-> shown target uncertainties separable rxns k).
Proof.
  intros H1 H2 H3. unfold keys, shown. rewrite !in_app_iff, H3, <- H1, <- H2. unfold built_in.
  rewrite !in_app_iff, !In_if, In_match, (In_four k). tauto.
Qed.

Lemma table_rows d : to_dataframe evaluate target uncertainties separable argsort rxns = Ok d ->
  exists order, Permutation order rxns /\ StronglySorted (cheaper evaluate) order /\ NoDup (map fst d)
  /\ (forall k, In k (map fst d) <-> shown target uncertainties separable rxns k)
  /\ forall k col, In (k, col) d -> Forall2 (fun r c => describes evaluate target r k c) order col.
Proof.
  unfold to_dataframe. destruct (first_look rxns) as [[[attrs hulls] theoretical]|] eqn:EL; [|discriminate]. cbn [bind]. destruct (look_spec _ _ _ EL) as (L1 & L2 & L3 & L4). clear EL.
  apply (remove_first_NoDup "num_constraints") in L3. set (as' := remove_first "num_constraints" attrs) in *. clearbody as'. clear attrs.
  assert (NC : forall a, In a as' -> ~ In a reserved) by (intros a Ha; apply no_clash, L4, Ha).
  pose proof (keys_NoDup target uncertainties separable hulls theoretical as' L3 NC) as NK. set (ks := keys target uncertainties separable hulls theoretical as') in *.
  assert (EC : columns target uncertainties separable hulls theoretical as' = map (fun k => (k, [])) ks) by (unfold columns; rewrite put_all; [reflexivity|exact NK]).
  rewrite EC. clear EC. set (d0 := map (fun k : string => (k, @nil cell)) ks). assert (M0 : map fst d0 = ks) by (unfold d0; rewrite map_map; apply map_id).
  set (rows := map (row evaluate target uncertainties separable hulls theoretical as') rxns). destruct (append_rows rows d0) as [d1|] eqn:E1; [|discriminate]. cbn [bind].
  assert (N0 : NoDup (map fst d0)) by (rewrite M0; exact NK). pose proof (append_rows_good rows d0 d1 N0 E1) as G. rewrite (append_rows_ok rows d0 N0 G) in E1. assert (Ed : d1 = filled rows d0) by congruence. rewrite Ed. clear Ed E1 d1.
  assert (D1 : filled rows d0 = map (fun k => (k, flat_map (picked k) rows)) ks) by (unfold filled, d0; rewrite map_map; reflexivity). rewrite D1. clear D1. rewrite M0 in G. clear N0 M0. clear d0.
  assert (C : forall k, In k ks -> Forall2 (fun r c => describes evaluate target r k c) rxns (flat_map (picked k) rows)).
  { intros k Hk. unfold rows in *. assert (DD : forall r, In r rxns -> NoDup (map fst (f_data r))) by exact data_dicts. clear -L3 NC Hk G DD. induction rxns as [|r rs IH]; [constructor|]. cbn [map flat_map].
    destruct (row_keys evaluate target uncertainties separable hulls theoretical as' L3 NC r) as (E & ND & Hl).
    destruct (picked_one ks k (row evaluate target uncertainties separable hulls theoretical as' r) ND (G _ (or_introl eq_refl))) as (v & Ev & Iv).
    { rewrite E. unfold ks, keys in Hk. rewrite in_app_iff in *. rewrite Hl. exact Hk. }
    rewrite Ev. constructor; [|apply IH; [intros c Hc; apply G; right; exact Hc|intros r' Hr; apply DD; right; exact Hr]].
    apply (row_describes evaluate target uncertainties separable hulls theoretical as' NC); [apply DD; left; reflexivity|exact Iv]. }
  unfold sorted_frame. set (d1 := map (fun k => (k, flat_map (picked k) rows)) ks) in *.
  destruct (same_lengths d1); [|discriminate].
  assert (CC : column "cost" d1 = Ok (flat_map (picked "cost") rows)).
  { assert (I : In "cost" ks) by (unfold ks, keys; rewrite !in_app_iff; right; right; left; reflexivity). unfold d1. clear -I. induction ks as [|k ks IH]; [destruct I|]. cbn [map column].
    destruct (String.eqb_spec "cost" k) as [<-|N]; [reflexivity|]. apply IH. destruct I as [I|I]; [symmetry in I; contradiction|exact I]. }
  rewrite CC. cbn [bind]. assert (Icost : In "cost" ks) by (unfold ks, keys; rewrite !in_app_iff; right; right; left; reflexivity). pose proof (C _ Icost) as FC.
  assert (X : exists costs, mapM as_num (flat_map (picked "cost") rows) = Ok costs /\ Forall2 (fun r q => evaluate r = Ok q) rxns costs).
  { clear -FC. induction FC as [|r c rs cs D F IH]; [exists []; split; [reflexivity|constructor]|]. destruct IH as (costs & E & F'). cbn [mapM].
    destruct D as (_ & _ & _ & _ & _ & _ & _ & _ & _ & _ & D & _). destruct (D eq_refl) as (q & Eq & ->). exists (q :: costs). cbn [as_num]. rewrite E. split; [reflexivity|constructor; assumption]. }
  destruct X as (costs & EX & FX). rewrite EX. cbn [bind]. intros H. destruct (argsort_orders costs) as [P S]. pose proof FX as LX. apply Forall2_length in LX. rewrite <- LX in P.
  destruct (take_all rxns (argsort costs) P) as (order & EO & PO). exists order. split; [exact PO|]. split.
  { destruct (take_Forall2 _ _ _ _ _ FX EO) as (cs & Ec & Fc). apply (sorted_cheaper evaluate order cs Fc). rewrite (take_nth _ _ _ Ec). exact S. }
  assert (Y : d = map (fun k => (k, match mapM (index (flat_map (picked k) rows)) (argsort costs) with Ok v => v | Err _ => [] end)) ks
              /\ forall k, In k ks -> exists v, mapM (index (flat_map (picked k) rows)) (argsort costs) = Ok v).
  { unfold d1 in H. clear -H. revert d H. induction ks as [|k ks IH]; intros d H; cbn [map mapM] in *; [inversion H; split; [reflexivity|intros ? []]|]. cbn [fst snd] in H.
    destruct (mapM (index (flat_map (picked k) rows)) (argsort costs)) as [v|] eqn:E; [|discriminate H]. cbn [bind] in H.
    match type of H with match ?m with _ => _ end = _ => destruct m as [d'|]; [|discriminate H] end. inversion H; subst. destruct (IH d' eq_refl) as [-> IH']. split; [reflexivity|].
    intros k' [<-|I]; [exists v; exact E|apply IH'; exact I]. }
  destruct Y as [-> Y]. assert (MK : map fst (map (fun k => (k, match mapM (index (flat_map (picked k) rows)) (argsort costs) with Ok v => v | Err _ => [] end)) ks) = ks) by (rewrite map_map; apply map_id).
  rewrite MK. split; [exact NK|]. split.
  - intros k. apply keys_shown; [exact L1|exact L2|apply L4].
  - intros k col I. apply in_map_iff in I as (k' & E & Ik). inversion E; subst k'. destruct (Y k Ik) as (v & Ev). rewrite Ev in *. subst col. destruct (take_Forall2 _ _ _ _ _ (C k Ik) EO) as (o2 & E2 & F2). rewrite Ev in E2. inversion E2; subst. exact F2.
Qed.

Notation can_fill := (fillable evaluate target uncertainties separable rxns).
Lemma maxQ_some l : l <> [] -> exists q, maxQ l = Ok q.
Proof. destruct l; [congruence|]. intros _. eexists. reflexivity. Qed.
Lemma row_good attrs hulls theoretical r : can_fill -> (hulls = true <-> shows_hulls rxns) -> In r rxns ->
  forall k c, In (k, c) (row evaluate target uncertainties separable hulls theoretical attrs r) -> exists v, c = Ok v.
Proof.
  intros CF HH Hr k c H. destruct (CF r Hr) as ((q1 & E1) & (q2 & E2) & P & U & Se & Hu). unfold row in H. apply in_app_or in H as [H|H].
  { destruct H as [H|[H|[]]]; inversion H; subst; [eexists; reflexivity|]. rewrite E1. eexists. reflexivity. }
  apply in_app_or in H as [H|H].
  { destruct uncertainties; [|destruct H]. destruct H as [H|[]]. destruct (U eq_refl) as (q & E). inversion H; subst. rewrite E. eexists. reflexivity. }
  apply in_app_or in H as [H|H].
  { destruct target as [t|]; [|destruct H]. destruct H as [H|H]; [inversion H; subst; eexists; reflexivity|]. destruct separable; [|destruct H]. destruct H as [H|[]].
    destruct (Se ltac:(discriminate) eq_refl) as (b & E). inversion H; subst. rewrite E. eexists. reflexivity. }
  apply in_app_or in H as [H|H].
  { destruct hulls; [|destruct H]. destruct (Hu (proj1 HH eq_refl)) as [Hu1 Hu2]. destruct H as [H|[H|[]]]; inversion H; subst.
    - destruct (maxQ_some (map hull_or_zero (f_reactants r))) as (q & E); [destruct (f_reactants r); [congruence|discriminate]|]. rewrite E. eexists. reflexivity.
    - destruct (maxQ_some (map hull_or_zero (f_products r))) as (q & E); [destruct (f_products r); [congruence|discriminate]|]. rewrite E. eexists. reflexivity. }
  apply in_app_or in H as [H|H].
  { destruct theoretical; [|destruct H]. destruct H as [H|[H|[]]]; inversion H; subst; eexists; reflexivity. }
  apply in_app_or in H as [H|H].
  { destruct H as [H|[]]. inversion H; subst. destruct (f_precursors r) as [|n l]; [congruence|]. eexists. reflexivity. }
  apply in_app_or in H as [H|H].
  { apply in_map_iff in H as (a & E & I). inversion E; subst. eexists. reflexivity. }
  destruct H as [H|[]]. inversion H; subst. rewrite E2. eexists. reflexivity.
Qed.
Lemma table_total : (forall r rest, rxns = r :: rest -> f_entries r <> []) -> can_fill ->
  exists d, to_dataframe evaluate target uncertainties separable argsort rxns = Ok d.
Proof.
  intros HE CF. unfold to_dataframe. assert (X : exists look, first_look rxns = Ok look).
  { destruct rxns as [|r rest]; [eexists; reflexivity|]. cbn [first_look]. specialize (HE r rest eq_refl). destruct (f_entries r); [congruence|]. eexists. reflexivity. }
  destruct X as ([[attrs hulls] theoretical] & EL). rewrite EL. cbn [bind]. destruct (look_spec _ _ _ EL) as (L1 & L2 & L3 & L4). clear EL.
  apply (remove_first_NoDup "num_constraints") in L3. set (as' := remove_first "num_constraints" attrs) in *. clearbody as'. clear attrs.
  assert (NC : forall a, In a as' -> ~ In a reserved) by (intros a Ha; apply no_clash, L4, Ha).
  pose proof (keys_NoDup target uncertainties separable hulls theoretical as' L3 NC) as NK. set (ks := keys target uncertainties separable hulls theoretical as') in *.
  assert (EC : columns target uncertainties separable hulls theoretical as' = map (fun k => (k, [])) ks) by (unfold columns; rewrite put_all; [reflexivity|exact NK]).
  rewrite EC. clear EC. set (d0 := map (fun k : string => (k, @nil cell)) ks). assert (M0 : map fst d0 = ks) by (unfold d0; rewrite map_map; apply map_id).
  set (rows := map (row evaluate target uncertainties separable hulls theoretical as') rxns).
  assert (RK : forall r, In r rxns -> forall k, In k (map fst (row evaluate target uncertainties separable hulls theoretical as' r)) <-> In k ks).
  { intros r _ k. destruct (row_keys evaluate target uncertainties separable hulls theoretical as' L3 NC r) as (E & _ & Hl). rewrite E. unfold ks, keys. rewrite !in_app_iff, Hl. tauto. }
  assert (G : forall cells, In cells rows -> good (map fst d0) cells).
  { intros cells Hc. unfold rows in Hc. apply in_map_iff in Hc as (r & <- & Hr). intros k c I. split; [rewrite M0, <- (RK r Hr); apply in_map_iff; exists (k, c); split; [reflexivity|exact I]|].
    exact (row_good as' hulls theoretical r CF L1 Hr k c I). }
  assert (N0 : NoDup (map fst d0)) by (rewrite M0; exact NK). rewrite (append_rows_ok rows d0 N0 G). cbn [bind].
  assert (D1 : filled rows d0 = map (fun k => (k, flat_map (picked k) rows)) ks) by (unfold filled, d0; rewrite map_map; reflexivity). rewrite D1. clear D1. rewrite M0 in G. clear N0 M0. clear d0.
  assert (C : forall k, In k ks -> Forall2 (fun r c => describes evaluate target r k c) rxns (flat_map (picked k) rows)).
  { intros k Hk. unfold rows in *. assert (DD : forall r, In r rxns -> NoDup (map fst (f_data r))) by exact data_dicts. clear -L3 NC Hk G DD RK. induction rxns as [|r rs IH]; [constructor|]. cbn [map flat_map].
    destruct (row_keys evaluate target uncertainties separable hulls theoretical as' L3 NC r) as (E & ND & Hl).
    destruct (picked_one ks k (row evaluate target uncertainties separable hulls theoretical as' r) ND (G _ (or_introl eq_refl)) ltac:(apply (RK r (or_introl eq_refl)); exact Hk)) as (v & Ev & Iv).
    rewrite Ev. constructor; [|apply IH; [intros r' Hr; apply RK; right; exact Hr|intros c Hc; apply G; right; exact Hc|intros r' Hr; apply DD; right; exact Hr]].
    apply (row_describes evaluate target uncertainties separable hulls theoretical as' NC); [apply DD; left; reflexivity|exact Iv]. }
  unfold sorted_frame. set (d1 := map (fun k => (k, flat_map (picked k) rows)) ks) in *.
  assert (LEN : forall k, In k ks -> length (flat_map (picked k) rows) = length rxns) by (intros k Hk; symmetry; apply (Forall2_length _ _ _ (C k Hk))).
  assert (SL : same_lengths d1 = true).
  { unfold d1. clear -LEN. destruct ks as [|k0 ks]; [reflexivity|]. cbn [map same_lengths]. apply forallb_forall. intros kc H. apply in_map_iff in H as (k & <- & I). cbn [snd]. apply Nat.eqb_eq.
    rewrite (LEN k (or_intror I)), (LEN k0 (or_introl eq_refl)). reflexivity. }
  rewrite SL. assert (Icost : In "cost" ks) by (unfold ks, keys; rewrite !in_app_iff; right; right; left; reflexivity).
  assert (CC : column "cost" d1 = Ok (flat_map (picked "cost") rows)).
  { unfold d1. clear -Icost. induction ks as [|k ks IH]; [destruct Icost|]. cbn [map column].
    destruct (String.eqb_spec "cost" k) as [<-|N]; [reflexivity|]. apply IH. destruct Icost as [I|I]; [symmetry in I; contradiction|exact I]. }
  rewrite CC. cbn [bind]. pose proof (C _ Icost) as FC.
  assert (X : exists costs, mapM as_num (flat_map (picked "cost") rows) = Ok costs /\ length costs = length rxns).
  { clear -FC. induction FC as [|r c rs cs D F IH]; [exists []; split; reflexivity|]. destruct IH as (costs & E & F'). cbn [mapM].
    destruct D as (_ & _ & _ & _ & _ & _ & _ & _ & _ & _ & D & _). destruct (D eq_refl) as (q & Eq & ->). exists (q :: costs). cbn [as_num]. rewrite E. split; [reflexivity|cbn; congruence]. }
  destruct X as (costs & EX & LX). rewrite EX. cbn [bind]. destruct (argsort_orders costs) as [P _]. rewrite LX in P.
  unfold d1. clear -P LEN. induction ks as [|k ks IH]; [eexists; reflexivity|]. cbn [map mapM fst snd].
  destruct (take_all (flat_map (picked k) rows) (argsort costs)) as (o & EO & _); [rewrite (LEN k (or_introl eq_refl)); exact P|]. rewrite EO. cbn [bind].
  destruct (IH (fun k' I => LEN k' (or_intror I))) as (d & Ed). rewrite Ed. eexists. reflexivity.
Qed.
End Table.

(* --- temperatures --- *)
Lemma dict_of_map {V} (f : nat -> result V) temps l : mapM (fun t => bind (f t) (fun s => Ok (t, s))) temps = Ok l ->
  (forall t, In t (map fst (dict_of l)) <-> In t temps) /\ NoDup (map fst (dict_of l)) /\ forall t s, In (t, s) (dict_of l) -> f t = Ok s.
Proof.
  intros H. assert (F : Forall2 (fun t kv => fst kv = t /\ f t = Ok (snd kv)) temps l).
  { apply (mapM_Forall2 _ _ _) in H. eapply Forall2_impl; [|exact H]. intros t kv E. cbn beta in E. destruct (f t) as [s|]; [|discriminate E]. inversion E. split; reflexivity. }
  clear H. assert (D : forall (l : list (nat * V)), Forall (fun kv => f (fst kv) = Ok (snd kv)) l -> forall d, Forall (fun kv => f (fst kv) = Ok (snd kv)) d -> NoDup (map fst d) ->
    let r := fold_left (fun d kv => dict_set (fst kv) (snd kv) d) l d in Forall (fun kv => f (fst kv) = Ok (snd kv)) r /\ NoDup (map fst r) /\ forall t, In t (map fst r) <-> In t (map fst d) \/ In t (map fst l)).
  { clear. induction l as [|[k v] l IH]; intros Fl d Fd N; cbn [fold_left fst snd]; [split; [exact Fd|split; [exact N|intros t; cbn; tauto]]|]. inversion Fl as [|? ? F1 F2]; subst. cbn [fst snd] in F1.
    assert (K : Forall (fun kv => f (fst kv) = Ok (snd kv)) (dict_set k v d) /\ NoDup (map fst (dict_set k v d)) /\ forall t, In t (map fst (dict_set k v d)) <-> In t (map fst d) \/ t = k).
    { clear -Fd N F1. induction d as [|[k' v'] d IH]; cbn [dict_set map fst].
      - split; [constructor; [exact F1|constructor]|]. split; [constructor; [intros []|constructor]|]. intros t. cbn. intuition.
      - inversion Fd as [|? ? G1 G2]; subst. cbn [map fst] in N. inversion N as [|? ? N1 N2]; subst. destruct (Nat.eqb_spec k k') as [->|NE].
        + split; [constructor; [exact F1|exact G2]|]. split; [constructor; assumption|]. intros t. cbn. intuition.
        + destruct (IH G2 N2) as (I1 & I2 & I3). split; [constructor; assumption|]. cbn [map fst]. split; [constructor; [|exact I2]|intros t; cbn [In]; rewrite I3; intuition].
          intros X. apply I3 in X as [X|X]; [contradiction|congruence]. }
    destruct K as (K1 & K2 & K3). destruct (IH F2 _ K1 K2) as (R1 & R2 & R3). split; [exact R1|]. split; [exact R2|]. intros t. rewrite R3, K3. cbn [map fst In]. intuition. }
  assert (Fl : Forall (fun kv => f (fst kv) = Ok (snd kv)) l) by (clear D; induction F as [|t kv temps l [E1 E2] F IH]; constructor; [rewrite E1; exact E2|exact IH]).
  assert (M : map fst l = temps) by (clear D Fl; induction F as [|t kv temps l [E1 E2] F IH]; cbn; congruence).
  destruct (D l Fl [] (Forall_nil _) (NoDup_nil _)) as (R1 & R2 & R3). unfold dict_of. rewrite <- M. repeat split.
  - intros H. apply R3 in H as [[]|H]. exact H.
  - intros H. apply R3. right. exact H.
  - exact R2.
  - intros t s I. rewrite Forall_forall in R1. exact (R1 _ I).
Qed.
Lemma temperatures_spec arrange warm s temps out : compute_at_temperatures arrange warm s temps = Ok out ->
  NoDup (map fst out) /\ (forall t, In t (map fst out) <-> In t temps) /\ forall t s', In (t, s') out -> set_new_temperature arrange (warm t) s = Ok s'.
Proof.
  unfold compute_at_temperatures, set_new_temperature. destruct (get_rxns s) as [rs|]; [|discriminate]. cbn [bind].
  set (f := fun t => bind (mapM (warm_rxn (temp_table (warm t) (r_entries s))) rs) (fun new => from_rxns arrange new [] (r_open s) (r_chempot s))).
  assert (E : mapM (fun t => bind (mapM (warm_rxn (temp_table (warm t) (r_entries s))) rs) (fun new => bind (from_rxns arrange new [] (r_open s) (r_chempot s)) (fun s' => Ok (t, s')))) temps
              = mapM (fun t => bind (f t) (fun s' => Ok (t, s'))) temps).
  { apply mapM_ext. intros t. unfold f. destruct (mapM _ rs); reflexivity. }
  rewrite E. destruct (mapM (fun t => bind (f t) (fun s' => Ok (t, s'))) temps) as [l|] eqn:EM; [|discriminate]. cbn [bind]. intros H. inversion H; subst out. destruct (dict_of_map f temps l EM) as (D1 & D2 & D3).
  split; [exact D2|]. split; [exact D1|]. intros t s' I. exact (D3 t s' I).
Qed.
Lemma temperatures_total arrange warm s temps rs : get_rxns s = Ok rs -> (forall t, In t temps -> exists s', set_new_temperature arrange (warm t) s = Ok s') ->
  exists out, compute_at_temperatures arrange warm s temps = Ok out.
Proof.
  intros G H. unfold compute_at_temperatures. rewrite G. cbn [bind]. unfold set_new_temperature in H. rewrite G in H. cbn [bind] in H.
  assert (X : exists l, mapM (fun t => bind (mapM (warm_rxn (temp_table (warm t) (r_entries s))) rs) (fun new => bind (from_rxns arrange new [] (r_open s) (r_chempot s)) (fun s' => Ok (t, s')))) temps = Ok l).
  { induction temps as [|t temps IH]; [eexists; reflexivity|]. cbn [mapM]. destruct (H t (or_introl eq_refl)) as (s' & E). destruct (mapM (warm_rxn (temp_table (warm t) (r_entries s))) rs) as [new|]; [|discriminate E].
    cbn [bind] in *. rewrite E. cbn [bind]. destruct (IH (fun t' I => H t' (or_intror I))) as (l & El). rewrite El. eexists. reflexivity. }
  destruct X as (l & El). rewrite El. eexists. reflexivity.
Qed.
