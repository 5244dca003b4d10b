(* Proofs for C130. *)
From Coq Require Import String Ascii QArith Sorted Lqa.
From Verif Require Import Prelude NumQ ListFacts RxnSetBaseProofs EntryDbModel RawModel RawSpec.
Open Scope list_scope.
Open Scope nat_scope.

(* --- dictionaries --- *)
Lemma has_text_in : forall x l, has_text x l = true <-> In x l.
Proof.
  intros x l. unfold has_text, memb. rewrite existsb_exists. split.
  - intros (y & I & E). apply String.eqb_eq in E. subst y. exact I.
  - intros I. exists x. split; [exact I|apply String.eqb_refl].
Qed.
Lemma look_in_l : forall d k v, look k d = Some v -> In (k, v) d.
Proof.
  induction d as [|[k' v'] d IH]; intros k v H; cbn in *; [discriminate|].
  destruct (String.eqb k k') eqn:E; [|right; exact (IH k v H)].
  apply String.eqb_eq in E. injection H as ->. subst. left. reflexivity.
Qed.
Lemma look_in : forall d, NoDup (map fst d) -> forall k v, look k d = Some v <-> In (k, v) d.
Proof.
  intros d N k v. split; [apply look_in_l|]. induction d as [|[k' v'] d IH]; intros H; [contradiction|].
  cbn in *. inversion N as [|? ? N1 N2]; subst. destruct H as [H|H].
  - injection H as -> ->. rewrite String.eqb_refl. reflexivity.
  - destruct (String.eqb k k') eqn:E; [|exact (IH N2 H)]. exfalso. apply N1. apply String.eqb_eq in E. subst.
    apply in_map_iff. exists (k', v). split; [reflexivity|exact H].
Qed.
Lemma look_none : forall d k, look k d = None <-> ~ In k (map fst d).
Proof.
  induction d as [|[k' v'] d IH]; intros k; cbn; [tauto|].
  destruct (String.eqb k k') eqn:E.
  - apply String.eqb_eq in E. subst. split; [discriminate|intros H; exfalso; apply H; left; reflexivity].
  - apply String.eqb_neq in E. rewrite IH. split; [intros H [X|X]; [congruence|exact (H X)]|intros H X; apply H; right; exact X].
Qed.
Lemma look_project : forall props k d, In k ("_id"%string :: props) -> look k (project props d) = look k d.
Proof.
  intros props k d I. induction d as [|[k' v'] d IH]; [reflexivity|]. unfold project in *. cbn [filter fst].
  destruct (has_text k' ("_id"%string :: props)) eqn:F.
  - cbn [look]. destruct (String.eqb k k'); [reflexivity|exact IH].
  - cbn [look]. destruct (String.eqb k k') eqn:E; [|exact IH].
    apply String.eqb_eq in E. subst. apply has_text_in in I. congruence.
Qed.
Lemma look_put : forall d k k' v, look k (put k' v d) = if String.eqb k k' then Some v else look k d.
Proof.
  induction d as [|[a x] d IH]; intros k k' v; cbn.
  - destruct (String.eqb k k'); reflexivity.
  - destruct (String.eqb k' a) eqn:E.
    + cbn. apply String.eqb_eq in E. subst a. destruct (String.eqb k k'); reflexivity.
    + cbn. destruct (String.eqb k a) eqn:F.
      * apply String.eqb_eq in F. subst a. rewrite String.eqb_sym, E. reflexivity.
      * apply IH.
Qed.
Lemma put_keys : forall d k v x, In x (map fst (put k v d)) <-> x = k \/ In x (map fst d).
Proof.
  induction d as [|[a y] d IH]; intros k v x; cbn; [intuition|].
  destruct (String.eqb k a) eqn:E; cbn.
  - apply String.eqb_eq in E. subst a. intuition.
  - rewrite IH. intuition.
Qed.
Lemma put_once : forall d k v, NoDup (map fst d) -> NoDup (map fst (put k v d)).
Proof.
  induction d as [|[a y] d IH]; intros k v N; cbn; [repeat constructor; intros []|].
  inversion N as [|? ? N1 N2]; subst. destruct (String.eqb k a) eqn:E; cbn.
  - apply String.eqb_eq in E. subst a. constructor; assumption.
  - constructor; [|apply IH; exact N2]. rewrite put_keys. intros [X|X]; [subst; rewrite String.eqb_refl in E; discriminate|exact (N1 X)].
Qed.
Lemma put_all_once : forall new d, NoDup (map fst d) -> NoDup (map fst (put_all new d)).
Proof. unfold put_all. induction new as [|[k v] new IH]; intros d N; cbn; [exact N|]. apply IH, put_once, N. Qed.
Lemma put_all_look : forall src new d n, (forall k v, In (k, v) new -> look k src = Some v) ->
  look n (put_all new d) = if has_text n (map fst new) then look n src else look n d.
Proof.
  intros src. unfold put_all. induction new as [|[k v] new IH]; intros d n H; [reflexivity|].
  cbn [fold_left fst snd map]. rewrite IH by (intros k' v' I; apply H; right; exact I).
  rewrite look_put. unfold has_text, memb. cbn [existsb]. destruct (existsb (String.eqb n) (map fst new)); [rewrite orb_true_r; reflexivity|].
  rewrite orb_false_r. destruct (String.eqb n k) eqn:E; [|reflexivity].
  apply String.eqb_eq in E. subst n. symmetry. apply H. left. reflexivity.
Qed.
Lemma item_ok : forall d k v, look k d = Some v -> item d k = Ok v.
Proof. intros d k v H. unfold item. rewrite H. reflexivity. Qed.
Lemma mapM_items : forall d ks, (forall k, In k ks -> exists v, look k d = Some v) ->
  exists l, mapM (fun k => bind (item d k) (fun v => Ok (k, v))) ks = Ok l /\ map fst l = ks /\ forall k v, In (k, v) l -> look k d = Some v.
Proof.
  intros d. induction ks as [|k ks IH]; intros H.
  - exists []. split; [reflexivity|]. split; [reflexivity|intros k v []].
  - destruct (H k (or_introl eq_refl)) as (v & L). destruct IH as (l & E & F & G); [intros k' I; apply H; right; exact I|].
    exists ((k, v) :: l). cbn [mapM]. rewrite (item_ok d k v L). cbn [bind]. rewrite E. split; [reflexivity|]. split; [cbn; rewrite F; reflexivity|].
    intros k' v' [I|I]; [injection I as <- <-; exact L|exact (G k' v' I)].
Qed.
Lemma items_spec : forall d ks, (forall k, In k ks -> exists v, look k d = Some v) ->
  exists m, items d ks = Ok m /\ NoDup (map fst m) /\ forall n, look n m = if has_text n ks then look n d else None.
Proof.
  intros d ks H. destruct (mapM_items d ks H) as (l & E & F & G).
  exists (put_all l []). unfold items. rewrite E. split; [reflexivity|]. split; [apply put_all_once; constructor|].
  intros n. rewrite (put_all_look d) by exact G. rewrite F. reflexivity.
Qed.
(* A dictionary that has been looked up is written over another one. *)
Lemma put_all_dict : forall m d n, NoDup (map fst m) -> look n (put_all m d) = match look n m with Some v => Some v | None => look n d end.
Proof.
  intros m d n N. rewrite (put_all_look m) by (intros k v I; apply look_in; assumption).
  destruct (look n m) eqn:L.
  - replace (has_text n (map fst m)) with true; [reflexivity|]. symmetry. apply has_text_in. apply look_in_l in L.
    apply in_map_iff. exists (n, v). split; [reflexivity|exact L].
  - replace (has_text n (map fst m)) with false; [reflexivity|]. symmetry. apply look_none in L.
    destruct (has_text n (map fst m)) eqn:F; [|reflexivity]. apply has_text_in in F. contradiction.
Qed.

Section Raw.
Variable criteria : Type.
Variable query : criteria -> list document.
Variable show : val -> string.
Variable sites conventional : nat -> nat.
Variable decode : val -> result raw_entry.
Variable compat : list raw_entry -> list raw_entry.

Definition inc_of (k : kind) : option string :=
  match k with Formula => None | Initial _ => Some "initial"%string | Final _ => Some "final"%string end.

Lemma truthy_void : forall v, truthy v = true <-> ~ void v.
Proof.
  intros v. unfold void. destruct v as [|b|q|t|n|n|l|l]; cbn [truthy].
  - split; [discriminate|intros H; exfalso; apply H; left; reflexivity].
  - destruct b; split; [intros _ H; decompose [or ex and] H; discriminate|reflexivity|discriminate|intros H; exfalso; apply H; right; left; reflexivity].
  - rewrite negb_true_iff. split.
    + intros E H. decompose [or ex and] H; try discriminate. match goal with H : Vnum _ = Vnum _ |- _ => injection H as <- end. apply Qeq_bool_neq in E. contradiction.
    + intros H. destruct (Qeq_bool q 0) eqn:E; [|reflexivity]. exfalso. apply H. right. right. left. exists q. split; [reflexivity|apply Qeq_bool_iff; exact E].
  - rewrite negb_true_iff. split.
    + intros E H. decompose [or ex and] H; try discriminate. match goal with H : Vtext _ = Vtext _ |- _ => injection H as -> end. discriminate.
    + intros H. destruct (String.eqb_spec t "") as [->|]; [|reflexivity]. exfalso. apply H. right. right. right. left. reflexivity.
  - split; [intros _ H; decompose [or ex and] H; discriminate|reflexivity].
  - split; [intros _ H; decompose [or ex and] H; discriminate|reflexivity].
  - destruct l; split; [discriminate|intros H; exfalso; apply H; do 4 right; left; reflexivity|intros _ H; decompose [or ex and] H; discriminate|reflexivity].
  - destruct l; split; [discriminate|intros H; exfalso; apply H; do 5 right; reflexivity|intros _ H; decompose [or ex and] H; discriminate|reflexivity].
Qed.
Lemma mark_truthy : forall d, named_once d -> (truthy_item d "deprecated" = true <-> marked d).
Proof.
  intros d N. unfold truthy_item, marked, carries. destruct (look "deprecated" d) as [v|] eqn:L.
  - rewrite truthy_void. split; [intros H; exists v; split; [apply (look_in d N); exact L|exact H]|]. intros (v' & I & H). apply (look_in d N) in I. congruence.
  - split; [discriminate|]. intros (v & I & _). apply (look_in d N) in I. congruence.
Qed.

Lemma labels_potcars : forall d f ls, named_once d -> labelled d f ls ->
  potcars show d = Ok (Vlist (map (fun l => Vtext (show f ++ " " ++ show l)%string) ls)).
Proof.
  intros d f ls N (m & C & Nm & Hm). unfold potcars.
  rewrite (item_ok d _ (Vdict m)) by (apply look_in; assumption). cbn [bind labels_of].
  destruct Hm as [[Hf Hl]|[-> Hl]].
  2: { destruct (look "labels" m) as [v|] eqn:E; [|reflexivity]. exfalso. apply (Hl v). apply (look_in m Nm). exact E. }
  apply (look_in m Nm) in Hf. apply (look_in m Nm) in Hl. rewrite Hl. cbn [bind].
  assert (A : forall ls, mapM (fun l => bind (functional_of (Vdict m)) (fun f => Ok (Vtext (show f ++ " " ++ show l)%string))) ls
    = Ok (map (fun l => Vtext (show f ++ " " ++ show l)%string) ls)).
  { cbn [functional_of]. rewrite (item_ok m _ f Hf). induction ls0 as [|l ls0 IH]; [reflexivity|]. cbn [mapM map]. rewrite IH. reflexivity. }
  rewrite A. reflexivity.
Qed.

Lemma project_once : forall props d, named_once d -> named_once (project props d).
Proof.
  unfold named_once, project. intros props. induction d as [|[k v] d IH]; intros N; [constructor|]. inversion N as [|? ? N1 N2]; subst.
  cbn [filter fst]. destruct (has_text k _); [|exact (IH N2)]. cbn [map fst]. constructor; [|exact (IH N2)].
  intros X. apply N1. apply in_map_iff in X. destruct X as ([k' v'] & <- & I). apply filter_In in I. apply in_map_iff. exists (k', v'). split; [reflexivity|apply I].
Qed.

Lemma cell_spec : forall k p d, (forall key, In key ["final_energy"; cell_name k]%string -> look key p = look key d) -> named_once d ->
  (exists x, carries d "final_energy" (Vnum x)) -> (exists v, carries d "unit_cell_formula" v) -> has_cell sites k d ->
  exists ce, cell_energy sites conventional (inc_of k) (is_conventional k) p = Ok ce
  /\ forall pa da i, right_cell sites conventional k d {| ent_cell := fst ce; ent_energy := snd ce; ent_params := pa; ent_data := da; ent_id := i |}.
Proof.
  intros k p d L N (x & X) (v & V) H.
  assert (Lx : item p "final_energy" = Ok (Vnum x)) by (apply item_ok; rewrite L by (left; reflexivity); apply look_in; assumption).
  assert (S : forall s, carries d (cell_name k) (Vstruct s) -> item p (cell_name k) = Ok (Vstruct s)).
  { intros s C. apply item_ok. rewrite L by (right; left; reflexivity). apply look_in; assumption. }
  assert (Q : forall s, 0 < sites s -> 0 < sites (conventional s) ->
    (per_atom (x * ((Z.of_nat (sites (conventional s)) # 1) / (Z.of_nat (sites s) # 1))) (sites (conventional s)) == per_atom x (sites s))%Q).
  { intros s P1 P2. unfold per_atom. field. split; intros E; unfold Qeq in E; cbn in E; lia. }
  destruct k as [|c|c].
  - exists (v, x). unfold cell_energy. cbn [inc_of with_structure is_conventional].
    rewrite (item_ok p _ v) by (rewrite L by (right; left; reflexivity); apply look_in; assumption). cbn [bind]. rewrite Lx. cbn.
    split; [reflexivity|]. intros pa da i. exists x. split; [exact X|]. split; [exact V|reflexivity].
  - destruct H as [H|(s & C & P)]; [discriminate|]. unfold cell_energy.
    change (with_structure (inc_of (Initial c))) with (Some "initial"%string). cbv iota beta. change (structure_key "initial") with (cell_name (Initial c)).
    rewrite (S s C). cbn [bind structure is_conventional]. rewrite Lx. cbn [bind number]. destruct c.
    + cbv zeta. destruct (Nat.eqb (sites s) 0) eqn:Z0; [apply Nat.eqb_eq in Z0; lia|].
      eexists. split; [reflexivity|]. intros pa da i. exists x. split; [exact X|]. exists s. split; [exact C|].
      cbn [is_conventional ent_cell ent_energy fst snd]. split; [reflexivity|exact (Q s P)].
    + eexists. split; [reflexivity|]. intros pa da i. exists x. split; [exact X|]. exists s. split; [exact C|]. split; reflexivity.
  - destruct H as [H|(s & C & P)]; [discriminate|]. unfold cell_energy.
    change (with_structure (inc_of (Final c))) with (Some "final"%string). cbv iota beta. change (structure_key "final") with (cell_name (Final c)).
    rewrite (S s C). cbn [bind structure is_conventional]. rewrite Lx. cbn [bind number]. destruct c.
    + cbv zeta. destruct (Nat.eqb (sites s) 0) eqn:Z0; [apply Nat.eqb_eq in Z0; lia|].
      eexists. split; [reflexivity|]. intros pa da i. exists x. split; [exact X|]. exists s. split; [exact C|].
      cbn [is_conventional ent_cell ent_energy fst snd]. split; [reflexivity|exact (Q s P)].
    + eexists. split; [reflexivity|]. intros pa da i. exists x. split; [exact X|]. exists s. split; [exact C|]. split; reflexivity.
Qed.

Lemma params_names : forall n, n <> "potcar_symbols"%string -> (In n params <-> In n parameter_names).
Proof. intros n D. unfold params, parameter_names. cbn [In]. split; intuition congruence. Qed.

Lemma raw_spec : forall k wanted d, complete wanted d -> has_cell sites k d -> ~ In "potcar_symbols"%string wanted ->
  exists e, raw_entry_of show sites conventional wanted (inc_of k) (is_conventional k) (project (props_of false wanted (inc_of k)) d) = Ok [e]
  /\ made_from show sites conventional k wanted d e.
Proof.
  intros k wanted d [N EN CE ID PA LA WA] HC NW. set (props := props_of false wanted (inc_of k)). set (p := project props d).
  assert (Lk : forall key, In key props -> look key p = look key d) by (intros key I; apply look_project; right; exact I).
  assert (Np : named_once p) by (apply project_once; exact N).
  assert (I0 : forall key, In key ["final_energy"; "unit_cell_formula"; "task_id"]%string \/ In key params -> In key props).
  { intros key I. unfold props, props_of. apply in_or_app. left. apply in_or_app. exact I. }
  assert (Iw : forall key, In key wanted -> In key props).
  { intros key I. unfold props, props_of. apply in_or_app. right. apply in_or_app. left. exact I. }
  assert (Ic : In (cell_name k) props).
  { destruct k as [|c|c]; [apply I0; left; right; left; reflexivity| |]; unfold props, props_of; apply in_or_app; right; apply in_or_app; right; left; reflexivity. }
  destruct LA as (f & ls & LA).
  assert (LP : forall f ls, labelled d f ls -> labelled p f ls).
  { intros f' ls' (m & C & R). exists m. split; [|exact R]. apply (look_in p Np). rewrite Lk by (apply I0; right; cbn; tauto). apply look_in; assumption. }
  pose proof (labels_potcars p f ls Np (LP f ls LA)) as PO.
  set (V := Vlist (map (fun l => Vtext (show f ++ " " ++ show l)%string) ls)) in *.
  unfold raw_entry_of. rewrite PO. cbn [bind]. cbv zeta. set (d' := put "potcar_symbols" V p).
  assert (L' : forall key, key <> "potcar_symbols"%string -> In key props -> look key d' = look key d).
  { intros key D I. unfold d'. rewrite look_put. apply String.eqb_neq in D. rewrite D. apply Lk, I. }
  assert (LV : look "potcar_symbols" d' = Some V) by (unfold d'; rewrite look_put; reflexivity).
  assert (Nd : named_once d') by (apply put_once; exact Np).
  destruct (PA "oxide_type"%string) as (ox & OX); [cbn; tauto|]. apply (look_in d N) in OX.
  rewrite (item_ok d' _ ox) by (rewrite L' by (first [discriminate|apply I0; right; cbn; tauto]); exact OX). cbn [bind].
  destruct (items_spec d' wanted) as (more & E1 & N1 & K1).
  { intros key I. destruct (WA key I) as (v & C). exists v. rewrite L' by (first [intros ->; exact (NW I)|apply Iw, I]). apply look_in; assumption. }
  rewrite E1. cbn [bind].
  destruct (cell_spec k d' d) as (ce & E2 & R2); try assumption.
  { intros key [<-|[<-|[]]]; [apply L'; [discriminate|apply I0; left; left; reflexivity]|apply L'; [destruct k; discriminate|exact Ic]]. }
  rewrite E2. cbn [bind].
  destruct (items_spec d' params) as (pa & E3 & N3 & K3).
  { intros key I. destruct (string_dec key "potcar_symbols") as [->|D]; [exists V; exact LV|].
    destruct (PA key) as (v & C); [apply params_names; assumption|]. exists v. rewrite L' by (first [exact D|apply I0; right; exact I]). apply look_in; assumption. }
  rewrite E3. cbn [bind]. destruct ID as (i & ID). pose proof ID as ID'. apply (look_in d N) in ID'.
  rewrite (item_ok d' _ i) by (rewrite L' by (first [discriminate|apply I0; left; cbn; tauto]); exact ID'). cbn [bind].
  eexists. split; [reflexivity|].
  assert (ND : NoDup (map fst (put_all more [("oxide_type"%string, ox)]))) by (apply put_all_once; repeat constructor; intros []).
  split; cbn [ent_id ent_data ent_params].
  - apply R2.
  - exact ID.
  - intros n v. rewrite <- (look_in _ ND). rewrite put_all_dict by exact N1. rewrite K1. unfold carries. rewrite <- (look_in d N).
    cbn [look]. destruct (has_text n wanted) eqn:H.
    + apply has_text_in in H. rewrite L' by (first [intros ->; exact (NW H)|apply Iw, H]).
      destruct (look n d) eqn:Ln.
      * split; [intros X; split; [right; exact H|exact X]|tauto].
      * destruct (WA n H) as (u & U). apply (look_in d N) in U. congruence.
    + destruct (String.eqb n "oxide_type") eqn:O.
      * apply String.eqb_eq in O. subst n. rewrite OX. split; [intros X; split; [left; reflexivity|exact X]|tauto].
      * split; [discriminate|]. intros [[->|X] _]; [discriminate|]. apply has_text_in in X. congruence.
  - exact ND.
  - intros n v D. rewrite <- (look_in _ N3), K3. unfold carries. rewrite <- (look_in d N). rewrite <- params_names by exact D.
    destruct (has_text n params) eqn:H.
    + apply has_text_in in H. rewrite L' by (first [exact D|apply I0; right; exact H]). tauto.
    + split; [discriminate|]. intros [X _]. apply has_text_in in X. congruence.
  - intros f' ls' LA'. apply (look_in _ N3). rewrite K3. change (has_text "potcar_symbols" params) with true. cbv iota. rewrite LV.
    pose proof (labels_potcars p f' ls' Np (LP f' ls' LA')) as PO'. rewrite PO in PO'. congruence.
  - exact N3.
Qed.

(* one document *)
Lemma document_spec : forall k wanted d, complete wanted d -> has_cell sites k d -> ~ In "potcar_symbols"%string wanted ->
  (marked d /\ of_document show sites conventional decode false wanted (inc_of k) (is_conventional k) (project (props_of false wanted (inc_of k)) d) = Ok [])
  \/ (~ marked d /\ exists e, of_document show sites conventional decode false wanted (inc_of k) (is_conventional k) (project (props_of false wanted (inc_of k)) d) = Ok [e]
      /\ made_from show sites conventional k wanted d e).
Proof.
  intros k wanted d C HC NW. pose proof (complete_once _ _ C) as N.
  assert (T : truthy_item (project (props_of false wanted (inc_of k)) d) "deprecated" = truthy_item d "deprecated").
  { unfold truthy_item. rewrite look_project; [reflexivity|]. right. unfold props_of. apply in_or_app. left. apply in_or_app. right. left. reflexivity. }
  unfold of_document. rewrite T. pose proof (mark_truthy d N) as MT. destruct (truthy_item d "deprecated").
  - left. split; [apply MT; reflexivity|reflexivity].
  - right. split; [intros X; apply MT in X; discriminate|]. exact (raw_spec k wanted d C HC NW).
Qed.

Lemma documents_spec : forall k wanted docs, Forall (complete wanted) docs -> Forall (has_cell sites k) docs -> ~ In "potcar_symbols"%string wanted ->
  exists live ls es, selects (fun d => ~ marked d) docs live
  /\ mapM (of_document show sites conventional decode false wanted (inc_of k) (is_conventional k)) (map (project (props_of false wanted (inc_of k))) docs) = Ok ls
  /\ concat ls = es /\ Forall2 (made_from show sites conventional k wanted) live es.
Proof.
  intros k wanted. induction docs as [|d docs IH]; intros FC FH NW.
  - exists [], [], []. repeat split; constructor.
  - inversion FC as [|? ? C1 C2]; subst. inversion FH as [|? ? H1 H2]; subst. destruct (IH C2 H2 NW) as (live & ls & es & S & E & F & G).
    destruct (document_spec k wanted d C1 H1 NW) as [(M & O)|(M & e & O & MF)].
    + exists live, ([] :: ls), es. split; [apply selects_skip; [intros X; exact (X M)|exact S]|]. split; [cbn [map mapM]; rewrite O, E; reflexivity|]. split; [exact F|exact G].
    + exists (d :: live), ([e] :: ls), (e :: es). split; [apply selects_take; assumption|]. split; [cbn [map mapM]; rewrite O, E; reflexivity|].
      split; [cbn; rewrite F; reflexivity|constructor; assumption].
Qed.

(* --- sorting --- *)
Lemma insert_perm : forall x l, Permutation (insert_hull x l) (x :: l).
Proof.
  intros x. induction l as [|y l IH]; cbn; [reflexivity|]. destruct (Qle_bool (fst x) (fst y)); [reflexivity|].
  rewrite IH. apply perm_swap.
Qed.
Lemma sort_perm : forall l, Permutation (sort_hull l) l.
Proof. induction l as [|x l IH]; cbn; [reflexivity|]. rewrite insert_perm. constructor. exact IH. Qed.
Lemma insert_sorted : forall x l, StronglySorted (fun a b => (fst a <= fst b)%Q) l -> StronglySorted (fun a b => (fst a <= fst b)%Q) (insert_hull x l).
Proof.
  intros x. induction l as [|y l IH]; intros S; cbn; [repeat constructor|]. inversion S as [|? ? S1 S2]; subst.
  destruct (Qle_bool (fst x) (fst y)) eqn:E.
  - apply Qle_bool_iff in E. constructor; [exact S|]. constructor; [exact E|].
    eapply Forall_impl; [|exact S2]. cbn. intros a A. lra.
  - constructor; [exact (IH S1)|]. assert (L : (fst y <= fst x)%Q).
    { destruct (Qlt_le_dec (fst x) (fst y)) as [A|A]; [|exact A]. apply Qlt_le_weak in A. apply Qle_bool_iff in A. congruence. }
    apply Forall_forall. intros z I. apply (Permutation_in _ (insert_perm x l)) in I. destruct I as [<-|I]; [exact L|].
    exact (proj1 (Forall_forall _ _) S2 z I).
Qed.
Lemma sort_sorted : forall l, StronglySorted (fun a b => (fst a <= fst b)%Q) (sort_hull l).
Proof. induction l as [|x l IH]; cbn; [constructor|]. apply insert_sorted, IH. Qed.

Lemma keyed : forall es, Forall (fun e => NoDup (map fst (ent_data e)) /\ exists q, above_hull e q) es ->
  exists ks qs, mapM hull_value es = Ok ks /\ mapM number ks = Ok qs /\ Forall2 above_hull es qs.
Proof.
  induction es as [|e es IH]; intros F.
  - exists [], []. repeat split; constructor.
  - inversion F as [|? ? (N & q & A) F2]; subst. destruct (IH F2) as (ks & qs & E1 & E2 & G).
    exists (Vnum q :: ks), (q :: qs). cbn [mapM]. unfold hull_value at 1. rewrite (item_ok _ _ (Vnum q)) by (apply look_in; assumption).
    rewrite E1. cbn [number]. rewrite E2. repeat split. constructor; assumption.
Qed.
Lemma combine_above : forall es qs, Forall2 above_hull es qs -> Forall (fun x => above_hull (snd x) (fst x)) (combine qs es) /\ map snd (combine qs es) = es.
Proof.
  induction 1 as [|e q es qs A F [IH1 IH2]]; cbn; [split; [constructor|reflexivity]|]. split; [constructor; assumption|]. rewrite IH2. reflexivity.
Qed.
Lemma by_hull_spec : forall es, Forall (fun e => NoDup (map fst (ent_data e)) /\ exists q, above_hull e q) es ->
  exists out, by_hull es = Ok out /\ Permutation out es /\ StronglySorted not_above out.
Proof.
  intros es F. destruct (keyed es F) as (ks & qs & E1 & E2 & G). unfold by_hull. rewrite E1. cbn [bind].
  destruct es as [|e [|e' es]].
  - exists []. repeat split; [reflexivity|constructor].
  - exists [e]. repeat split; [reflexivity|repeat constructor].
  - rewrite E2. cbn [bind]. eexists. split; [reflexivity|]. remember (e :: e' :: es) as l. destruct (combine_above l qs G) as (A & B).
    split; [rewrite <- B at 2; apply Permutation_map, sort_perm|].
    assert (A' : Forall (fun x => above_hull (snd x) (fst x)) (sort_hull (combine qs l))).
    { apply Forall_forall. intros x I. apply (Permutation_in _ (sort_perm _)) in I. exact (proj1 (Forall_forall _ _) A x I). }
    pose proof (sort_sorted (combine qs l)) as S. revert A' S. generalize (sort_hull (combine qs l)). clear.
    induction l as [|x l IH]; intros A S; cbn; [constructor|]. inversion A as [|? ? A1 A2]; subst. inversion S as [|? ? S1 S2]; subst.
    constructor; [apply IH; assumption|]. apply Forall_map. apply Forall_forall. intros y I.
    exists (fst x), (fst y). split; [exact A1|]. split; [exact (proj1 (Forall_forall _ _) A2 y I)|exact (proj1 (Forall_forall _ _) S2 y I)].
Qed.

(* the whole function, without sorting and with sorting *)
Definition processed (c : bool) (es : list raw_entry) : list raw_entry := if c then compat es else es.
Lemma unsorted_spec : forall k crit compatible_only property_data,
  let wanted := match property_data with Some l => l | None => [] end in
  Forall (complete wanted) (query crit) -> Forall (has_cell sites k) (query crit) -> ~ In "potcar_symbols"%string wanted ->
  exists live es, selects (fun d => ~ marked d) (query crit) live /\ Forall2 (made_from show sites conventional k wanted) live es
  /\ get_entries criteria query show sites conventional decode compat (Ok crit) compatible_only (inc_of k) property_data false (is_conventional k) false
     = Ok (if compatible_only then compat es else es).
Proof.
  intros k crit compatible_only property_data wanted FC FH NW.
  destruct (documents_spec k wanted (query crit) FC FH NW) as (live & ls & es & S & E & F & G).
  exists live, es. split; [exact S|]. split; [exact G|]. unfold get_entries.
  assert (W : asked_for false property_data = wanted) by (unfold asked_for, wanted; destruct property_data as [[|x l]|]; reflexivity).
  rewrite W. cbv zeta. cbn [bind]. rewrite E. cbn [bind]. rewrite F. reflexivity.
Qed.

Lemma asked_sorted : forall property_data,
  let given := match property_data with Some l => l | None => [] end in
  forall n, In n (asked_for true property_data) <-> In n given \/ n = "e_above_hull"%string.
Proof.
  intros property_data given n. unfold asked_for, given. destruct property_data as [[|x l]|]; cbn [andb].
  - cbn. intuition.
  - destruct (has_text hull_key (x :: l)) eqn:H.
    + apply has_text_in in H. cbn [negb]. split; [tauto|]. intros [I| ->]; [exact I|exact H].
    + cbn [negb]. change ((x :: l) ++ [hull_key]) with ((x :: l) ++ [hull_key]). rewrite in_app_iff. cbn [In]. unfold hull_key. intuition.
  - cbn. intuition.
Qed.
Lemma made_same : forall k w w' d e, (forall n, In n w <-> In n w') -> made_from show sites conventional k w d e -> made_from show sites conventional k w' d e.
Proof.
  intros k w w' d e W [A B D E F G H]. split; try assumption. intros n v. rewrite D, W. reflexivity.
Qed.

Lemma sorted_spec : forall k crit compatible_only property_data,
  let given := match property_data with Some l => l | None => [] end in
  let wanted := "e_above_hull"%string :: given in
  keeps_data compat ->
  Forall (complete wanted) (query crit) -> Forall (has_cell sites k) (query crit) -> ~ In "potcar_symbols"%string given ->
  Forall (fun d => exists q, carries d "e_above_hull" (Vnum q)) (query crit) ->
  exists live es out, selects (fun d => ~ marked d) (query crit) live /\ Forall2 (made_from show sites conventional k wanted) live es
  /\ get_entries criteria query show sites conventional decode compat (Ok crit) compatible_only (inc_of k) property_data false (is_conventional k) true = Ok out
  /\ Permutation out (if compatible_only then compat es else es) /\ StronglySorted not_above out.
Proof.
  intros k crit compatible_only property_data given wanted KD FC FH NW FQ.
  assert (W : forall n, In n (asked_for true property_data) <-> In n wanted).
  { intros n. rewrite asked_sorted. fold given. unfold wanted. cbn [In]. intuition. }
  assert (FC' : Forall (complete (asked_for true property_data)) (query crit)).
  { eapply Forall_impl; [|exact FC]. intros d [A D E F G H I]. split; try assumption. intros n X. apply I, W, X. }
  assert (NW' : ~ In "potcar_symbols"%string (asked_for true property_data)).
  { rewrite W. intros [X|X]; [discriminate|exact (NW X)]. }
  destruct (documents_spec k (asked_for true property_data) (query crit) FC' FH NW') as (live & ls & es & S & E & F & G).
  assert (G' : Forall2 (made_from show sites conventional k wanted) live es).
  { clear - G W. induction G; constructor; [eapply made_same; eassumption|assumption]. }
  assert (HE : forall e, In e es -> NoDup (map fst (ent_data e)) /\ exists q, above_hull e q).
  { intros e I. destruct (Forall2_In_r _ _ _ _ G' I) as (d & Id & MF). split; [apply (made_data_once _ _ _ _ _ _ _ MF)|].
    assert (Iq : In d (query crit)).
    { clear - S Id. induction S; [exact Id| |right; exact (IHS Id)]. destruct Id as [->|Id]; [left; reflexivity|right; exact (IHS Id)]. }
    destruct (proj1 (Forall_forall _ _) FQ d Iq) as (q & C). exists q. apply (made_data _ _ _ _ _ _ _ MF). split; [right; left; reflexivity|exact C]. }
  destruct (by_hull_spec (if compatible_only then compat es else es)) as (out & E2 & P & SS).
  { apply Forall_forall. intros e I. destruct compatible_only; [|exact (HE e I)].
    destruct (KD es e I) as (e' & I' & D). unfold above_hull. rewrite D. exact (HE e' I'). }
  exists live, es, out. split; [exact S|]. split; [exact G'|]. split; [|split; assumption].
  unfold get_entries. cbv zeta. cbn [bind]. rewrite E. cbn [bind]. rewrite F. exact E2.
Qed.

(* every way to ask for a kind *)
Lemma asks_cell : forall k inc conv, asks k inc conv ->
  with_structure inc = with_structure (inc_of k) \/ exists s, with_structure inc = Some s /\ structure_key s = "structure"%string /\ exists c, k = Final c.
Proof.
  intros k inc conv A. destruct k as [|c|c]; cbn in A.
  - left. destruct A as [->| ->]; reflexivity.
  - left. destruct A as (-> & _). reflexivity.
  - right. destruct A as ((s & -> & N1 & N2) & _). exists s. cbn. apply String.eqb_neq in N1. rewrite N1. split; [reflexivity|].
    split; [|exists c; reflexivity]. unfold structure_key. apply String.eqb_neq in N2. rewrite N2. reflexivity.
Qed.
Lemma asks_props : forall k inc conv w, asks k inc conv -> props_of false w inc = props_of false w (inc_of k).
Proof.
  intros k inc conv w A. unfold props_of. destruct (asks_cell k inc conv A) as [->|(s & -> & E & c & ->)]; [reflexivity|].
  rewrite E. reflexivity.
Qed.
Lemma asks_energy : forall k inc conv d, asks k inc conv -> cell_energy sites conventional inc conv d = cell_energy sites conventional (inc_of k) (is_conventional k) d.
Proof.
  intros k inc conv d A. unfold cell_energy. destruct (asks_cell k inc conv A) as [->|(s & -> & E & c & ->)].
  - destruct k as [|c|c]; [reflexivity| |]; cbn in A; destruct A as (_ & ->); reflexivity.
  - rewrite E. cbn in A. destruct A as (_ & ->). reflexivity.
Qed.
Lemma asks_same : forall k inc conv crit c pd sort, asks k inc conv ->
  get_entries criteria query show sites conventional decode compat crit c inc pd false conv sort
  = get_entries criteria query show sites conventional decode compat crit c (inc_of k) pd false (is_conventional k) sort.
Proof.
  intros k inc conv crit c pd sort A. unfold get_entries. cbv zeta. rewrite (asks_props k inc conv _ A).
  destruct crit as [q|e]; [|reflexivity]. cbn [bind].
  rewrite (mapM_ext (of_document show sites conventional decode false (asked_for sort pd) inc conv)
    (of_document show sites conventional decode false (asked_for sort pd) (inc_of k) (is_conventional k))); [reflexivity|].
  intros d _. unfold of_document, raw_entry_of. destruct (truthy_item d "deprecated"); [reflexivity|].
  destruct (potcars show d) as [ps|]; [|reflexivity]. cbn [bind]. cbv zeta. rewrite (asks_energy k inc conv _ A). reflexivity.
Qed.

Lemma unsorted_all : forall k inc conv crit compatible_only property_data,
  let wanted := match property_data with Some l => l | None => [] end in
  asks k inc conv ->
  Forall (complete wanted) (query crit) -> Forall (has_cell sites k) (query crit) -> ~ In "potcar_symbols"%string wanted ->
  exists live es, selects (fun d => ~ marked d) (query crit) live /\ Forall2 (made_from show sites conventional k wanted) live es
  /\ get_entries criteria query show sites conventional decode compat (Ok crit) compatible_only inc property_data false conv false
     = Ok (if compatible_only then compat es else es).
Proof. intros k inc conv crit c pd wanted A. rewrite (asks_same k inc conv _ _ _ _ A). apply unsorted_spec. Qed.
Lemma sorted_all : forall k inc conv crit compatible_only property_data,
  let given := match property_data with Some l => l | None => [] end in
  let wanted := "e_above_hull"%string :: given in
  asks k inc conv -> keeps_data compat ->
  Forall (complete wanted) (query crit) -> Forall (has_cell sites k) (query crit) -> ~ In "potcar_symbols"%string given ->
  Forall (fun d => exists q, carries d "e_above_hull" (Vnum q)) (query crit) ->
  exists live es out, selects (fun d => ~ marked d) (query crit) live /\ Forall2 (made_from show sites conventional k wanted) live es
  /\ get_entries criteria query show sites conventional decode compat (Ok crit) compatible_only inc property_data false conv true = Ok out
  /\ Permutation out (if compatible_only then compat es else es) /\ StronglySorted not_above out.
Proof. intros k inc conv crit c pd given wanted A. rewrite (asks_same k inc conv _ _ _ _ A). apply sorted_spec. Qed.

(* --- stored entries --- *)
Lemma stored_entry : forall d n e, named_once d -> stored d n -> decode (Ventry n) = Ok e ->
  premade_entry decode (project (props_of true [] None) d) = Ok [e].
Proof.
  intros d n e N (ents & C & NE & H) D. unfold premade_entry.
  rewrite (item_ok _ _ (Vdict ents)) by (rewrite look_project by (right; left; reflexivity); apply look_in; assumption). cbn [bind].
  destruct H as [H|(H & X)].
  - apply (look_in ents NE) in H. unfold truthy_item, item. rewrite H. cbn. rewrite D. reflexivity.
  - apply (look_in ents NE) in H. assert (G : truthy_item ents "GGA" = false).
    { unfold truthy_item. destruct (look "GGA" ents) as [v|] eqn:L; [|reflexivity]. apply look_in_l in L. destruct (truthy v) eqn:Tv; [|reflexivity].
      apply truthy_void in Tv. destruct (Tv (X v L)). }
    rewrite G. unfold truthy_item, item. rewrite H. cbn. rewrite D. reflexivity.
Qed.
Lemma lacking_entry : forall d, named_once d -> lacking d -> premade_entry decode (project (props_of true [] None) d) = Ok [].
Proof.
  intros d N ((i & Hi) & ents & C & NE & X). unfold premade_entry.
  rewrite (item_ok _ _ (Vdict ents)) by (rewrite look_project by (right; left; reflexivity); apply look_in; assumption). cbn [bind].
  assert (G : forall k, k = "GGA"%string \/ k = "GGA+U"%string -> truthy_item ents k = false).
  { intros k Hk. unfold truthy_item. destruct (look k ents) as [v|] eqn:L; [|reflexivity]. apply look_in_l in L. destruct (truthy v) eqn:Tv; [|reflexivity].
    apply truthy_void in Tv. destruct (Tv (X k v Hk L)). }
  rewrite (G "GGA"%string (or_introl eq_refl)), (G "GGA+U"%string (or_intror eq_refl)).
  rewrite (item_ok _ _ i) by (rewrite look_project by (left; reflexivity); apply look_in; assumption). reflexivity.
Qed.
Lemma lacking_stored : forall d n, named_once d -> lacking d -> stored d n -> False.
Proof.
  intros d n N (_ & ents & C & NE & X) (ents' & C' & _ & H). apply (look_in d N) in C. apply (look_in d N) in C'. rewrite C in C'. injection C' as <-.
  assert (V : void (Ventry n)) by (destruct H as [H|[H _]]; [exact (X _ _ (or_introl eq_refl) H)|exact (X _ _ (or_intror eq_refl) H)]).
  destruct V as [V|[V|[(q & V & _)|[V|[V|V]]]]]; discriminate.
Qed.
Lemma premade_spec : forall crit compatible_only inc property_data conv,
  Forall named_once (query crit) ->
  Forall (fun d => marked d \/ lacking d \/ exists n e, stored d n /\ decode (Ventry n) = Ok e) (query crit) ->
  exists live es, selects (fun d => ~ marked d /\ ~ lacking d) (query crit) live
  /\ Forall2 (fun d e => exists n, stored d n /\ decode (Ventry n) = Ok e) live es
  /\ get_entries criteria query show sites conventional decode compat (Ok crit) compatible_only inc property_data true conv false
     = Ok (if compatible_only then compat es else es).
Proof.
  intros crit compatible_only inc property_data conv FN FS.
  assert (A : exists live ls es, selects (fun d => ~ marked d /\ ~ lacking d) (query crit) live
    /\ mapM (of_document show sites conventional decode true (asked_for false property_data) inc conv) (map (project (props_of true [] None)) (query crit)) = Ok ls
    /\ concat ls = es /\ Forall2 (fun d e => exists n, stored d n /\ decode (Ventry n) = Ok e) live es).
  { induction (query crit) as [|d docs IH]; [exists [], [], []; repeat split; constructor|].
    inversion FN as [|? ? N1 N2]; subst. inversion FS as [|? ? S1 S2]; subst.
    destruct (IH N2 S2) as (live & ls & es & S & E & F & G).
    assert (T : truthy_item (project (props_of true [] None) d) "deprecated" = truthy_item d "deprecated").
    { unfold truthy_item. rewrite look_project; [reflexivity|]. cbn. tauto. }
    pose proof (mark_truthy d N1) as MT. cbn [map mapM]. unfold of_document at 1. rewrite T. destruct (truthy_item d "deprecated").
    - exists live, ([] :: ls), es. split; [apply selects_skip; [intros [X _]; apply X, MT; reflexivity|exact S]|]. rewrite E. split; [reflexivity|]. split; assumption.
    - destruct S1 as [S1|[S1|(n & e & S1 & D)]]; [apply MT in S1; discriminate| |].
      { exists live, ([] :: ls), es. split; [apply selects_skip; [intros [_ X]; exact (X S1)|exact S]|].
        rewrite (lacking_entry d N1 S1), E. split; [reflexivity|]. split; assumption. }
      exists (d :: live), ([e] :: ls), (e :: es). split; [apply selects_take; [split; [intros X; apply MT in X; discriminate|intros X; exact (lacking_stored d n N1 X S1)]|exact S]|].
      rewrite (stored_entry d n e N1 S1 D), E. split; [reflexivity|]. split; [cbn; rewrite F; reflexivity|].
      constructor; [exists n; split; assumption|exact G]. }
  destruct A as (live & ls & es & S & E & F & G). exists live, es. split; [exact S|]. split; [exact G|].
  unfold get_entries. cbv zeta. cbn [bind]. change (props_of true (asked_for false property_data) inc) with (props_of true [] None).
  rewrite E. cbn [bind]. rewrite F. reflexivity.
Qed.

(* The caller's list is left alone without sorting, or when it names the property. *)
Lemma caller_kept : forall sort property_data,
  sort = false \/ property_data = None \/ property_data = Some [] \/ (exists l, property_data = Some l /\ In "e_above_hull"%string l) ->
  callers_list sort property_data = property_data.
Proof.
  intros sort pd [->|[->|[->|(l & -> & I)]]]; try reflexivity.
  - destruct pd as [[|x l]|]; reflexivity.
  - destruct l as [|x l]; [reflexivity|]. cbn [callers_list]. apply has_text_in in I. unfold hull_key. rewrite I. rewrite andb_false_r. reflexivity.
Qed.
End Raw.
