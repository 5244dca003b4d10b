(* Proofs about storing experimental entries and open reactions. *)
From Verif Require Import Prelude NumQ ListFacts UtilsModel ReactionModel ReactionSpec ReactionBaseProofs RxnSetBaseProofs GibbsModel GibbsSpec GibbsEntryProofs
  StoreModel StoreSpec StoreProofs OpenStoreModel OpenStoreSpec.
Open Scope nat_scope.

Section OpenStore.
Variable elem_text : nat -> nat.
Variable num_text : Z -> nat.
Variable of_text : nat -> option nat.
Variable ln : Q -> Q.
Variable C : chem.
Variable refs : nat -> option (list (Q * Q)).
Variable deprecated : nat -> bool.
Notation name := (name_of elem_text num_text).

Lemma exp_kept e c t adjs : exp_init C refs deprecated c t adjs = Ok e ->
  exp_init C refs deprecated (xe_comp e) (xe_temp e) (xe_adjs e) = Ok e.
Proof.
  intros H. assert (K : xe_comp e = c /\ xe_temp e = t /\ xe_adjs e = adjs).
  { unfold exp_init in H. destruct (validate _ _ _ _); [|discriminate]. cbn [bind] in H. destruct (get_energy _ _ _ _); [|discriminate].
    cbn [bind] in H. injection H as <-. repeat split. }
  destruct K as (-> & -> & ->). exact H.
Qed.
Lemma exp_store_read (e : stored_exp) c t adjs : exp_init C refs deprecated c t adjs = Ok (sx_entry e) ->
  (forall n, ~ elem_key n (TDict (sx_data e))) -> distinct_names name (TDict (sx_data e)) ->
  exists d d', exp_as_dict num_text e = Ok d /\ exp_from_dict C refs deprecated d = Ok (sx_entry e, d')
  /\ renamed name (TDict (sx_data e)) d' /\ (only_texts (TDict (sx_data e)) -> d' = TDict (sx_data e)).
Proof.
  intros I K D. assert (N : has_elem (TDict (sx_data e)) = false).
  { destruct (has_elem (TDict (sx_data e))) eqn:B; [|reflexivity]. apply has_elem_iff in B. destruct B as (n & B). exfalso. exact (K n B). }
  assert (R := loads_names elem_text num_text _ D N). unfold exp_as_dict, json_back. rewrite N. cbn [bind].
  eexists. eexists. split; [reflexivity|]. unfold exp_from_dict. cbn [xd_comp xd_temp xd_adjs xd_data]. rewrite (exp_kept _ _ _ _ I). cbn [bind].
  split; [reflexivity|]. split; [exact R|]. intros O. exact (renamed_texts elem_text num_text _ _ O R).
Qed.
Lemma exp_store_fails (e : stored_exp) n : elem_key n (TDict (sx_data e)) ->
  exp_as_dict num_text e = Err TypeError /\ forall t, exp_retemper num_text C refs deprecated e t = Err TypeError.
Proof.
  intros K. assert (B : has_elem (TDict (sx_data e)) = true) by (apply has_elem_iff; exists n; exact K).
  assert (A : exp_as_dict num_text e = Err TypeError) by (unfold exp_as_dict, json_back; rewrite B; reflexivity).
  split; [exact A|]. intros t. unfold exp_retemper. rewrite A. reflexivity.
Qed.
Lemma exp_store_retemper (e : stored_exp) t : (forall n, ~ elem_key n (TDict (sx_data e))) -> exists d,
  exp_retemper num_text C refs deprecated e t = bind (exp_new_temperature C refs deprecated (sx_entry e) t) (fun e' => Ok (e', d)).
Proof.
  intros K. assert (N : has_elem (TDict (sx_data e)) = false).
  { destruct (has_elem (TDict (sx_data e))) eqn:B; [|reflexivity]. apply has_elem_iff in B. destruct B as (n & B). exfalso. exact (K n B). }
  exists (loads num_text (TDict (sx_data e))). unfold exp_retemper, exp_as_dict, json_back, exp_new_temperature. rewrite N. cbn [bind xd_adjs xd_comp xd_data].
  destruct (mapM _ _) as [adjs|x]; cbn [bind]; [|reflexivity]. unfold exp_from_dict. reflexivity.
Qed.

Variable mass : nat -> Q.
Variable table : list (Z * list (nat * Q)).
Variable default_id : nat -> Q -> nat.
Notation good := (storable elem_text num_text ln C mass table default_id).

Lemma entries_read es : Forall good es -> exists ds es', entries_as_dict elem_text num_text es = (Ok ds, es)
  /\ mapM (gibbs_from_dict ln C mass table default_id) ds = Ok es' /\ Forall2 (kept elem_text num_text) es es'.
Proof.
  induction 1 as [|e es ((c & dhf & v & t & adjs & id & I) & K & D) _ (ds & es' & A & B & F)].
  - exists [], []. repeat split. constructor.
  - destruct (store_read elem_text num_text ln C mass table default_id e c dhf v t adjs id I K D) as (d & d' & A1 & B1 & R & _).
    exists (d :: ds), ((st_entry e, d') :: es'). cbn [entries_as_dict mapM]. rewrite A1, A, B1, B. cbn [bind]. split; [reflexivity|]. split; [reflexivity|].
    constructor; [|exact F]. split; [reflexivity|exact R].
Qed.
Lemma texts_nodup (mu : list (nat * Q)) : NoDup (map fst mu) -> (forall e, In e (map fst mu) -> of_text (elem_text e) = Some e) ->
  NoDup (map fst (map (fun em => (KText (elem_text (fst em)), snd em)) mu)).
Proof.
  rewrite map_map. cbn [fst]. intros N H. induction mu as [|[e m] mu IH]; cbn [map fst] in *; [constructor|].
  inversion N as [|x l Ni N']; subst. constructor.
  - intros I. apply in_map_iff in I. destruct I as (em & E & I). injection E as E. apply Ni.
    assert (H1 := H e (or_introl eq_refl)). assert (H2 := H (fst em) (or_intror (in_map fst _ _ I))). rewrite E, H1 in H2. injection H2 as ->. apply in_map. exact I.
  - apply IH; [exact N'|]. intros x I. apply H. right. exact I.
Qed.
Lemma texts_read (mu : list (nat * Q)) : (forall e, In e (map fst mu) -> of_text (elem_text e) = Some e) ->
  mapM (fun km => bind (to_element of_text (fst km)) (fun e => Ok (e, snd km))) (map (fun em => (KText (elem_text (fst em)), snd em)) mu) = Ok mu.
Proof.
  induction mu as [|[e m] mu IH]; intros H; cbn [map mapM fst snd to_element]; [reflexivity|].
  rewrite (H e (or_introl eq_refl)). cbn [bind]. rewrite IH; [reflexivity|]. intros x I. apply H. right. exact I.
Qed.
Lemma elems_read (mu : list (nat * Q)) : mapM (fun km => bind (to_element of_text (fst km)) (fun e => Ok (e, snd km))) (map (fun em => (KElem (fst em), snd em)) mu) = Ok mu.
Proof.
  induction mu as [|[e m] mu IH]; cbn [map mapM fst snd to_element]; [reflexivity|]. cbn [bind]. rewrite IH. reflexivity.
Qed.
Lemma dict_of_twice {V} (l : list (nat * V)) : dict_of (dict_of l) = dict_of l.
Proof. apply dict_of_nodup. exact (proj1 (dict_of_keys l)). Qed.

Lemma read_again d r d' : open_from_dict of_text ln C mass table default_id d = (Ok r, d') ->
  open_from_dict of_text ln C mass table default_id d' = (Ok r, d').
Proof.
  unfold open_from_dict. destruct (mapM _ (od_mu d)) as [mu0|x]; [|discriminate]. intros H. injection H as H <-. cbn [od_entries od_coeffs od_mu od_data od_errors].
  rewrite elems_read, dict_of_twice. rewrite H. reflexivity.
Qed.
Lemma read_spoils d r d' : open_from_dict of_text ln C mass table default_id d = (Ok r, d') -> od_mu d <> [] -> open_dumps d' = Err TypeError.
Proof.
  unfold open_from_dict. destruct (mapM _ (od_mu d)) as [mu0|x] eqn:M; [|discriminate]. intros H N. injection H as _ <-. unfold open_dumps. cbn [od_mu od_data].
  assert (L : dict_of mu0 <> []).
  { assert (L : mu0 <> []). { apply mapM_Forall2 in M. intros ->. inversion M. congruence. }
    destruct mu0 as [|[k v] mu0]; [congruence|]. intros E. assert (X := proj1 (proj2 (dict_of_keys ((k, v) :: mu0))) k). rewrite E in X.
    destruct (proj2 X (or_introl eq_refl)). }
  destruct (dict_of mu0) as [|em l]; [congruence|]. reflexivity.
Qed.

Lemma open_read (r : stored_rxn) : Forall good (sr_entries r) -> NoDup (map fst (sr_mu r)) ->
  (forall e, In e (map fst (sr_mu r)) -> of_text (elem_text e) = Some e) ->
  exists d r' d', open_as_dict elem_text num_text r = (Ok d, sr_entries r)
  /\ open_from_dict of_text ln C mass table default_id d = (Ok r', d')
  /\ Forall2 (kept elem_text num_text) (sr_entries r) (rr_entries r') /\ rr_data r' = sr_data r /\ rr_coeffs r' = sr_coeffs r /\ rr_mu r' = sr_mu r
  /\ rxn_read ln C r' = rxn_stored ln C r.
Proof.
  intros G N T. destruct (entries_read _ G) as (ds & es' & A & B & F). unfold open_as_dict. rewrite A. cbn [bind].
  rewrite (dict_from_nodup _ (texts_nodup _ N T)).
  eexists. eexists. eexists. split; [reflexivity|]. unfold open_from_dict. cbn [od_entries od_coeffs od_mu od_data od_errors].
  rewrite (texts_read _ T), (dict_of_nodup _ N), B. cbn [bind]. split; [reflexivity|]. cbn [rr_entries rr_data rr_coeffs rr_mu].
  split; [exact F|]. split; [reflexivity|]. split; [reflexivity|]. split; [reflexivity|]. unfold rxn_read, rxn_stored. cbn [rr_entries rr_coeffs rr_mu rr_errors]. f_equal.
  clear - F. induction F as [|e e' es es' [E _] _ IH]; cbn [map]; [reflexivity|]. rewrite E, IH. reflexivity.
Qed.

Lemma open_fails (r : stored_rxn) before e after n : sr_entries r = before ++ e :: after -> Forall good before ->
  distinct_names name (TDict (st_data e)) -> elem_key n (TDict (st_data e)) -> n <> 1 ->
  open_as_dict elem_text num_text r = (Err TypeError, before ++ {| st_entry := st_entry e; st_data := sanitize elem_text (st_data e) |} :: after).
Proof.
  intros E G D K N. unfold open_as_dict. rewrite E. clear E.
  assert (A : entries_as_dict elem_text num_text (before ++ e :: after) = (Err TypeError, before ++ {| st_entry := st_entry e; st_data := sanitize elem_text (st_data e) |} :: after)).
  { induction G as [|b before (_ & Kb & _) _ IH]; cbn [app entries_as_dict].
    - rewrite (as_dict_fails elem_text num_text e n D K N). reflexivity.
    - destruct (as_dict_ok elem_text num_text b Kb) as (t & ->). rewrite IH. reflexivity. }
  rewrite A. reflexivity.
Qed.
Lemma unknown_symbol d k m x : In (k, m) (od_mu d) -> to_element of_text k = Err x -> exists y, open_from_dict of_text ln C mass table default_id d = (Err y, d).
Proof.
  intros I E. unfold open_from_dict. assert (F : bind (to_element of_text k) (fun e => Ok (e, m)) = Err x) by (rewrite E; reflexivity).
  destruct (mapM_fails (fun km => bind (to_element of_text (fst km)) (fun e => Ok (e, snd km))) _ _ _ I F) as (y & ->). exists y. reflexivity.
Qed.
End OpenStore.

Lemma writable_iff d : (open_dumps d = Err TypeError <-> (exists e m, In (KElem e, m) (od_mu d)) \/ exists n, elem_key n (TDict (od_data d)))
  /\ (open_dumps d = Ok tt <-> ~ ((exists e m, In (KElem e, m) (od_mu d)) \/ exists n, elem_key n (TDict (od_data d)))).
Proof.
  rewrite <- has_elem_iff. assert (A : existsb (fun km : key * Q => is_elem (fst km)) (od_mu d) = true <-> exists e m, In (KElem e, m) (od_mu d)).
  { rewrite existsb_exists. split; [intros ([[t|e|z] m] & I & E); try discriminate; exists e, m; exact I|intros (e & m & I); exists (KElem e, m); split; [exact I|reflexivity]]. }
  rewrite <- A. unfold open_dumps. destruct (existsb (fun km : key * Q => is_elem (fst km)) (od_mu d)), (has_elem (TDict (od_data d))); cbn [orb]; intuition congruence.
Qed.
