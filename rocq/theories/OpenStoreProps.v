(* C128: theorems about storing experimental entries and open reactions. *)
From Verif Require Import Prelude NumQ UtilsModel ReactionModel ReactionSpec ReactionCheck GibbsModel GibbsSpec GibbsCheck StoreModel StoreSpec StoreCheck
  OpenStoreModel OpenStoreSpec OpenStoreProofs OpenStoreCheck.
Open Scope nat_scope.

(* --- experimental entries --- *)
(* Full claim: for all data; shown here when no key is an Element and no two keys have
   one name. *)
Theorem C128_experimental_partial : forall elem_text num_text C refs deprecated (e : stored_exp) c t adjs,
  exp_init C refs deprecated c t adjs = Ok (sx_entry e) ->
  (forall n, ~ elem_key n (TDict (sx_data e))) -> distinct_names (name_of elem_text num_text) (TDict (sx_data e)) ->
  exists d d', exp_as_dict num_text e = Ok d /\ exp_from_dict C refs deprecated d = Ok (sx_entry e, d')
  /\ renamed (name_of elem_text num_text) (TDict (sx_data e)) d' /\ (only_texts (TDict (sx_data e)) -> d' = TDict (sx_data e)).
Proof. exact exp_store_read. Qed.
Print Assumptions C128_experimental_partial.

(* With such data, a new temperature is what C54 describes. *)
Theorem C128_new_temperature : forall num_text C refs deprecated (e : stored_exp) t, (forall n, ~ elem_key n (TDict (sx_data e))) -> exists d,
  exp_retemper num_text C refs deprecated e t = bind (exp_new_temperature C refs deprecated (sx_entry e) t) (fun e' => Ok (e', d)).
Proof. exact exp_store_retemper. Qed.
Print Assumptions C128_new_temperature.

(* An Element among the keys, at any level, stops both. *)
Theorem C128_experimental_fails : forall num_text C refs deprecated (e : stored_exp) n, elem_key n (TDict (sx_data e)) ->
  exp_as_dict num_text e = Err TypeError /\ forall t, exp_retemper num_text C refs deprecated e t = Err TypeError.
Proof. exact exp_store_fails. Qed.
Print Assumptions C128_experimental_fails.

Example C128_experimental_demo : xinit 14 (PInt 300) [] = Ok bao_exp /\ (forall n, ~ elem_key n (TDict plain_data))
  /\ distinct_names (name_of symbol digits) (TDict plain_data)
  /\ exists d, exp_as_dict digits {| sx_entry := bao_exp; sx_data := plain_data |} = Ok d
     /\ xd_data d = TDict [(KText 1, TDict [(KText 2, Leaf 9)]); (KText 3, TList [Leaf 1; TDict [(KText 204, Leaf 5)]])]
     /\ exists t, xe_base (fst t) = (-(19 # 4))%Q /\ exp_retemper digits demo demo_exp (fun _ => false) {| sx_entry := bao_exp; sx_data := plain_data |} (PInt 400) = Ok t.
Proof.
  split; [vm_compute; reflexivity|]. split; [exact plain_clean|]. split; [exact plain_distinct|].
  eexists. split; [vm_compute; reflexivity|]. split; [reflexivity|]. eexists. split; [|vm_compute; reflexivity]. reflexivity.
Qed.

(* Data that a Gibbs entry can store (C117) stops an experimental entry. *)
Theorem C128_experimental_refuted : exists elem_text num_text C refs (e : stored_exp) c t adjs, wf_chem C
  /\ exp_init C refs (fun _ => false) c t adjs = Ok (sx_entry e)
  /\ (forall n, elem_key n (TDict (sx_data e)) -> n = 1) /\ distinct_names (name_of elem_text num_text) (TDict (sx_data e))
  /\ exp_as_dict num_text e = Err TypeError /\ exp_retemper num_text C refs (fun _ => false) e t = Err TypeError.
Proof. exact one_level_witness. Qed.
Print Assumptions C128_experimental_refuted.

(* --- open reactions --- *)
(* Full claim: for entries with any data, and the dictionary is left as it was (refuted
   below). The last conjunct: every quantity of the two reactions is the same. *)
Theorem C128_open_partial : forall elem_text num_text of_text ln C mass table default_id (r : stored_rxn),
  Forall (storable elem_text num_text ln C mass table default_id) (sr_entries r) -> NoDup (map fst (sr_mu r)) ->
  (forall e, In e (map fst (sr_mu r)) -> of_text (elem_text e) = Some e) ->
  exists d r' d', open_as_dict elem_text num_text r = (Ok d, sr_entries r)
  /\ open_from_dict of_text ln C mass table default_id d = (Ok r', d')
  /\ Forall2 (kept elem_text num_text) (sr_entries r) (rr_entries r') /\ rr_data r' = sr_data r /\ rr_coeffs r' = sr_coeffs r /\ rr_mu r' = sr_mu r
  /\ rxn_read ln C r' = rxn_stored ln C r.
Proof. exact open_read. Qed.
Print Assumptions C128_open_partial.

(* The changed dictionary can be read again. *)
Theorem C128_read_again : forall of_text ln C mass table default_id d r d',
  open_from_dict of_text ln C mass table default_id d = (Ok r, d') -> open_from_dict of_text ln C mass table default_id d' = (Ok r, d').
Proof. exact read_again. Qed.
Print Assumptions C128_read_again.

(* But it can no longer be written as json. *)
Theorem C128_spoiled : forall of_text ln C mass table default_id d r d',
  open_from_dict of_text ln C mass table default_id d = (Ok r, d') -> od_mu d <> [] -> open_dumps d' = Err TypeError.
Proof. exact read_spoils. Qed.
Print Assumptions C128_spoiled.

(* A dictionary cannot be written as json just when an Element is a key somewhere. *)
Theorem C128_writable : forall d, (open_dumps d = Err TypeError <-> (exists e m, In (KElem e, m) (od_mu d)) \/ exists n, elem_key n (TDict (od_data d)))
  /\ (open_dumps d = Ok tt <-> ~ ((exists e m, In (KElem e, m) (od_mu d)) \/ exists n, elem_key n (TDict (od_data d)))).
Proof. exact writable_iff. Qed.
Print Assumptions C128_writable.

Theorem C128_open_fails : forall elem_text num_text ln C mass table default_id (r : stored_rxn) before e after n,
  sr_entries r = before ++ e :: after -> Forall (storable elem_text num_text ln C mass table default_id) before ->
  distinct_names (name_of elem_text num_text) (TDict (st_data e)) -> elem_key n (TDict (st_data e)) -> n <> 1 ->
  open_as_dict elem_text num_text r = (Err TypeError, before ++ {| st_entry := st_entry e; st_data := sanitize elem_text (st_data e) |} :: after).
Proof. exact open_fails. Qed.
Print Assumptions C128_open_fails.

Theorem C128_symbol : forall of_text ln C mass table default_id d k m x, In (k, m) (od_mu d) -> to_element of_text k = Err x ->
  exists y, open_from_dict of_text ln C mass table default_id d = (Err y, d).
Proof. exact unknown_symbol. Qed.
Print Assumptions C128_symbol.

Example C128_open_demo : Forall (storable symbol digits no_ln demo demo_mass demo_refs no_id) (sr_entries (burning plain_data))
  /\ NoDup (map fst (sr_mu (burning plain_data))) /\ (forall e, In e (map fst (sr_mu (burning plain_data))) -> element (symbol e) = Some e)
  /\ (exists d, fst (open_as_dict symbol digits (burning plain_data)) = Ok d /\ od_mu d = [(KText 101, (-(1 # 2))%Q)])
  /\ fst (open_as_dict symbol digits (burning deep_data)) = Err TypeError.
Proof.
  split; [exact burning_storable|]. split; [constructor; [intros []|constructor]|]. split; [exact burning_symbols|]. split; [|vm_compute; reflexivity].
  eexists. split; vm_compute; reflexivity.
Qed.

Theorem C128_argument_refuted : exists elem_text num_text of_text C mass table default_id r d r' d', wf_chem C
  /\ Forall (storable elem_text num_text no_ln C mass table default_id) (sr_entries r)
  /\ open_as_dict elem_text num_text r = (Ok d, sr_entries r) /\ open_from_dict of_text no_ln C mass table default_id d = (Ok r', d')
  /\ d' <> d /\ open_dumps d = Ok tt /\ open_dumps d' = Err TypeError.
Proof. exact argument_witness. Qed.
Print Assumptions C128_argument_refuted.
