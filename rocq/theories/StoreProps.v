(* C117, C118: theorems about storing entries and about reading their data. *)
From Verif Require Import Prelude NumQ UtilsModel ReactionModel ReactionSpec ReactionCheck GibbsModel GibbsSpec GibbsCheck StoreModel StoreSpec StoreProofs StoreCheck.
Open Scope nat_scope.

(* --- C117 --- *)
(* Full claim: for all data; shown here when Elements are keys only of the dictionaries
   directly inside the data, and no two keys have one name. *)
Theorem C117_round_trip_partial : forall elem_text num_text ln C mass table default_id (e : stored_entry) c dhf v t adjs id,
  gibbs_init ln C mass table default_id c dhf v t adjs id = Ok (st_entry e) ->
  (forall n, elem_key n (TDict (st_data e)) -> n = 1) -> distinct_names (name_of elem_text num_text) (TDict (st_data e)) ->
  exists d d', gibbs_as_dict elem_text num_text e = (Ok d, e)
  /\ gibbs_from_dict ln C mass table default_id d = Ok (st_entry e, d')
  /\ renamed (name_of elem_text num_text) (TDict (st_data e)) d' /\ (only_texts (TDict (st_data e)) -> d' = TDict (st_data e)).
Proof. exact store_read. Qed.
Print Assumptions C117_round_trip_partial.

(* An Element among the keys anywhere else: as_dict and get_new_temperature raise, and
   the data of the entry is left changed. *)
Theorem C117_fails : forall elem_text num_text (e : stored_entry) n,
  distinct_names (name_of elem_text num_text) (TDict (st_data e)) -> elem_key n (TDict (st_data e)) -> n <> 1 ->
  gibbs_as_dict elem_text num_text e = (Err TypeError, {| st_entry := st_entry e; st_data := sanitize elem_text (st_data e) |})
  /\ forall ln C mass table default_id t, gibbs_retemper elem_text num_text ln C mass table default_id e t
     = (Err TypeError, {| st_entry := st_entry e; st_data := sanitize elem_text (st_data e) |}).
Proof.
  exact (fun et nt e n D K N => conj (as_dict_fails et nt e n D K N) (fun ln C mass table default_id t => retemper_fails et nt ln C mass table default_id e t n D K N)).
Qed.
Print Assumptions C117_fails.

Theorem C117_new_temperature_partial : forall elem_text num_text ln C mass table default_id (e : stored_entry) t,
  (forall n, elem_key n (TDict (st_data e)) -> n = 1) ->
  exists d, gibbs_retemper elem_text num_text ln C mass table default_id e t =
    (bind (gibbs_new_temperature ln C mass table default_id (st_entry e) t) (fun e' => Ok (e', d)), e).
Proof. exact retemper_ok. Qed.
Print Assumptions C117_new_temperature_partial.

Example C117_demo : (forall n, elem_key n (TDict ox_data) -> n = 1) /\ distinct_names (name_of symbol digits) (TDict ox_data)
  /\ elem_key 1 (TDict ox_data)
  /\ exists d, gibbs_as_dict symbol digits {| st_entry := lith 4 (-1) 1; st_data := ox_data |} = (Ok d, {| st_entry := lith 4 (-1) 1; st_data := ox_data |})
     /\ gd_data d = TDict [(KText 0, TDict [(KText 104, Leaf 7); (KText 108, Leaf 8)]); (KText 1, TDict [(KText 2, Leaf 9)]);
                           (KText 3, TList [Leaf 1; TDict [(KText 4, Leaf 5)]])].
Proof.
  split; [exact ox_depth|]. split; [exact ox_distinct|]. split; [eapply key_in_dict; [left; reflexivity|eapply key_here; left; reflexivity]|].
  eexists. split; vm_compute; reflexivity.
Qed.

Theorem C117_nested_refuted : forall ln, exists elem_text num_text C e, wf_chem C /\ built ln C (st_entry e)
  /\ distinct_names (name_of elem_text num_text) (TDict (st_data e))
  /\ fst (gibbs_as_dict elem_text num_text e) = Err TypeError
  /\ forall mass table default_id t, fst (gibbs_retemper elem_text num_text ln C mass table default_id e t) = Err TypeError.
Proof. exact nested_witness. Qed.
Print Assumptions C117_nested_refuted.

Theorem C117_unchanged_refuted : forall ln, exists elem_text num_text C e, wf_chem C /\ built ln C (st_entry e)
  /\ distinct_names (name_of elem_text num_text) (TDict (st_data e))
  /\ st_data (snd (gibbs_as_dict elem_text num_text e)) <> st_data e.
Proof. exact changed_witness. Qed.
Print Assumptions C117_unchanged_refuted.

Theorem C117_lost_refuted : exists elem_text num_text d t, json_back num_text (sanitize elem_text d) = Ok (TDict [(KText 0, TDict [(KText t, Leaf 8)])])
  /\ d = [(KText 0, TDict [(KElem 4, Leaf 7); (KText t, Leaf 8)])].
Proof. exact lost_witness. Qed.
Print Assumptions C117_lost_refuted.

(* --- C118 --- *)
(* Full claim: also when an item is there and is None (refuted below). *)
Theorem C118_experimental_partial : forall theoretical icsd_ids, theoretical <> Some None -> (theoretical = None -> icsd_ids <> Some None) ->
  exists b, is_experimental theoretical icsd_ids = Ok b /\ (b = true <-> known theoretical icsd_ids).
Proof. exact known_spec. Qed.
Print Assumptions C118_experimental_partial.

Example C118_experimental_demo : known None (Some (Some 2)) /\ known (Some (Some false)) None /\ ~ known (Some (Some true)) (Some (Some 2)).
Proof.
  split; [right; split; [reflexivity|exists 2; split; [reflexivity|auto]]|]. split; [left; reflexivity|].
  intros [H|[H _]]; discriminate.
Qed.

Theorem C118_unmarked_refuted : is_experimental (Some None) (Some (Some 0)) = Ok true /\ ~ known (Some None) (Some (Some 0)).
Proof. exact unmarked. Qed.
Print Assumptions C118_unmarked_refuted.

Theorem C118_no_ids_refuted : is_experimental None (Some None) = Err TypeError.
Proof. exact eq_refl. Qed.
Print Assumptions C118_no_ids_refuted.

(* Full claim: for every structure; shown here when every site is full. *)
Theorem C118_volume_partial : forall ln C mass table default_id comp_of s dhf t adjs id e,
  from_structure ln C mass table default_id comp_of s dhf t adjs id = Ok e ->
  ge_comp e = comp_of (concat (s_sites s)) /\ (ge_vol e == s_volume s / (Z.of_nat (length (s_sites s)) # 1))%Q
  /\ ((forall x, In x (s_sites s) -> (fold_right Qplus 0 (map snd x) == 1)%Q) -> (ge_vol e == s_volume s / occupancy s)%Q).
Proof. exact structure_volume. Qed.
Print Assumptions C118_volume_partial.

Example C118_volume_demo : (forall x, In x (s_sites full) -> (fold_right Qplus 0 (map snd x) == 1)%Q)
  /\ exists e, from_structure no_ln demo demo_mass demo_refs no_id (fun _ => 4) full (-1)%Q (PInt 300) None None = Ok e /\ (ge_vol e == 15)%Q.
Proof.
  split; [intros x [<-|[<-|[]]]; reflexivity|]. eexists. split; [vm_compute; reflexivity|]. reflexivity.
Qed.

Theorem C118_volume_refuted : forall ln, exists C mass table default_id comp_of s dhf t e, wf_chem C
  /\ from_structure ln C mass table default_id comp_of s dhf t None None = Ok e
  /\ ~ (occupancy s == 0)%Q /\ ~ (ge_vol e == s_volume s / occupancy s)%Q.
Proof. exact gaps_witness. Qed.
Print Assumptions C118_volume_refuted.
