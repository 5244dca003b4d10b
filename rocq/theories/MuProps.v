(* C119, C126: theorems about the table of elemental chemical potentials as it is. *)
From Verif Require Import Prelude NumQ UtilsModel ReactionModel ReactionSpec GibbsModel GibbsSpec EntrySetModel MuModel MuSpec MuProofs MuConcaveProofs MuCheck.
Open Scope nat_scope.

(* The table meets what C55 asks of one, for all 83 elements. *)
Theorem C119_table : forall els, (forall e, In e els -> in_table e) -> tabulates mu_table els mu.
Proof. exact mu_tabulates. Qed.
Print Assumptions C119_table.

(* Full claim: for every compound; shown here for those made of elements of the table. *)
Theorem C119_succeeds_partial : forall ln C mass default_id, wf_chem C -> forall c dhf v t adjs id,
  elems C c <> [] -> (forall e, In e (elems C c) -> in_table e /\ (0 < mass e)%Q) -> in_range t ->
  (is_int t \/ ~ on_grid t \/ is_element C c = true) ->
  exists e, gibbs_init ln C mass mu_table default_id c dhf v t adjs id = Ok e /\ ge_temp e = t.
Proof. exact mu_init. Qed.
Print Assumptions C119_succeeds_partial.

(* The other compounds cannot be built at any temperature. *)
Theorem C119_missing : forall ln C mass default_id, wf_chem C -> forall c dhf v t adjs id,
  2 <= length (elems C c) -> (forall e, In e (elems C c) -> (0 < mass e)%Q) -> in_range t ->
  (exists e, In e (elems C c) /\ ~ in_table e) -> gibbs_init ln C mass mu_table default_id c dhf v t adjs id = Err KeyError.
Proof. exact mu_missing. Qed.
Print Assumptions C119_missing.

Theorem C119_missing_refuted : forall ln, exists C mass default_id c dhf v t, wf_chem C /\ (forall e, In e (elems C c) -> (0 < mass e)%Q) /\ in_range t /\ is_int t
  /\ gibbs_init ln C mass mu_table default_id c dhf v t None None = Err KeyError.
Proof. exact xenon_witness. Qed.
Print Assumptions C119_missing_refuted.

(* The reference energy of a composition is negative and falls with the temperature, on
   the grid and between its points. *)
Theorem C119_falls : forall items t1 t2 s1 s2, (forall ea, In ea items -> in_table (fst ea) /\ (0 < snd ea)%Q) -> items <> [] -> in_range t1 -> in_range t2 ->
  (pyval t1 < pyval t2)%Q -> sum_g_i mu_table items t1 = Ok s1 -> sum_g_i mu_table items t2 = Ok s2 -> (s2 < s1)%Q /\ (s1 < 0)%Q.
Proof. exact sum_falls. Qed.
Print Assumptions C119_falls.

(* Li2O from 350 K to 1234.5 K *)
Example C119_demo : (forall ea, In ea (el_amts pair_chem 0) -> in_table (fst ea) /\ (0 < snd ea)%Q) /\ in_range (PInt 350) /\ in_range (PFloat (2469 # 2))
  /\ exists s1 s2, sum_g_i mu_table (el_amts pair_chem 0) (PInt 350) = Ok s1 /\ sum_g_i mu_table (el_amts pair_chem 0) (PFloat (2469 # 2)) = Ok s2.
Proof.
  split; [exact li2o_table|]. split; [split; vm_compute; discriminate|]. split; [split; vm_compute; discriminate|].
  do 2 eexists. split; vm_compute; reflexivity.
Qed.

(* A phase diagram with a compound of an element that is not in the table, and without
   experimental data, cannot be turned into an entry set. *)
Theorem C119_missing_set : forall ln C mass default_id, wf_chem C -> forall formula is_el is_ref nist freed un uf ign comp dhf vol t adjs entries e x,
  (forall e, is_el e = is_element C (comp e)) -> in_range t -> (forall x, In x (elems C (comp e)) -> (0 < mass x)%Q) ->
  In e entries -> 2 <= length (elems C (comp e)) -> In x (elems C (comp e)) -> ~ in_table x ->
  (un = true -> src_has nist (formula e) = false) -> (uf = true -> src_has freed (formula e) = false) ->
  exists y, from_pd formula is_el is_ref nist freed un uf ign
    (fun e => bind (gibbs_init ln C mass mu_table default_id (comp e) (dhf e) (vol e) t (Some (adjs e)) None) (fun _ => Ok tt)) entries = Err y.
Proof. exact missing_stops_set. Qed.
Print Assumptions C119_missing_set.

(* BaO, TeO2 and Te without and with XeO3 *)
Example C119_demo_set : elems few 2 = [83; 48] /\ ~ in_table 83 /\ few_set [0; 1; 3] = Ok [FromPd 0; FromPd 1; FromPd 3] /\ few_set [0; 2; 1; 3] = Err KeyError.
Proof. split; [reflexivity|]. split; [unfold in_table; lia|]. split; vm_compute; reflexivity. Qed.

(* --- C126 --- *)
(* The reference energy falls faster and faster: the heat capacity is not negative.
   Missing: compositions with europium (21), antimony (60) or tellurium (71). *)
Theorem C126_concave_partial : forall C, wf_chem C -> forall c, (forall e, In e (elems C c) -> in_table e) -> forall t1 t2 t3 s1 s2 s3,
  ~ In 21 (elems C c) -> ~ In 60 (elems C c) -> ~ In 71 (elems C c) ->
  in_range t1 -> in_range t2 -> in_range t3 -> (pyval t1 < pyval t3)%Q -> (pyval t1 <= pyval t2 <= pyval t3)%Q ->
  sum_g_i mu_table (el_amts C c) t1 = Ok s1 -> sum_g_i mu_table (el_amts C c) t2 = Ok s2 -> sum_g_i mu_table (el_amts C c) t3 = Ok s3 ->
  (on_line (pyval t1) s1 (pyval t3) s3 (pyval t2) <= s2)%Q.
Proof. exact sum_concave. Qed.
Print Assumptions C126_concave_partial.

(* Tellurium around 1400 K. *)
Theorem C126_concave_refuted : exists C c s1 s2 s3, wf_chem C /\ elems C c = [71]
  /\ sum_g_i mu_table (el_amts C c) (PInt 1300) = Ok s1 /\ sum_g_i mu_table (el_amts C c) (PInt 1400) = Ok s2
  /\ sum_g_i mu_table (el_amts C c) (PInt 1500) = Ok s3 /\ (s2 < on_line 1300 s1 1500 s3 1400)%Q.
Proof. exact te_witness. Qed.
Print Assumptions C126_concave_refuted.

(* BaO at 300 K, 1234.5 K and 2000 K *)
Example C126_demo : wf_chem few /\ elems few 0 = [5; 48]
  /\ exists s1 s2 s3, sum_g_i mu_table (el_amts few 0) (PInt 300) = Ok s1 /\ sum_g_i mu_table (el_amts few 0) (PFloat (2469 # 2)) = Ok s2
  /\ sum_g_i mu_table (el_amts few 0) (PInt 2000) = Ok s3 /\ (s3 < s2)%Q /\ (on_line 300 s1 2000 s3 (2469 # 2) < s2)%Q.
Proof.
  split; [exact few_wf|]. split; [reflexivity|]. do 3 eexists. split; [vm_compute; reflexivity|]. split; [vm_compute; reflexivity|]. split; [vm_compute; reflexivity|].
  split; vm_compute; reflexivity.
Qed.
