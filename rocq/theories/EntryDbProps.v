(* C61, C84: theorems about database queries. *)
From Coq Require Import String Ascii Sorted.
From Verif Require Import Prelude UtilsModel EnumSpec EntryDbModel EntryDbSpec EntryDbProofs.
Open Scope list_scope.
Open Scope nat_scope.

(* --- C61 --- *)
(* Up to 13 elements: each subsystem once, in groups of at most n. *)
Theorem C61_queries : forall n elements, 0 < n -> NoDup elements -> Forall symbol elements -> length elements <= 13 ->
  exists gs, query_plan n elements = Ok (map ChemsysIn gs) /\ Forall (fun g => length g <= n) gs /\ NoDup (concat gs)
  /\ forall name, In name (concat gs) <-> exists sub, sub <> [] /\ NoDup sub /\ incl sub elements /\ names sub name.
Proof. exact plan_spec. Qed.
Print Assumptions C61_queries.

(* Every document of the system gives its entry once, for any number of elements and any
   group size. *)
Theorem C61_group_size : forall n db elements, 0 < n -> NoDup elements -> Forall symbol elements -> Forall wf_doc db ->
  exists docs out, all_entries n db elements = Ok out /\ picks (within elements) db docs /\ taken docs out.
Proof. exact all_entries_spec. Qed.
Print Assumptions C61_group_size.

(* The function itself, for a list of elements or their names with dashes. *)
Theorem C61_entries : forall db elements, NoDup elements -> Forall symbol elements -> Forall wf_doc db ->
  (exists docs out, all_entries_in_chemsys db (inr elements) = Ok out /\ picks (within elements) db docs /\ taken docs out)
  /\ (elements <> [] -> all_entries_in_chemsys db (inl (join_dash elements)) = all_entries_in_chemsys db (inr elements)).
Proof. exact all_entries_in_chemsys_spec. Qed.
Print Assumptions C61_entries.

Example C61_demo :
  let d1 := {| doc_chemsys := "Fe-O"; doc_elements := ["Fe"; "O"]%string; doc_none := false; doc_ggau := Some 1; doc_gga := Some 2 |} in
  let d2 := {| doc_chemsys := "Li"; doc_elements := ["Li"]%string; doc_none := false; doc_ggau := None; doc_gga := Some 3 |} in
  let d3 := {| doc_chemsys := "Fe-S"; doc_elements := ["Fe"; "S"]%string; doc_none := false; doc_ggau := Some 4; doc_gga := None |} in
  Forall wf_doc [d1; d2; d3] /\ Forall symbol ["O"; "Li"; "Fe"]%string
  /\ all_entries_in_chemsys [d1; d2; d3] (inl "O-Li-Fe"%string) = Ok [1; 3]
  /\ all_entries 2 [d1; d2; d3] ["O"; "Li"; "Fe"]%string = Ok [3; 1].
Proof.
  intros d1 d2 d3.
  split.
  - repeat constructor; try discriminate; try (cbv; intuition discriminate);
      [exists ["Fe"; "O"]%string|exists ["Li"]%string|exists ["Fe"; "S"]%string]; (split; [reflexivity|split; [repeat constructor|reflexivity]]).
  - split; [repeat constructor; cbv; intuition discriminate|]. split; vm_compute; reflexivity.
Qed.

(* --- C84 --- *)
(* Missing: a document with both entries. *)
Theorem C84_same_choice_partial : forall d, doc_none d = false -> doc_gga d = None \/ doc_ggau d = None -> pick_premade d = pick_entry d.
Proof. exact same_choice. Qed.
Print Assumptions C84_same_choice_partial.

Example C84_demo :
  let d := {| doc_chemsys := "Fe-O"; doc_elements := ["Fe"; "O"]%string; doc_none := false; doc_ggau := Some 1; doc_gga := None |} in
  doc_none d = false /\ (doc_gga d = None \/ doc_ggau d = None) /\ pick_premade d = [1].
Proof. split; [reflexivity|]. split; [left; reflexivity|reflexivity]. Qed.

Theorem C84_both_refuted : exists d e e', wf_doc d /\ pick_entry d = [e] /\ pick_premade d = [e'] /\ e <> e' /\ chosen d e.
Proof. exact other_choice. Qed.
Print Assumptions C84_both_refuted.
