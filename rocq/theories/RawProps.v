(* C130: theorems about the entries made from documents. *)
From Coq Require Import String Ascii QArith Sorted.
From Verif Require Import Prelude NumQ RawModel RawSpec RawProofs RawCheck.
Open Scope list_scope.
Open Scope nat_scope.

(* One entry for every document that is not deprecated, in order, with the cell, energy,
   identity and properties of the document. *)
Theorem C130_documents : forall criteria query show sites conventional decode compat k inc conv crit compatible_only property_data,
  let wanted := match property_data with Some l => l | None => [] end in
  asks k inc conv ->
  Forall (complete wanted) (query crit) -> Forall (has_cell sites k) (query crit) -> ~ In "potcar_symbols"%string wanted ->
  exists live es, selects (fun d => ~ marked d) (query crit) live /\ Forall2 (made_from show sites conventional k wanted) live es
  /\ get_entries criteria query show sites conventional decode compat (Ok crit) compatible_only inc property_data false conv false
     = Ok (if compatible_only then compat es else es).
Proof. exact unsorted_all. Qed.
Print Assumptions C130_documents.

Example C130_documents_demo :
  asks (Final true) (Some "final"%string) true /\ Forall (complete ["band_gap"%string]) (doc_query tt) /\ Forall (has_cell atoms (Final true)) (doc_query tt)
  /\ short (run_get (Some "final"%string) (Some ["band_gap"%string]) false true false)
     = Ok [(Vtext "a", Vstruct 11, (-80 # 2)%Q); (Vtext "c", Vstruct 13, (-96 # 2)%Q)].
Proof.
  split; [split; [exists "final"%string; repeat split; discriminate|reflexivity]|].
  split; [apply docs_complete; intros x [<-|[]]; right; left; reflexivity|]. split; [apply docs_cells|]. vm_compute. reflexivity.
Qed.

(* In increasing order of the energy above hull, when that is asked for. *)
Theorem C130_sorted_partial : forall criteria query show sites conventional decode compat k inc conv crit compatible_only property_data,
  let given := match property_data with Some l => l | None => [] end in
  let wanted := "e_above_hull"%string :: given in
  asks k inc conv -> keeps_data compat ->
  Forall (complete wanted) (query crit) -> Forall (has_cell sites k) (query crit) -> ~ In "potcar_symbols"%string given ->
  Forall (fun d => exists q, carries d "e_above_hull" (Vnum q)) (query crit) ->
  exists live es out, selects (fun d => ~ marked d) (query crit) live /\ Forall2 (made_from show sites conventional k wanted) live es
  /\ get_entries criteria query show sites conventional decode compat (Ok crit) compatible_only inc property_data false conv true = Ok out
  /\ Permutation out (if compatible_only then compat es else es) /\ StronglySorted not_above out.
Proof. exact sorted_all. Qed.
Print Assumptions C130_sorted_partial.

Example C130_sorted_demo :
  asks (Final false) (Some "final"%string) false /\ keeps_data (fun l => l)
  /\ Forall (complete ["e_above_hull"; "band_gap"]%string) (doc_query tt) /\ Forall (has_cell atoms (Final false)) (doc_query tt)
  /\ Forall (fun d => exists q, carries d "e_above_hull" (Vnum q)) (doc_query tt)
  /\ short (run_get (Some "final"%string) (Some ["band_gap"%string]) false false true)
     = Ok [(Vtext "c", Vstruct 3, (-12 # 1)%Q); (Vtext "a", Vstruct 1, (-10 # 1)%Q)].
Proof.
  split; [split; [exists "final"%string; repeat split; discriminate|reflexivity]|].
  split; [intros l e I; exists e; split; [exact I|reflexivity]|].
  split; [apply docs_complete; intros x X; exact X|]. split; [apply docs_cells|]. split; [exact docs_hull|]. vm_compute. reflexivity.
Qed.

(* Entries that are already made: one for every document that is not deprecated and has one; a document
   whose entries are of other kinds is skipped. *)
Theorem C130_premade_partial : forall criteria query show sites conventional decode compat crit compatible_only inc property_data conv,
  Forall named_once (query crit) ->
  Forall (fun d => marked d \/ lacking d \/ exists n e, stored d n /\ decode (Ventry n) = Ok e) (query crit) ->
  exists live es, selects (fun d => ~ marked d /\ ~ lacking d) (query crit) live
  /\ Forall2 (fun d e => exists n, stored d n /\ decode (Ventry n) = Ok e) live es
  /\ get_entries criteria query show sites conventional decode compat (Ok crit) compatible_only inc property_data true conv false
     = Ok (if compatible_only then compat es else es).
Proof. exact premade_spec. Qed.
Print Assumptions C130_premade_partial.

Example C130_premade_demo :
  Forall named_once (doc_query tt) /\ stored (fe_doc "c" Vnone (-12 # 1) (1 # 50) 3) 3
  /\ (forall n, exists e, decode_plain (Ventry n) = Ok e)
  /\ short (run_get None None true false false) = Ok [(Vtext "x", Vstruct 1, (-7 # 1)%Q); (Vtext "x", Vstruct 3, (-7 # 1)%Q)].
Proof.
  split; [apply Forall_forall; exact docs_once|].
  split; [|split; [intros n; eexists; reflexivity|vm_compute; reflexivity]].
  eexists. split; [do 14 right; left; reflexivity|]. split; [cbn; repeat constructor; cbn; intuition discriminate|].
  right. split; [left; reflexivity|]. intros x [E|[]]. discriminate.
Qed.

Example C130_premade_lacking : let odd : document := [("_id", Vtext "z"); ("entries", Vdict [("SCAN", Ventry 9); ("GGA", Vnone)])]%string in
  lacking odd /\ short (get_entries unit (fun _ => odd :: docs) show_text atoms larger decode_plain (fun l => l) (Ok tt) true None None true false false)
                 = Ok [(Vtext "x", Vstruct 1, (-7 # 1)%Q); (Vtext "x", Vstruct 3, (-7 # 1)%Q)].
Proof.
  split; [|vm_compute; reflexivity]. split; [eexists; left; reflexivity|]. eexists. split; [right; left; reflexivity|].
  split; [cbn; repeat constructor; cbn; intuition discriminate|]. intros k x Hk [[= <- <-]|[[= <- <-]|[]]]; [destruct Hk; discriminate|left; reflexivity].
Qed.

Theorem C130_premade_sorted_refuted : exists docs' : unit -> list document,
  Forall (fun d => named_once d /\ (exists n, stored d n) /\ exists q, carries d "e_above_hull" (Vnum q)) (docs' tt)
  /\ get_entries unit docs' show_text atoms larger decode_plain (fun l => l) (Ok tt) true None None true false true = Err KeyError.
Proof. exact premade_unsorted. Qed.
Print Assumptions C130_premade_sorted_refuted.

Theorem C130_premade_empty_refuted : exists docs' : unit -> list document,
  In (fe_doc "a" (Vflag false) (-10 # 1) (1 # 20) 1) (docs' tt) /\ Forall named_once (docs' tt)
  /\ get_entries unit docs' show_text atoms larger decode_plain (fun l => l) (Ok tt) true None None true false false = Err AttributeError.
Proof. exact premade_empty. Qed.
Print Assumptions C130_premade_empty_refuted.

(* The caller's list of properties. *)
Theorem C130_caller_partial : forall sort property_data,
  sort = false \/ property_data = None \/ property_data = Some [] \/ (exists l, property_data = Some l /\ In "e_above_hull"%string l) ->
  callers_list sort property_data = property_data.
Proof. exact caller_kept. Qed.
Print Assumptions C130_caller_partial.

Example C130_caller_demo : callers_list true (Some ["e_above_hull"%string; "band_gap"%string]) = Some ["e_above_hull"%string; "band_gap"%string].
Proof. vm_compute. reflexivity. Qed.

Theorem C130_caller_refuted : exists l, callers_list true (Some l) <> Some l.
Proof. exact caller_grows. Qed.
Print Assumptions C130_caller_refuted.
