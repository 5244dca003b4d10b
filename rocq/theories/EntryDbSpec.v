(* Vocabulary for C61. *)
From Coq Require Import String Ascii Sorted.
From Verif Require Import Prelude EntryDbModel.
Open Scope list_scope.
Open Scope nat_scope.

(* A symbol has no dash. *)
Definition symbol (s : string) : Prop := ~ In dash (list_ascii_of_string s).
(* The name of a chemical system: its elements in increasing order, with dashes. *)
Definition names (els : list string) (name : string) : Prop :=
  exists l, Permutation l els /\ StronglySorted (fun a b => String.leb a b = true) l /\ name = join_dash l.
(* A document lists its elements once, and its chemical system is their name. *)
Record wf_doc (d : doc) : Prop := {
  wf_some : doc_elements d <> [];
  wf_once : NoDup (doc_elements d);
  wf_symbols : Forall symbol (doc_elements d);
  wf_name : names (doc_elements d) (doc_chemsys d) }.
(* The document belongs to the chemical system. *)
Definition within (els : list string) (d : doc) : Prop := incl (doc_elements d) els.
(* The entry that is taken from a document: GGA+U, else GGA. *)
Definition chosen (d : doc) (e : nat) : Prop :=
  doc_none d = false /\ (doc_ggau d = Some e \/ (doc_ggau d = None /\ doc_gga d = Some e)).
(* The entries taken from these documents, in any order. *)
Definition taken (docs : list doc) (out : list nat) : Prop :=
  exists l, Forall2 (fun d o => forall e, o = Some e <-> chosen d e) docs l
  /\ Permutation out (flat_map (fun o : option nat => match o with Some e => [e] | None => [] end) l).
