(* The tables of the experimental entries as entries/experimental.py sees them. A formula is
   known by its place in the table. *)
From Coq Require Import String.
From Verif Require Import Prelude NumQ.
Open Scope list_scope.
Open Scope nat_scope.

(* data/__init__.py:20-32 load_experimental_data, make_float_keys: the rows of a formula, the
   texts "300", "400", ... made numbers *)
Definition rows_of (vs : list Z) : list (Q * Q) :=
  combine (map (fun i => inject_Z (100 * (3 + Z.of_nat i))) (seq 0 (length vs))) (map (fun z => (z # 1000000)%Q) vs).
(* REFERENCES of entries/nist.py:34 and entries/freed.py:29 *)
Definition table_refs (tab : list (string * Z * list Z)) (f : nat) : option (list (Q * Q)) :=
  option_map (fun row => rows_of (snd row)) (nth_error tab f).
