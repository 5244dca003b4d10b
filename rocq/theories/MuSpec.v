(* Vocabulary for the table of elemental chemical potentials. *)
From Verif Require Import Prelude NumQ MuModel.
Open Scope nat_scope.

(* the value of element e in the row of temperature z *)
Definition mu (z : Z) (e : nat) : Q :=
  match find (fun kv => Z.eqb z (fst kv)) mu_table with
  | Some kv => nth e (map snd (snd kv)) 0%Q
  | None => 0%Q
  end.
(* the elements of the table: silver is 0, zirconium 82 *)
Definition in_table (e : nat) : Prop := e < 83.
