(* Model of run_enumerators (enumerators/utils.py) and expand_pd (thermo/utils.py). *)
From Verif Require Import Prelude NumQ UtilsModel RxnSetModel EnumModel.
Open Scope nat_scope.

(* enumerators/utils.py:170-190 run_enumerators. Each enumerator is represented by what
   its enumerate(entries) returns or raises; None is the result for no enumerators. *)
Fixpoint run_loop (acc : option rset) (outputs : list (result rset)) : result (option rset) :=
  match outputs with
  | [] => Ok acc
  | out :: rest =>
      bind out (fun rxns =>
      bind (match acc with None => Ok rxns | Some s => add_rxn_set s rxns end) (fun s => run_loop (Some s) rest))
  end.
Definition run_enumerators (argsort : list Q -> list nat) (shuffle : list nat -> list nat) (outputs : list (result rset)) : result (option rset) :=
  bind (run_loop None outputs) (fun acc =>
  match acc with
  | None => Ok None
  | Some s => bind (filter_duplicates argsort shuffle s []) (fun s' => Ok (Some s'))
  end).

(* sorted(entries, key=lambda x: len(x.composition.elements), reverse=True): stable *)
Fixpoint insert_desc (size : nat -> nat) (x : nat) (l : list nat) : list nat :=
  match l with
  | [] => [x]
  | y :: l' => if Nat.ltb (size x) (size y) then y :: insert_desc size x l' else x :: l
  end.
Definition sort_desc (size : nat -> nat) (l : list nat) : list nat := fold_right (insert_desc size) [] l.

Section Expand.
Variable elems : nat -> list nat.     (* composition.elements, without repetitions *)

(* composition.chemical_system *)
Definition chemsys (e : nat) : list nat := sorted_set (elems e).

(* thermo/utils.py:16-54 expand_pd. A phase diagram is represented by the entries it is
   built from; building it is assumed not to raise (all elemental references are
   present). The entries of a grand potential diagram are the same. *)
Definition expand_pd (entries : list nat) : list (list nat * list nat) :=
  fold_left (fun d e =>
      if existsb (fun kv => subset (chemsys e) (fst kv)) d then d
      else d ++ [(chemsys e, filter (fun x => subset (elems x) (elems e)) entries)])
    (sort_desc (fun e => length (elems e)) entries) [].

(* entries/entry_set.py:345-361 get_e_above_hull; [e_hull] is the method of the phase
   diagram. *)
Fixpoint first_pd (d : list (list nat * list nat)) (e : nat) : result (list nat * list nat) :=
  match d with
  | [] => Err ValueError
  | kv :: d' => if subset (chemsys e) (fst kv) then Ok kv else first_pd d' e
  end.
Definition get_e_above_hull (e_hull : list nat -> nat -> Q) (entries : list nat) (e : nat) : result Q :=
  bind (first_pd (expand_pd entries) e) (fun kv => Ok (e_hull (snd kv) e)).
End Expand.
