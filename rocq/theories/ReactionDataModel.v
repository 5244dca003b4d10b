(* Model of the data dictionaries of reactions: reactions/basic.py, computed.py,
   open.py and costs/base.py. A heap is a list of dictionaries; a reaction holds a
   reference (a position in the heap). *)
From Verif Require Import Prelude NumQ ReactionModel.

Notation dict := (list (nat * Q)).
Notation heap := (list dict).

Definition deref (h : heap) (ref : nat) : dict := nth ref h [].

(* A new object at the end of the heap. *)
Definition alloc (h : heap) (d : dict) : heap * nat := (h ++ [d], length h).

(* data[k] = v *)
Fixpoint store (h : heap) (ref k : nat) (v : Q) : heap :=
  match h, ref with
  | [], _ => []
  | d :: h', 0 => dict_set k v d :: h'
  | d :: h', S ref' => d :: store h' ref' k v
  end.
Definition store_all (h : heap) (ref : nat) (l : list (nat * Q)) : heap :=
  fold_left (fun h kv => store h ref (fst kv) (snd kv)) l h.

(* basic.py:79 self.data = data if data else {} *)
Definition init_data (h : heap) (data : option nat) : heap * nat :=
  match data with
  | None => alloc h []
  | Some ref => match deref h ref with [] => alloc h [] | _ => (h, ref) end
  end.

Inductive kind := KBasic | KComputed | KOpen.

Inductive op := OpCopy | OpReverse | OpNormalize | OpNormalizeElement | OpNewTemperature | OpOpen.

(* The reference the operation hands to the constructor of the new reaction:
   basic.py:130, 146 pass no data; basic.py:175, 187, computed.py:106, 167, 171, 186, 202
   and open.py:131, 168, 178 pass self.data. BasicReaction has no get_new_temperature. *)
Definition passes_data (k : kind) (o : op) : bool :=
  match k, o with
  | KBasic, OpNormalize => false
  | KBasic, OpNormalizeElement => false
  | _, _ => true
  end.

(* The data reference of the reaction returned by the operation. open.py:219
   from_computed_rxn passes a shallow copy of the dictionary. *)
Definition run_op (k : kind) (o : op) (h : heap) (ref : nat) : heap * nat :=
  match o with
  | OpOpen => let '(h1, r1) := alloc h (deref h ref) in init_data h1 (Some r1)
  | _ => init_data h (if passes_data k o then Some ref else None)
  end.

(* costs/base.py:37-53 decorate. [name] is the calculator's name, [v] the value it
   computes. deepcopy makes a new dictionary. *)
Definition decorate (h : heap) (ref name : nat) (v : Q) : heap * nat :=
  let '(h1, r1) := alloc h (deref h ref) in
  let '(h2, r2) := match deref h1 r1 with [] => alloc h1 [] | _ => (h1, r1) end in
  (store h2 r2 name v, r2).

(* costs/base.py:55-68 decorate_many *)
Fixpoint decorate_many (h : heap) (refs : list nat) (name : nat) (v : nat -> Q) : heap * list nat :=
  match refs with
  | [] => (h, [])
  | r :: rs => let '(h1, r1) := decorate h r name (v r) in
               let '(h2, rs2) := decorate_many h1 rs name v in (h2, r1 :: rs2)
  end.
