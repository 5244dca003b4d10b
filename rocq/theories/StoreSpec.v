(* What storing an entry should do to its data. *)
From Verif Require Import Prelude NumQ UtilsModel ReactionModel GibbsModel StoreModel.
Open Scope nat_scope.

(* there is an Element among the keys, n levels down *)
Inductive elem_key : nat -> tree -> Prop :=
| key_here e v l : In (KElem e, v) l -> elem_key 0 (TDict l)
| key_in_dict n k v l : In (k, v) l -> elem_key n v -> elem_key (S n) (TDict l)
| key_in_list n v l : In v l -> elem_key n v -> elem_key (S n) (TList l).

(* the same data with texts for keys *)
Inductive renamed (name : key -> nat) : tree -> tree -> Prop :=
| renamed_leaf n : renamed name (Leaf n) (Leaf n)
| renamed_list l l' : Forall2 (renamed name) l l' -> renamed name (TList l) (TList l')
| renamed_dict l l' : Forall2 (fun a b => fst b = KText (name (fst a)) /\ renamed name (snd a) (snd b)) l l' ->
    renamed name (TDict l) (TDict l').

(* no dictionary has two keys of one name *)
Inductive distinct_names (name : key -> nat) : tree -> Prop :=
| distinct_leaf n : distinct_names name (Leaf n)
| distinct_list l : Forall (distinct_names name) l -> distinct_names name (TList l)
| distinct_dict l : NoDup (map (fun kv => name (fst kv)) l) -> Forall (fun kv => distinct_names name (snd kv)) l ->
    distinct_names name (TDict l).

(* all keys are texts *)
Inductive only_texts : tree -> Prop :=
| texts_leaf n : only_texts (Leaf n)
| texts_list l : Forall only_texts l -> only_texts (TList l)
| texts_dict l : Forall (fun kv => (exists n, fst kv = KText n) /\ only_texts (snd kv)) l -> only_texts (TDict l).

(* the name of a key: the text itself, the symbol of an element, the digits of a number *)
Definition name_of (elem_text : nat -> nat) (num_text : Z -> nat) (k : key) : nat :=
  match k with KText n => n | KElem e => elem_text e | KNum z => num_text z end.

(* the number of atoms of a structure *)
Definition occupancy (s : structure) : Q := fold_right Qplus 0%Q (map snd (concat (s_sites s))).

(* what the comment of is_experimental says: marked as not theoretical, or not marked
   and with at least one entry in the ICSD *)
Definition known (theoretical : option (option bool)) (icsd_ids : option (option nat)) : Prop :=
  theoretical = Some (Some false) \/ (theoretical = None /\ exists n, icsd_ids = Some (Some n) /\ n >= 1).
