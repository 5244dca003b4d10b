(* What storing an open reaction asks of its parts. *)
From Verif Require Import Prelude NumQ UtilsModel ReactionModel GibbsModel StoreModel StoreSpec.
Open Scope nat_scope.

(* an entry made by the constructor, with Elements for keys only one level down and no
   two keys of one name *)
Definition storable (elem_text : nat -> nat) (num_text : Z -> nat) (ln : Q -> Q) (C : chem) (mass : nat -> Q) (table : list (Z * list (nat * Q)))
    (default_id : nat -> Q -> nat) (e : stored_entry) : Prop :=
  (exists c dhf v t adjs id, gibbs_init ln C mass table default_id c dhf v t adjs id = Ok (st_entry e))
  /\ (forall n, elem_key n (TDict (st_data e)) -> n = 1) /\ distinct_names (name_of elem_text num_text) (TDict (st_data e)).

(* the same entry, its data with texts for keys *)
Definition kept (elem_text : nat -> nat) (num_text : Z -> nat) (e : stored_entry) (e' : gentry * tree) : Prop :=
  fst e' = st_entry e /\ renamed (name_of elem_text num_text) (TDict (st_data e)) (snd e').
