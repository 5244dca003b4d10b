(* Vocabulary for C130. *)
From Coq Require Import String Ascii QArith Sorted.
From Verif Require Import Prelude NumQ RawModel.
Open Scope list_scope.
Open Scope nat_scope.

(* A property of a document. A document names each property once. *)
Definition carries (d : document) (k : string) (v : val) : Prop := In (k, v) d.
Definition named_once (d : document) : Prop := NoDup (map fst d).
(* A value that counts as false in python. *)
Definition void (v : val) : Prop :=
  v = Vnone \/ v = Vflag false \/ (exists q, v = Vnum q /\ (q == 0)%Q) \/ v = Vtext ""%string \/ v = Vlist [] \/ v = Vdict [].
(* The document is marked as deprecated. *)
Definition marked (d : document) : Prop := exists v, carries d "deprecated" v /\ ~ void v.
(* Some members of a list, in order. *)
Inductive selects {A} (P : A -> Prop) : list A -> list A -> Prop :=
| selects_nil : selects P [] []
| selects_take : forall x l m, P x -> selects P l m -> selects P (x :: l) (x :: m)
| selects_skip : forall x l m, ~ P x -> selects P l m -> selects P (x :: l) m.
(* The parameters an entry gets from its document. *)
Definition parameter_names : list string :=
  ["deprecated"; "run_type"; "is_hubbard"; "pseudo_potential"; "hubbards"; "oxide_type"]%string.
(* The pseudopotentials of a document: its functional and its labels, which may be missing. *)
Definition labelled (d : document) (f : val) (ls : list val) : Prop :=
  exists m, carries d "pseudo_potential" (Vdict m) /\ NoDup (map fst m)
  /\ ((In ("functional"%string, f) m /\ In ("labels"%string, Vlist ls) m) \/ (ls = [] /\ forall v, ~ In ("labels"%string, v) m)).
(* The document has what an entry needs, and the wanted properties. *)
Record complete (wanted : list string) (d : document) : Prop := {
  complete_once : named_once d;
  complete_energy : exists x, carries d "final_energy" (Vnum x);
  complete_cell : exists v, carries d "unit_cell_formula" v;
  complete_id : exists v, carries d "task_id" v;
  complete_params : forall k, In k parameter_names -> exists v, carries d k v;
  complete_labels : exists f ls, labelled d f ls;
  complete_wanted : forall k, In k wanted -> exists v, carries d k v }.

(* What the cell of an entry is: the formula, or one of the structures, as it is or in
   its conventional form. *)
Inductive kind := Formula | Initial (conv : bool) | Final (conv : bool).
Definition cell_name (k : kind) : string :=
  match k with Formula => "unit_cell_formula" | Initial _ => "initial_structure" | Final _ => "structure" end.
Definition is_conventional (k : kind) : bool := match k with Formula => false | Initial c | Final c => c end.
(* The document has the cell; a structure has atoms. *)
Definition has_cell (sites : nat -> nat) (k : kind) (d : document) : Prop :=
  k = Formula \/ exists s, carries d (cell_name k) (Vstruct s) /\ 0 < sites s.
Definition per_atom (x : Q) (n : nat) : Q := (x / (Z.of_nat n # 1))%Q.
(* The cell and the energy agree with the document: the conventional cell has the same
   energy for each atom. *)
Definition right_cell (sites conventional : nat -> nat) (k : kind) (d : document) (e : raw_entry) : Prop :=
  exists x, carries d "final_energy" (Vnum x) /\
  match k with
  | Formula => carries d "unit_cell_formula" (ent_cell e) /\ ent_energy e = x
  | _ => exists s, carries d (cell_name k) (Vstruct s)
         /\ if is_conventional k
            then ent_cell e = Vstruct (conventional s)
                 /\ (0 < sites (conventional s) -> (per_atom (ent_energy e) (sites (conventional s)) == per_atom x (sites s))%Q)
            else ent_cell e = Vstruct s /\ ent_energy e = x
  end.
(* An entry made from a document: its cell, energy, identity, the wanted properties and
   the parameters, and nothing else. *)
Record made_from (show : val -> string) (sites conventional : nat -> nat) (k : kind) (wanted : list string) (d : document) (e : raw_entry) : Prop := {
  made_cell : right_cell sites conventional k d e;
  made_id : carries d "task_id" (ent_id e);
  made_data : forall n v, In (n, v) (ent_data e) <-> (n = "oxide_type"%string \/ In n wanted) /\ carries d n v;
  made_data_once : NoDup (map fst (ent_data e));
  made_params : forall n v, n <> "potcar_symbols"%string -> (In (n, v) (ent_params e) <-> In n parameter_names /\ carries d n v);
  made_potcars : forall f ls, labelled d f ls ->
    In ("potcar_symbols"%string, Vlist (map (fun l => Vtext (show f ++ " " ++ show l)%string) ls)) (ent_params e);
  made_params_once : NoDup (map fst (ent_params e)) }.

(* The energy above hull that an entry carries; entries in increasing order of it. *)
Definition above_hull (e : raw_entry) (q : Q) : Prop := In ("e_above_hull"%string, Vnum q) (ent_data e).
Definition not_above (a b : raw_entry) : Prop := exists x y, above_hull a x /\ above_hull b y /\ (x <= y)%Q.
(* The correction of entries may drop some of them and change energies, not the data. *)
Definition keeps_data (compat : list raw_entry -> list raw_entry) : Prop :=
  forall l e, In e (compat l) -> exists e', In e' l /\ ent_data e = ent_data e'.

(* How an entry of a kind is asked for: no structure, the initial one, or any other text. *)
Definition asks (k : kind) (inc : option string) (conv : bool) : Prop :=
  match k with
  | Formula => inc = None \/ inc = Some ""%string
  | Initial c => inc = Some "initial"%string /\ conv = c
  | Final c => (exists s, inc = Some s /\ s <> ""%string /\ s <> "initial"%string) /\ conv = c
  end.

(* The stored entry that is taken: that of the GGA calculation unless it is missing or void. *)
Definition stored (d : document) (n : nat) : Prop :=
  exists ents, carries d "entries" (Vdict ents) /\ NoDup (map fst ents) /\
  (In ("GGA"%string, Ventry n) ents \/ (In ("GGA+U"%string, Ventry n) ents /\ forall x, In ("GGA"%string, x) ents -> void x)).
(* The document has entries, but neither of these two. *)
Definition lacking (d : document) : Prop :=
  (exists v, carries d "_id" v) /\ exists ents, carries d "entries" (Vdict ents) /\ NoDup (map fst ents) /\
  forall k x, k = "GGA"%string \/ k = "GGA+U"%string -> In (k, x) ents -> void x.
