(* The identifiers of entries and what a reaction set makes of them: from_rxns and
   get_rxns of reactions/reaction_set.py over entries with an equality of their own.
   RxnSetModel has the same functions over entries that are equal only when they are
   identical; here the equality, the hash and the identifier are those of the entry
   classes. *)
From Verif Require Import Prelude NumQ UtilsModel ReactionModel GibbsModel.
Open Scope nat_scope.

(* --- what a python set and a dictionary of identifiers do --- *)
Section Ids.
Context {E U : Type}.
(* [same x y]: the hashes are equal and x == y *)
Variable same : E -> E -> bool.
Variable uid : E -> U.
Variable same_uid : U -> U -> bool.

(* set(entries): an item is added if no item like it is there yet *)
Fixpoint pyset (l seen : list E) : list E :=
  match l with
  | [] => rev seen
  | e :: l' => pyset l' (if existsb (fun s => same s e) seen then seen else e :: seen)
  end.

(* reaction_set.py:129-134: the dictionary from identifier to position; the last entry
   with an identifier is the one that stays. [None]: no such key. *)
Fixpoint position (u : U) (l : list E) (k : nat) (found : option nat) : option nat :=
  match l with
  | [] => found
  | e :: l' => position u l' (S k) (if same_uid u (uid e) then Some k else found)
  end.

Record urxn := { u_entries : list E; u_coeffs : list Q }.
(* reaction_set.py:140-147: the row of positions of a reaction *)
Definition row_of (es : list E) (r : urxn) : result (list nat * list Q) :=
  bind (mapM (fun e => match position (uid e) es 0 None with Some i => Ok i | None => Err KeyError end) (u_entries r))
       (fun idx => Ok (idx, u_coeffs r)).

(* reaction_set.py:105-187 from_rxns; [arrange] sorts by composition (line 126). The
   rows are kept in the order of the reactions, not grouped by size (RxnSetModel has the
   groups); data and chemical potentials are not modelled here. An empty list of
   entries stands for None. *)
Definition uids_from_rxns (arrange : list E -> list E) (rxns : list urxn) (entries : list E)
    : result (list E * list (list nat * list Q)) :=
  let given := match entries with [] => pyset (flat_map u_entries rxns) [] | _ => entries end in
  let es := arrange (pyset given []) in
  bind (mapM (row_of es) rxns) (fun rows => Ok (es, rows)).

(* reaction_set.py:96-102 get_rxns and 599-634 _get_rxns_by_indices: the entries at the
   positions *)
Definition uids_get_rxns (s : list E * list (list nat * list Q)) : result (list urxn) :=
  mapM (fun row => bind (mapM (fun i => match nth_error (fst s) i with Some e => Ok e | None => Err IndexError end) (fst row))
                        (fun es => Ok {| u_entries := es; u_coeffs := snd row |})) (snd s).
End Ids.
Arguments urxn : clear implicits.

(* --- the identifiers of the classes --- *)
(* str(temperature): an int and a float have different texts *)
Definition same_number_text (a b : pynum) : bool :=
  match a, b with
  | PInt x, PInt y => Z.eqb x y
  | PFloat x, PFloat y => Qeq_bool x y
  | _, _ => false
  end.

(* entries/gibbs.py:283-290 unique_id: entry id and temperature as text. An entry id is
   assumed not to end in an underscore and a number. *)
Definition gibbs_uid (e : gentry) : nat * pynum := (ge_id e, ge_temp e).
Definition same_gibbs_uid (a b : nat * pynum) : bool := Nat.eqb (fst a) (fst b) && same_number_text (snd a) (snd b).
(* entries/gibbs.py:343-366: == and the hash of composition, energy, id and temperature;
   numbers that are equal have equal hashes *)
Definition gibbs_same (ln : Q -> Q) (C : chem) (a b : gentry) : bool :=
  Nat.eqb (ge_comp a) (ge_comp b) && Qeq_bool (gibbs_energy ln C a) (gibbs_energy ln C b) && Nat.eqb (ge_id a) (ge_id b)
  && Qeq_bool (pyval (ge_temp a)) (pyval (ge_temp b)) && gibbs_eq ln C a b.

(* entries/experimental.py:53, 148-154 unique_id (the entry id): class, reduced formula
   and temperature as text; the class is the same for all entries here *)
Definition exp_uid (C : chem) (e : xentry) : nat * pynum := (red C (xe_comp e), xe_temp e).
Definition same_exp_uid (a b : nat * pynum) : bool := Nat.eqb (fst a) (fst b) && same_number_text (snd a) (snd b).
(* entries/experimental.py:202-218 *)
Definition exp_same (ln : Q -> Q) (C : chem) (a b : xentry) : bool :=
  Nat.eqb (xe_comp a) (xe_comp b) && same_number_text (xe_temp a) (xe_temp b) && exp_eq ln C a b.

(* entries/interpolated.py:53-56 __init__: without an id, the class name and the formula
   of the composition ([formula_id]) *)
Definition interp_init (formula_id : nat -> nat) (c : nat) (energy : Q) (id : option nat) : ientry :=
  {| ie_comp := c; ie_energy := energy; ie_id := match id with Some i => i | None => formula_id c end |}.
(* entries/interpolated.py:97-100 unique_id *)
Definition interp_uid (e : ientry) : nat := ie_id e.
(* entries/interpolated.py:114-133 *)
Definition interp_same (a b : ientry) : bool :=
  Nat.eqb (ie_comp a) (ie_comp b) && Qeq_bool (ie_energy a) (ie_energy b) && Nat.eqb (ie_id a) (ie_id b) && interp_eq a b.
