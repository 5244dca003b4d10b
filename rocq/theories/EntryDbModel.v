(* Model of the database queries of entries/utils.py. *)
From Coq Require Import String Ascii.
From Verif Require Import Prelude UtilsModel.
Open Scope list_scope.
Open Scope nat_scope.

(* sorted(els) for strings: comparison by code points *)
Fixpoint insert_str (x : string) (l : list string) : list string :=
  match l with
  | [] => [x]
  | y :: l' => if String.leb x y then x :: l else y :: insert_str x l'
  end.
Definition sort_str (l : list string) : list string := fold_right insert_str [] l.

(* "-".join(l) and s.split("-") *)
Definition dash : ascii := "-"%char.
Fixpoint join_dash (l : list string) : string :=
  match l with
  | [] => ""%string
  | [x] => x
  | x :: l' => (x ++ String dash (join_dash l'))%string
  end.
Fixpoint split_dash (s : string) : list string :=
  match s with
  | EmptyString => [EmptyString]
  | String c s' =>
      if Ascii.eqb c dash then EmptyString :: split_dash s'
      else match split_dash s' with [] => [String c EmptyString] | x :: l => String c x :: l end
  end.

(* A document: its chemical system, its elements, and its entries (None for a missing or
   empty value; [doc_none] tells that d["entries"] is empty). Entries are numbers. *)
Record doc := { doc_chemsys : string; doc_elements : list string; doc_none : bool; doc_ggau : option nat; doc_gga : option nat }.

(* The two criteria used: {"chemsys": {"$in": l}} and
   {"elements": {"$not": {"$elemMatch": {"$nin": l}}}} *)
Inductive criteria := ChemsysIn (l : list string) | ElementsWithin (l : list string).
Definition memb_str (x : string) (l : list string) : bool := existsb (String.eqb x) l.
Definition matches (c : criteria) (d : doc) : bool :=
  match c with
  | ChemsysIn l => memb_str (doc_chemsys d) l
  | ElementsWithin l => forallb (fun x => memb_str x l) (doc_elements d)
  end.

(* 146-161; db.query gives the matching documents in some order *)
Definition pick_entry (d : doc) : list nat :=
  if doc_none d then []
  else match doc_ggau d with
       | Some e => [e]
       | None => match doc_gga d with Some e => [e] | None => [] end
       end.
Definition from_entry_db (db : list doc) (c : criteria) : list nat := flat_map pick_entry (filter (matches c) db).

(* 299-306, the same step of get_entries with use_premade_entries, for a document that
   is not deprecated *)
Definition pick_premade (d : doc) : list nat :=
  match doc_gga d with
  | Some e => [e]
  | None => match doc_ggau d with Some e => [e] | None => [] end
  end.

(* 186-188, 387-389 divide_chunks; range raises for n = 0 *)
Fixpoint chunks_fuel {A} (fuel n : nat) (l : list A) : list (list A) :=
  match fuel, l with
  | S f, _ :: _ => firstn n l :: chunks_fuel f n (skipn n l)
  | _, _ => []
  end.
Definition divide_chunks {A} (n : nat) (l : list A) : result (list (list A)) :=
  if Nat.eqb n 0 then Err ValueError else Ok (chunks_fuel (length l) n l).

(* 193-199 *)
Definition all_chemsyses (elements : list string) : list string :=
  map (fun els => join_dash (sort_str els)) (flat_map (fun i => combinations elements (i + 1)) (seq 0 (length elements))).

(* 190-213 get_all_entries_in_chemsys_from_entry_db, [n] is 1000 there and an argument in
   get_all_entries_in_chemsys (391-426) *)
Definition query_plan (n : nat) (elements : list string) : result (list criteria) :=
  if length elements <=? 13
  then bind (divide_chunks n (all_chemsyses elements)) (fun gs => Ok (map ChemsysIn gs))
  else Ok [ElementsWithin elements].
Definition all_entries (n : nat) (db : list doc) (elements : list string) : result (list nat) :=
  bind (query_plan n elements) (fun cs => Ok (flat_map (from_entry_db db) cs)).
Definition all_entries_in_chemsys (db : list doc) (elements : string + list string) : result (list nat) :=
  all_entries 1000 db (match elements with inl s => split_dash s | inr l => l end).
