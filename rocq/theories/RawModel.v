(* Model of get_entries of entries/utils.py: entries made from the documents of a
   database. *)
From Coq Require Import String Ascii QArith.
From Verif Require Import Prelude NumQ EntryDbModel.
Open Scope list_scope.
Open Scope nat_scope.

(* The values in a document. A structure is a number; so is a stored entry. *)
Inductive val :=
| Vnone
| Vflag (b : bool)
| Vnum (q : Q)
| Vtext (s : string)
| Vstruct (s : nat)
| Ventry (n : nat)
| Vlist (l : list val)
| Vdict (d : list (string * val)).
Definition document := list (string * val).

(* d.get(k), d[k], d[k] = v *)
Fixpoint look (k : string) (d : document) : option val :=
  match d with [] => None | (k', v) :: d' => if String.eqb k k' then Some v else look k d' end.
Definition item (d : document) (k : string) : result val := match look k d with Some v => Ok v | None => Err KeyError end.
Fixpoint put (k : string) (v : val) (d : document) : document :=
  match d with [] => [(k, v)] | (k', v') :: d' => if String.eqb k k' then (k, v) :: d' else (k', v') :: put k v d' end.
Definition put_all (new d : document) : document := fold_left (fun d kv => put (fst kv) (snd kv) d) new d.
(* {k: d[k] for k in ks} *)
Definition items (d : document) (ks : list string) : result document :=
  bind (mapM (fun k => bind (item d k) (fun v => Ok (k, v))) ks) (fun l => Ok (put_all l [])).
(* bool(v); a structure or an entry is a dictionary with something in it *)
Definition truthy (v : val) : bool :=
  match v with
  | Vnone => false
  | Vflag b => b
  | Vnum q => negb (Qeq_bool q 0)
  | Vtext s => negb (String.eqb s "")
  | Vstruct _ | Ventry _ => true
  | Vlist l => match l with [] => false | _ => true end
  | Vdict l => match l with [] => false | _ => true end
  end.
Definition truthy_item (d : document) (k : string) : bool := match look k d with Some v => truthy v | None => false end.

(* A ComputedEntry (the cell is a formula) or a ComputedStructureEntry (a structure). *)
Record raw_entry := { ent_cell : val; ent_energy : Q; ent_params : document; ent_data : document; ent_id : val }.

Section Raw.
Variable criteria : Type.
(* db.query(criteria): the matching documents, in the order of the database *)
Variable query : criteria -> list document.
(* str(v) inside an f-string *)
Variable show : val -> string.
(* len(s), and SpacegroupAnalyzer(s).get_conventional_standard_structure() *)
Variable sites : nat -> nat.
Variable conventional : nat -> nat.
(* ComputedStructureEntry.from_dict *)
Variable decode : val -> result raw_entry.
(* MaterialsProject2020Compatibility().process_entries(entries, clean=True) *)
Variable compat : list raw_entry -> list raw_entry.

(* 261-269 *)
Definition params : list string :=
  ["deprecated"; "run_type"; "is_hubbard"; "pseudo_potential"; "hubbards"; "potcar_symbols"; "oxide_type"]%string.
Definition hull_key : string := "e_above_hull".
Definition has_text (x : string) (l : list string) : bool := memb String.eqb x l.

(* 271-275: the properties that are asked for *)
Definition asked_for (sort : bool) (property_data : option (list string)) : list string :=
  match property_data with
  | Some (x :: l) => if sort && negb (has_text hull_key (x :: l)) then (x :: l) ++ [hull_key] else x :: l
  | _ => if sort then [hull_key] else []
  end.
(* 271-275: the caller's list after the call. property_data.append changes it, the
   assignment does not. *)
Definition callers_list (sort : bool) (property_data : option (list string)) : option (list string) :=
  match property_data with
  | Some (x :: l) => if sort && negb (has_text hull_key (x :: l)) then Some ((x :: l) ++ [hull_key]) else Some (x :: l)
  | p => p
  end.
(* 280-284: the name of the structure *)
Definition structure_key (inc : string) : string := if String.eqb inc "initial" then "initial_structure" else "structure".
(* 270, 276-284, 291-292. An empty text is no structure. *)
Definition with_structure (inc : option string) : option string :=
  match inc with Some s => if String.eqb s "" then None else Some s | None => None end.
Definition props_of (premade : bool) (wanted : list string) (inc : option string) : list string :=
  if premade then ["entries"; "deprecated"]%string
  else (["final_energy"; "unit_cell_formula"; "task_id"]%string ++ params) ++ wanted
       ++ (match with_structure inc with Some s => [structure_key s] | None => [] end).
(* db.query(criteria, props): the projection keeps _id and the named properties *)
Definition project (props : list string) (d : document) : document :=
  filter (fun kv => has_text (fst kv) ("_id"%string :: props)) d.

(* 299-306. d["entries"] may be missing, or None, which has no get. *)
Definition premade_entry (d : document) : result (list raw_entry) :=
  bind (item d "entries") (fun v =>
  match v with
  | Vdict ent =>
      if truthy_item ent "GGA" then bind (item ent "GGA") (fun x => bind (decode x) (fun e => Ok [e]))
      else if truthy_item ent "GGA+U" then bind (item ent "GGA+U") (fun x => bind (decode x) (fun e => Ok [e]))
      else bind (item d "_id") (fun _ => Ok [])
  | _ => Err AttributeError
  end).

(* 308-310. Iterating over a text is not modelled. *)
Definition labels_of (p : val) : result (list val) :=
  match p with
  | Vdict m => match look "labels" m with None => Ok [] | Some (Vlist l) => Ok l | Some _ => Err TypeError end
  | _ => Err AttributeError
  end.
Definition functional_of (p : val) : result val := match p with Vdict m => item m "functional" | _ => Err TypeError end.
Definition potcars (d : document) : result val :=
  bind (item d "pseudo_potential") (fun p =>
  bind (labels_of p) (fun ls =>
  bind (mapM (fun l => bind (functional_of p) (fun f => Ok (Vtext (show f ++ " " ++ show l)%string))) ls) (fun l => Ok (Vlist l)))).
Definition number (v : val) : result Q := match v with Vnum q => Ok q | _ => Err TypeError end.
(* Structure.from_dict *)
Definition structure (v : val) : result nat := match v with Vstruct s => Ok s | _ => Err TypeError end.
(* 316-339: the cell and its energy *)
Definition cell_energy (inc : option string) (conv : bool) (d : document) : result (val * Q) :=
  match with_structure inc with
  | None => bind (item d "unit_cell_formula") (fun c => bind (bind (item d "final_energy") number) (fun x => Ok (c, x)))
  | Some s =>
      bind (bind (item d (structure_key s)) structure) (fun prim =>
      if conv then
        let t := conventional prim in
        bind (bind (item d "final_energy") number) (fun x =>
        if Nat.eqb (sites prim) 0 then Err ZeroDivisionError
        else Ok (Vstruct t, (x * ((Z.of_nat (sites t) # 1) / (Z.of_nat (sites prim) # 1)))%Q))
      else bind (bind (item d "final_energy") number) (fun x => Ok (Vstruct prim, x)))
  end.
(* 308-339. The order in which missing properties are noticed is not modelled: each of
   them raises KeyError. *)
Definition raw_entry_of (wanted : list string) (inc : option string) (conv : bool) (d0 : document) : result (list raw_entry) :=
  bind (potcars d0) (fun ps =>
  let d := put "potcar_symbols" ps d0 in
  bind (item d "oxide_type") (fun ox =>
  bind (items d wanted) (fun more =>
  bind (cell_energy inc conv d) (fun ce =>
  bind (items d params) (fun pa =>
  bind (item d "task_id") (fun i =>
  Ok [{| ent_cell := fst ce; ent_energy := snd ce; ent_params := pa; ent_data := put_all more [("oxide_type"%string, ox)]; ent_id := i |}])))))).

(* 294-340: one document *)
Definition of_document (premade : bool) (wanted : list string) (inc : option string) (conv : bool) (d : document) : result (list raw_entry) :=
  if truthy_item d "deprecated" then Ok []
  else if premade then premade_entry d else raw_entry_of wanted inc conv d.

(* 347-348: sorted by e_above_hull. Numbers can be compared; None and other values
   cannot, which is only noticed when there are two entries. *)
Definition hull_value (e : raw_entry) : result val := item (ent_data e) hull_key.
Fixpoint insert_hull (x : Q * raw_entry) (l : list (Q * raw_entry)) : list (Q * raw_entry) :=
  match l with
  | [] => [x]
  | y :: l' => if Qle_bool (fst x) (fst y) then x :: l else y :: insert_hull x l'
  end.
Definition sort_hull (l : list (Q * raw_entry)) : list (Q * raw_entry) := fold_right insert_hull [] l.
Definition by_hull (es : list raw_entry) : result (list raw_entry) :=
  bind (mapM hull_value es) (fun ks =>
  match es with
  | [] | [_] => Ok es
  | _ => bind (mapM number ks) (fun qs => Ok (map snd (sort_hull (combine qs es))))
  end).

(* 218-350 get_entries; [crit] is parse_criteria, which may raise, or the dictionary *)
Definition get_entries (crit : result criteria) (compatible_only : bool) (inc : option string) (property_data : option (list string))
  (premade conv sort : bool) : result (list raw_entry) :=
  let wanted := asked_for sort property_data in
  bind crit (fun c =>
  bind (mapM (of_document premade wanted inc conv) (map (project (props_of premade wanted inc)) (query c))) (fun ls =>
  let es := concat ls in
  let es := if compatible_only then compat es else es in
  if sort then by_hull es else Ok es)).
End Raw.
