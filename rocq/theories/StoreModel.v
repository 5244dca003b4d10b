(* Storing entries: as_dict and from_dict of the entry classes with their data, and the
   small constructors and properties of entries/gibbs.py that read the data. *)
From Verif Require Import Prelude NumQ UtilsModel ReactionModel GibbsModel.
Open Scope nat_scope.

(* --- the data of an entry --- *)
(* Keys are texts, pymatgen Elements or numbers. A leaf is a value that json gives back
   unchanged (None, a truth value, a number, a text). Other objects as values are not
   modelled. *)
Inductive key := KText (n : nat) | KElem (n : nat) | KNum (z : Z).
Inductive tree := Leaf (n : nat) | TList (l : list tree) | TDict (l : list (key * tree)).
Definition data := list (key * tree).

Section Store.
(* str(element) and the text json makes of a number that is a key *)
Variable elem_text : nat -> nat.
Variable num_text : Z -> nat.

Definition key_eqb (a b : key) : bool :=
  match a, b with
  | KText x, KText y => Nat.eqb x y
  | KElem x, KElem y => Nat.eqb x y
  | KNum x, KNum y => Z.eqb x y
  | _, _ => false
  end.
(* d[k] = v *)
Fixpoint put {V} (k : key) (v : V) (d : list (key * V)) : list (key * V) :=
  match d with
  | [] => [(k, v)]
  | (k', v') :: d' => if key_eqb k k' then (k', v) :: d' else (k', v') :: put k v d'
  end.
Definition dict_from {V} (l : list (key * V)) : list (key * V) := fold_left (fun d kv => put (fst kv) (snd kv) d) l [].

(* entries/gibbs.py:308-316 _sanitize_data *)
Definition clean_key (k : key) : key := match k with KElem e => KText (elem_text e) | _ => k end.
Definition sanitize (d : data) : data :=
  map (fun kv => (fst kv, match snd kv with TDict l => TDict (dict_from (map (fun x => (clean_key (fst x), snd x)) l)) | v => v end)) d.

(* json.loads(json.dumps(data, cls=MontyEncoder)) of ComputedEntry.as_dict (pymatgen):
   a key that is neither a text nor a number raises TypeError, a number becomes a text,
   and of two keys with one text the last value stays. *)
Definition is_elem (k : key) : bool := match k with KElem _ => true | _ => false end.
Fixpoint has_elem (t : tree) : bool :=
  match t with
  | Leaf _ => false
  | TList l => existsb has_elem l
  | TDict l => existsb (fun kv => is_elem (fst kv) || has_elem (snd kv)) l
  end.
Definition key_text (k : key) : key := match k with KNum z => KText (num_text z) | _ => k end.
Fixpoint loads (t : tree) : tree :=
  match t with
  | Leaf n => Leaf n
  | TList l => TList (map loads l)
  | TDict l => TDict (dict_from (map (fun kv => (key_text (fst kv), loads (snd kv))) l))
  end.
Definition json_back (d : data) : result tree := if has_elem (TDict d) then Err TypeError else Ok (loads (TDict d)).

(* --- entries/gibbs.py --- *)
Variable ln : Q -> Q.
Variable C : chem.
Variable mass : nat -> Q.
Variable table : list (Z * list (nat * Q)).
Variable default_id : nat -> Q -> nat.

(* an entry and its data *)
Record stored_entry := { st_entry : gentry; st_data : data }.
(* the dictionary: composition, formation energy, volume, temperature, adjustments, id
   and data. The adjustments are assumed to be read back unchanged. *)
Record gdict := { gd_entry : gentry; gd_data : tree }.

(* entries/gibbs.py:292-306 as_dict: the result, and the entry afterwards. When
   super().as_dict() raises, self.data has not been set back. *)
Definition gibbs_as_dict (e : stored_entry) : result gdict * stored_entry :=
  let swapped := {| st_entry := st_entry e; st_data := sanitize (st_data e) |} in
  match json_back (st_data swapped) with
  | Err x => (Err x, swapped)
  | Ok t => (Ok {| gd_entry := st_entry e; gd_data := t |}, e)
  end.

(* entries/gibbs.py:318-331 from_dict. The data of the dictionary is one. *)
Definition gibbs_from_dict (d : gdict) : result (gentry * tree) :=
  let e := gd_entry d in
  bind (gibbs_init ln C mass table default_id (ge_comp e) (ge_dhf e) (ge_vol e) (ge_temp e) (Some (ge_adjs e)) (Some (ge_id e)))
       (fun e' => Ok (e', gd_data d)).

(* entries/gibbs.py:122-135 get_new_temperature, with the data this time *)
Definition gibbs_retemper (e : stored_entry) (t : pynum) : result (gentry * tree) * stored_entry :=
  let '(r, e') := gibbs_as_dict e in
  (bind r (fun d => gibbs_from_dict {| gd_entry := {| ge_comp := ge_comp (gd_entry d); ge_dhf := ge_dhf (gd_entry d); ge_vol := ge_vol (gd_entry d);
                                                     ge_temp := t; ge_adjs := ge_adjs (gd_entry d); ge_id := ge_id (gd_entry d) |};
                                      gd_data := gd_data d |}), e').

(* --- entries/gibbs.py:270-281 is_experimental --- *)
(* the two items it reads: "theoretical" a truth value or None, "icsd_ids" a list of a
   length or None; the outer [None] means there is no such key *)
Definition is_experimental (theoretical : option (option bool)) (icsd_ids : option (option nat)) : result bool :=
  match theoretical with
  | Some None => Ok true
  | Some (Some b) => Ok (negb b)
  | None => match icsd_ids with
            | Some None => Err TypeError
            | Some (Some n) => Ok (Nat.leb 1 n)
            | None => Ok false
            end
  end.

(* --- entries/gibbs.py:238-268 from_structure --- *)
(* a structure: its volume and its sites, each with its species and their occupancies;
   the composition is the sum over the sites (pymatgen), looked up by [comp_of] *)
Record structure := { s_volume : Q; s_sites : list (list (nat * Q)) }.
Definition from_structure (comp_of : list (nat * Q) -> nat) (s : structure) (dhf : Q) (t : pynum) (adjs : option (list adj)) (id : option nat)
    : result gentry :=
  match s_sites s with
  | [] => Err ZeroDivisionError
  | _ => gibbs_init ln C mass table default_id (comp_of (concat (s_sites s))) dhf (s_volume s / (Z.of_nat (length (s_sites s)) # 1))%Q t adjs id
  end.
End Store.

