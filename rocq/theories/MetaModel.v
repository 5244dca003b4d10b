(* Model of GetEntrySetMaker and ReactionEnumerationMaker of jobs/core.py and of
   jobs/utils.py: which entries the first job starts from, and what the second one writes
   in its document. Entries are numbers. *)
From Coq Require Import String Ascii.
From Verif Require Import Prelude UtilsModel EntryDbModel.
Open Scope list_scope.
Open Scope nat_scope.

(* Element(s); [periodic] lists the symbols in the order of the enumeration *)
Definition element_of (periodic : list string) (s : string) : result string :=
  if memb_str s periodic then Ok s else Err ValueError.

(* a Python set made from a list *)
Definition str_set (l : list string) : list string := nodup string_dec l.

(* --- GetEntrySetMaker --- *)
Section Fetch.
Variable periodic : list string.
(* The Materials Project: a material has an id, its elements and its GGA_GGA+U entries *)
Record material := { m_id : nat; m_elements : list string; m_deprecated : bool; m_entries : list nat }.
Variable materials : list material.
(* MPRester.get_entries_in_chemsys(elements=chemsys) *)
Variable in_chemsys : string -> result (list nat).

(* jobs/core.py:184-195 _get_exclude_elems *)
Definition exclude_elems (elems : list string) : list string := filter (fun e => negb (memb_str e elems)) periodic.

(* MPRester.summary.search(exclude_elements=.., deprecated=False) and
   MPRester.get_entries(mpids) *)
Definition search_without (excluded : list string) : list nat :=
  map m_id (filter (fun m => negb (m_deprecated m) && negb (existsb (fun e => memb_str e excluded) (m_elements m))) materials).
Definition get_entries_of (ids : list nat) : list nat :=
  flat_map (fun m => m_entries m) (filter (fun m => memb Nat.eqb (m_id m) ids) materials).

(* The field property_data of the maker (None or a list of names) after lines 120-124 *)
Definition with_theoretical (pd : option (list string)) : option (list string) :=
  match pd with
  | None => None
  | Some l => Some (if memb_str "theoretical" l then l else l ++ ["theoretical"%string])
  end.

(* jobs/core.py:106-158 make up to process_entries. [db] is the entry database found under
   entry_db_name, if any. The result is the field property_data afterwards and the entries.
   Importing mp_api is assumed to work. *)
Definition fetch (pd : option (list string)) (db : option (list doc)) (custom : list nat) (chemsys : string)
    : option (list string) * result (list nat) :=
  match db with
  | Some docs => (with_theoretical pd, bind (all_entries_in_chemsys docs (inl chemsys)) (fun es => Ok (es ++ custom)))
  | None =>
      (pd,
       bind (mapM (element_of periodic) (split_dash chemsys)) (fun symbols =>
       bind (if length (str_set symbols) <=? 25 then in_chemsys chemsys
             else Ok (get_entries_of (search_without (exclude_elems (str_set symbols))))) (fun es =>
       Ok (es ++ custom))))
  end.
End Fetch.

(* --- ReactionEnumerationMaker --- *)
Record metadata := {
  md_elements : list string; md_chemsys : string; md_enumerators : nat; md_targets : list string;
  md_added : option (list string * string) }.

Section Meta.
Variable periodic : list string.
Variable elements_of : string -> list string.           (* Composition(target).elements *)

(* jobs/utils.py:20-35 get_added_elem_data; [arrange] is the order of iteration of a set *)
Definition added_elem_data (arrange : list string -> list string) (chemsys targets : list string) : result (list string * string) :=
  let added := arrange (filter (fun e => negb (memb_str e (flat_map elements_of targets))) chemsys) in
  bind (mapM (element_of periodic) added) (fun els => Ok (els, join_dash (sort_str added))).

(* jobs/core.py:240-258 _get_metadata. [chemsys] is entries.chemsys in its order of
   iteration; an enumerator is represented by its targets. *)
Definition get_metadata (arrange : list string -> list string) (chemsys : list string) (enumerators : list (list string)) : result metadata :=
  let name := join_dash chemsys in
  let targets := str_set (concat enumerators) in
  bind (match targets with [] => Ok None | _ => bind (added_elem_data arrange chemsys (arrange targets)) (fun a => Ok (Some a)) end) (fun added =>
  bind (mapM (element_of periodic) (split_dash name)) (fun els =>
  Ok {| md_elements := els; md_chemsys := name; md_enumerators := length enumerators; md_targets := sort_str targets; md_added := added |})).
End Meta.
