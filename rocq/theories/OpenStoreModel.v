(* Storing experimental entries and open reactions: as_dict and from_dict of
   entries/experimental.py and reactions/open.py. *)
From Verif Require Import Prelude NumQ UtilsModel ReactionModel GibbsModel StoreModel.
Open Scope nat_scope.

Section OpenStore.
Variable elem_text : nat -> nat.              (* Element.symbol *)
Variable num_text : Z -> nat.                 (* the text json makes of a number that is a key *)
Variable of_text : nat -> option nat.         (* Element(symbol); [None]: there is no such element *)
Variable ln : Q -> Q.
Variable C : chem.

(* --- entries/experimental.py --- *)
Variable refs : nat -> option (list (Q * Q)).
Variable deprecated : nat -> bool.

(* an entry and its data *)
Record stored_exp := { sx_entry : xentry; sx_data : data }.
(* the dictionary: composition, temperature, adjustments and data; energy, entry_id,
   parameters and correction are deleted. The adjustments are assumed to be read back
   unchanged. *)
Record xdict := { xd_comp : nat; xd_temp : pynum; xd_adjs : list adj; xd_data : tree }.

(* experimental.py:156-169 as_dict: super().as_dict() writes the data as json; unlike
   the Gibbs entries the data is not sanitised first *)
Definition exp_as_dict (e : stored_exp) : result xdict :=
  bind (json_back num_text (sx_data e)) (fun t =>
  Ok {| xd_comp := xe_comp (sx_entry e); xd_temp := xe_temp (sx_entry e); xd_adjs := xe_adjs (sx_entry e); xd_data := t |}).
(* experimental.py:171-187 from_dict *)
Definition exp_from_dict (d : xdict) : result (xentry * tree) :=
  bind (exp_init C refs deprecated (xd_comp d) (xd_temp d) (xd_adjs d)) (fun e => Ok (e, xd_data d)).
(* experimental.py:72-86 get_new_temperature, with the data this time *)
Definition exp_retemper (e : stored_exp) (t : pynum) : result (xentry * tree) :=
  bind (exp_as_dict e) (fun d =>
  bind (mapM (set_adj_temp (pyval t)) (xd_adjs d)) (fun adjs =>
  exp_from_dict {| xd_comp := xd_comp d; xd_temp := t; xd_adjs := adjs; xd_data := xd_data d |})).

(* --- reactions/open.py --- *)
Variable mass : nat -> Q.
Variable table : list (Z * list (nat * Q)).
Variable default_id : nat -> Q -> nat.

(* an open reaction of Gibbs entries, with its data *)
Record stored_rxn := {
  sr_entries : list stored_entry;
  sr_coeffs : list Q;
  sr_mu : list (nat * Q);
  sr_data : data;
  sr_errors : option nat
}.
(* the dictionary. The keys of the chemical potentials may be texts or Elements. *)
Record odict := {
  od_entries : list gdict;
  od_coeffs : list Q;
  od_mu : list (key * Q);
  od_data : data;
  od_errors : option nat
}.
(* a reaction that has been read; the data of an entry is a tree *)
Record read_rxn := {
  rr_entries : list (gentry * tree);
  rr_coeffs : list Q;
  rr_mu : list (nat * Q);
  rr_data : data;
  rr_errors : option nat
}.

(* MSONable.as_dict goes through the entries one after the other; the first that raises
   stops it. The entries afterwards: see gibbs_as_dict. *)
Fixpoint entries_as_dict (es : list stored_entry) : result (list gdict) * list stored_entry :=
  match es with
  | [] => (Ok [], [])
  | e :: es' =>
      match gibbs_as_dict elem_text num_text e with
      | (Err x, e') => (Err x, e' :: es')
      | (Ok d, e') => let '(r, es2) := entries_as_dict es' in (bind r (fun ds => Ok (d :: ds)), e' :: es2)
      end
  end.
(* open.py:223-227 as_dict: the result and the entries afterwards. The arguments of the
   constructor are written by MSONable.as_dict, which leaves the keys of a dictionary as
   they are. *)
Definition open_as_dict (r : stored_rxn) : result odict * list stored_entry :=
  let '(ds, es) := entries_as_dict (sr_entries r) in
  (bind ds (fun l => Ok {| od_entries := l; od_coeffs := sr_coeffs r;
                           od_mu := dict_from (map (fun em => (KText (elem_text (fst em)), snd em)) (sr_mu r));
                           od_data := sr_data r; od_errors := sr_errors r |}), es).

(* Element(x): a text is looked up, an Element is itself *)
Definition to_element (k : key) : result nat :=
  match k with
  | KText t => match of_text t with Some e => Ok e | None => Err ValueError end
  | KElem e => Ok e
  | KNum _ => Err ValueError
  end.
(* open.py:229-233 from_dict: the result and the dictionary afterwards. Line 232 stores
   the new potentials in the caller's dictionary; MSONable.from_dict decodes every
   argument (a dictionary with Elements for keys stays as it is) and calls the
   constructor. *)
Definition open_from_dict (d : odict) : result read_rxn * odict :=
  match mapM (fun km => bind (to_element (fst km)) (fun e => Ok (e, snd km))) (od_mu d) with
  | Err x => (Err x, d)
  | Ok mu0 =>
      let mu := dict_of mu0 in
      (bind (mapM (gibbs_from_dict ln C mass table default_id) (od_entries d)) (fun es =>
       Ok {| rr_entries := es; rr_coeffs := od_coeffs d; rr_mu := mu; rr_data := od_data d; rr_errors := od_errors d |}),
       {| od_entries := od_entries d; od_coeffs := od_coeffs d; od_mu := map (fun em => (KElem (fst em), snd em)) mu;
          od_data := od_data d; od_errors := od_errors d |})
  end.

(* json.dumps of the dictionary: an Element among the keys raises TypeError. The
   dictionaries of the entries have been through json already. *)
Definition open_dumps (d : odict) : result unit :=
  if existsb (fun km => is_elem (fst km)) (od_mu d) || has_elem (TDict (od_data d)) then Err TypeError else Ok tt.

(* the reaction the constructor makes of the arguments (open.py:28-63) *)
Definition as_entry (e : gentry) : entry := {| e_id := ge_id e; e_comp := ge_comp e; e_energy := gibbs_energy ln C e |}.
Definition rxn_stored (r : stored_rxn) : orxn :=
  open_init C (map (fun e => as_entry (st_entry e)) (sr_entries r)) (sr_coeffs r) (sr_mu r) (sr_errors r).
Definition rxn_read (r : read_rxn) : orxn :=
  open_init C (map (fun e => as_entry (fst e)) (rr_entries r)) (rr_coeffs r) (rr_mu r) (rr_errors r).
End OpenStore.
