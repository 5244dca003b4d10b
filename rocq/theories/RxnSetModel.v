(* Model of reactions/reaction_set.py. *)
From Verif Require Import Prelude NumQ UtilsModel ReactionModel.

(* A ComputedEntry as the reaction set sees it: its unique id (unique_id, or
   entry_id), its composition and its reduced formula. *)
Record sentry := { uid : nat; comp : nat; form : nat }.
Definition sentry_eq_dec (a b : sentry) : {a = b} + {a <> b}.
Proof. decide equality; apply Nat.eq_dec. Defined.

(* A ComputedReaction, or an OpenComputedReaction when x_mu is given. The data
   dictionary is an opaque value. *)
Record srxn := { x_entries : list sentry; x_coeffs : list Q; x_data : nat; x_mu : option (list (nat * Q)) }.

(* reaction_set.py:44-94: the three dictionaries map a reaction size to arrays. *)
Record rset := {
  r_entries : list sentry;
  r_indices : list (nat * list (list nat));
  r_coeffs : list (nat * list (list Q));
  r_data : list (nat * list nat);
  r_open : option nat;
  r_chempot : Q
}.

(* reaction_set.py:44-94 __init__. Without all_data every size gets an empty array. *)
Definition rset_init (es : list sentry) (idx : list (nat * list (list nat))) (co : list (nat * list (list Q)))
    (open_elem : option nat) (chempot : Q) (all_data : option (list (nat * list nat))) : rset :=
  {| r_entries := es; r_indices := idx; r_coeffs := co;
     r_data := match all_data with Some d => d | None => map (fun kv => (fst kv, [])) idx end;
     r_open := open_elem; r_chempot := chempot |}.

(* reaction_set.py:91-94 *)
Definition mu_dict (s : rset) : option (list (nat * Q)) :=
  match r_open s with Some el => Some [(el, r_chempot s)] | None => None end.

(* d[k] *)
Definition dict_item {V} (k : nat) (d : list (nat * V)) : result V :=
  match dict_get k d with Some v => Ok v | None => Err KeyError end.

(* zip(a, b, c, strict=False) *)
Definition zip3 {A B D} (a : list A) (b : list B) (d : list D) : list (A * B * D) := combine (combine a b) d.

(* reaction_set.py:583-596: one reaction from a row of the three arrays *)
Definition rxn_of_row (s : rset) (row : list nat * list Q * nat) : result srxn :=
  let '(idx, co, da) := row in
  bind (mapM (index (r_entries s)) idx) (fun es =>
  Ok {| x_entries := es; x_coeffs := co; x_data := da; x_mu := mu_dict s |}).

(* reaction_set.py:96-102 get_rxns: every row, as slices. The generator is modelled
   by the list of everything it yields. *)
Definition rows_of_size (s : rset) (size : nat) : result (list (list nat * list Q * nat)) :=
  bind (dict_item size (r_indices s)) (fun i =>
  bind (dict_item size (r_coeffs s)) (fun c =>
  bind (dict_item size (r_data s)) (fun d => Ok (zip3 i c d)))).
Definition get_rxns (s : rset) : result (list srxn) :=
  bind (mapM (fun size => bind (rows_of_size s size) (mapM (rxn_of_row s))) (map fst (r_indices s)))
       (fun ls => Ok (concat ls)).

(* reaction_set.py:572-596 _get_rxns_by_indices for a dict of index lists; numpy
   indexing raises IndexError beyond the end. *)
Definition take {A} (l : list A) (idxs : list nat) : result (list A) := mapM (index l) idxs.
Definition rows_at (s : rset) (size : nat) (idxs : list nat) : result (list (list nat * list Q * nat)) :=
  bind (dict_item size (r_indices s)) (fun i =>
  bind (dict_item size (r_coeffs s)) (fun c =>
  bind (dict_item size (r_data s)) (fun d =>
  bind (take i idxs) (fun i' => bind (take c idxs) (fun c' => bind (take d idxs) (fun d' =>
  Ok (zip3 i' c' d'))))))).
Definition get_rxns_by_indices (s : rset) (idxs : list (nat * list nat)) : result (list srxn) :=
  bind (mapM (fun kv => bind (rows_at s (fst kv) (snd kv)) (mapM (rxn_of_row s))) idxs)
       (fun ls => Ok (concat ls)).

(* reaction_set.py:598-609 _get_rxn_set_by_indices *)
Definition get_rxn_set_by_indices (s : rset) (idxs : list (nat * list nat)) : result rset :=
  let sub {V} (d : list (nat * list V)) :=
    mapM (fun kv => bind (dict_item (fst kv) d) (fun l => bind (take l (snd kv)) (fun l' => Ok (fst kv, l')))) idxs in
  bind (sub (r_indices s)) (fun i => bind (sub (r_coeffs s)) (fun c => bind (sub (r_data s)) (fun d =>
  Ok (rset_init (r_entries s) i c (r_open s) (r_chempot s) (Some d))))).

(* reaction_set.py:694-696 __len__ *)
Definition rset_len (s : rset) : nat := fold_right (fun kv n => length (snd kv) + n) 0 (r_indices s).

(* reaction_set.py:146-153: if size not in d: d[size] = []; d[size].append(x) *)
Fixpoint dict_append {V} (k : nat) (v : V) (d : list (nat * list V)) : list (nat * list V) :=
  match d with
  | [] => [(k, [v])]
  | (k', l) :: d' => if Nat.eqb k k' then (k', l ++ [v]) :: d' else (k', l) :: dict_append k v d'
  end.

(* reaction_set.py:676-682 _get_unique_entries, before removing repetitions *)
Definition all_entries (rxns : list srxn) : list sentry := flat_map x_entries rxns.

(* reaction_set.py:134-137: entry ids to positions; a repeated id keeps the last one *)
Definition entry_positions (es : list sentry) : list (nat * nat) :=
  dict_of (combine (map uid es) (seq 0 (length es))).

(* reaction_set.py:131-164. The three dictionaries are filled in the same loop. *)
Fixpoint group_loop (pos : list (nat * nat)) (rxns : list srxn)
    (i : list (nat * list (list nat))) (c : list (nat * list (list Q))) (d : list (nat * list nat))
  : result (list (nat * list (list nat)) * list (nat * list (list Q)) * list (nat * list nat)) :=
  match rxns with
  | [] => Ok (i, c, d)
  | r :: rest =>
      let size := length (x_entries r) in
      bind (mapM (fun e => dict_item (uid e) pos) (x_entries r)) (fun idx =>
      group_loop pos rest (dict_append size idx i) (dict_append size (x_coeffs r) c) (dict_append size (x_data r) d))
  end.

(* reaction_set.py:166-178: one common open element and chemical potential. Keys and
   values of the chempots are collected into sets. *)
Definition common_mu (rxns : list srxn) : option (nat * Q) :=
  if forallb (fun r => match x_mu r with Some _ => true | None => false end) rxns then
    let mus := flat_map (fun r => match x_mu r with Some m => m | None => [] end) rxns in
    match mus with
    | [] => None
    | (el, q) :: _ =>
        if forallb (fun em => Nat.eqb (fst em) el && Qeq_bool (snd em) q) mus then Some (el, q) else None
    end
  else None.

(* reaction_set.py:105-187 from_rxns (filter_duplicates=False). [arrange] is
   sorted(set(entries), key=composition): the order of equal compositions is the
   set's. [entries] empty stands for None. *)
Definition from_rxns (arrange : list sentry -> list sentry) (rxns : list srxn) (entries : list sentry)
    (open_elem : option nat) (chempot : Q) : result rset :=
  let es := arrange (match entries with [] => all_entries rxns | _ => entries end) in
  bind (group_loop (entry_positions es) rxns [] [] []) (fun icd =>
  let '(i, c, d) := icd in
  let '(oe, mu) := match open_elem with
                   | Some el => (Some el, chempot)
                   | None => match common_mu rxns with
                             | Some (el, q) => (Some el, q)
                             | None => (None, chempot)
                             end
                   end in
  Ok (rset_init es i c oe mu (Some d))).

(* reaction_set.py:303-334 add_rxn_set. The loop runs over a set of sizes; here in
   the order of first occurrence. *)
Definition merge_sizes {V} (sizes : list nat) (keys_a keys_b : list nat) (a b : list (nat * list V))
  : result (list (nat * list V)) :=
  mapM (fun n =>
    if memb Nat.eqb n keys_a then
      if memb Nat.eqb n keys_b then
        bind (dict_item n a) (fun x => bind (dict_item n b) (fun y => Ok (n, x ++ y)))
      else bind (dict_item n a) (fun x => Ok (n, x))
    else bind (dict_item n b) (fun y => Ok (n, y))) sizes.
Definition add_rxn_set (a b : rset) : result rset :=
  if list_eq_dec sentry_eq_dec (r_entries a) (r_entries b) then
    let ka := map fst (r_indices a) in
    let kb := map fst (r_indices b) in
    let sizes := rev (nodup Nat.eq_dec (rev (ka ++ kb))) in
    bind (merge_sizes sizes ka kb (r_indices a) (r_indices b)) (fun i =>
    bind (merge_sizes sizes ka kb (r_coeffs a) (r_coeffs b)) (fun c =>
    bind (merge_sizes sizes ka kb (r_data a) (r_data b)) (fun d =>
    Ok (rset_init (r_entries a) i c (r_open a) (r_chempot a) (Some d)))))
  else Err ValueError.

(* reaction_set.py:293-301 add_rxns *)
Definition add_rxns (arrange : list sentry -> list sentry) (s : rset) (rxns : list srxn) : result rset :=
  bind (from_rxns arrange rxns (r_entries s) None 0) (add_rxn_set s).

(* positions (from k) of the items satisfying p *)
Fixpoint positions {A} (p : A -> bool) (l : list A) (k : nat) : list nat :=
  match l with
  | [] => []
  | x :: l' => if p x then k :: positions p l' (S k) else positions p l' (S k)
  end.

(* reaction_set.py:349-362: the rows whose small coefficients belong to the given
   entries; and 385-399: the rows with the given entry among the large ones. *)
Definition row_uses_only (ridx : list nat) (row : list nat * list Q) : bool :=
  existsb (fun i => memb Nat.eqb i ridx) (fst row)
  && forallb (fun ci => negb (Qlt_bool (fst ci) (1 # 1000000000000)) || memb Nat.eqb (snd ci) ridx)
             (combine (snd row) (fst row)).
Definition row_forms (p : nat) (row : list nat * list Q) : bool :=
  existsb (Nat.eqb p) (fst row)
  && existsb (fun ci => Qlt_bool (-(1 # 1000000000000)) (fst ci) && Nat.eqb (snd ci) p) (combine (snd row) (fst row)).

Definition select_rows (s : rset) (p : list nat * list Q -> bool) : result (list (nat * list nat)) :=
  mapM (fun kv => bind (dict_item (fst kv) (r_coeffs s)) (fun c =>
                  Ok (fst kv, positions p (combine (snd kv) c) 0))) (r_indices s).

(* reaction_set.py:336-365 get_rxns_by_reactants(return_set=False) *)
Definition get_rxns_by_reactants (s : rset) (fs : list nat) : result (list srxn) :=
  match positions (fun e => memb Nat.eqb (form e) fs) (r_entries s) 0 with
  | [] => Ok []
  | ridx => bind (select_rows s (row_uses_only ridx)) (get_rxns_by_indices s)
  end.

(* reaction_set.py:367-404 get_rxns_by_product(return_set=False); position 0 is
   falsy. *)
Definition get_rxns_by_product (s : rset) (f : nat) : result (list srxn) :=
  match positions (fun e => Nat.eqb (form e) f) (r_entries s) 0 with
  | [] => Ok []
  | 0 :: _ => Ok []
  | p :: _ => bind (select_rows s (row_forms p)) (get_rxns_by_indices s)
  end.

(* reaction_set.py:512-528 set_chempot; chempot None becomes 0 *)
Definition set_chempot (s : rset) (open_el : option nat) (chempot : option Q) : rset :=
  rset_init (r_entries s) (r_indices s) (r_coeffs s) open_el
    (match chempot with Some q => q | None => 0%Q end) (Some (r_data s)).

(* reaction_set.py:530-547 set_new_temperature. [warm e] is
   e.get_new_temperature(new_temp). The table is keyed by composition, so the last
   polymorph of a composition replaces the others; computed.py:81-108 looks entries
   up by composition. *)
Definition temp_table (warm : sentry -> sentry) (es : list sentry) : list (nat * sentry) :=
  dict_of (map (fun e => (comp e, warm e)) es).
Definition warm_rxn (table : list (nat * sentry)) (r : srxn) : result srxn :=
  bind (mapM (fun e => match dict_get (comp e) table with Some e' => Ok e' | None => Err AttributeError end) (x_entries r))
       (fun es => Ok {| x_entries := es; x_coeffs := x_coeffs r; x_data := x_data r; x_mu := x_mu r |}).
Definition set_new_temperature (arrange : list sentry -> list sentry) (warm : sentry -> sentry) (s : rset) : result rset :=
  bind (get_rxns s) (fun rs =>
  bind (mapM (warm_rxn (temp_table warm (r_entries s))) rs) (fun new =>
  from_rxns arrange new [] (r_open s) (r_chempot s))).

(* --- filter_duplicates --- *)

(* reaction_set.py:672-675: is r a positive multiple of row, up to np.isclose? A zero
   in row gives nan/inf, which is never close (rows of zeros are not modelled
   further). *)
Definition is_multiple (r row : list Q) : bool :=
  match r, row with
  | a :: _, b :: _ =>
      forallb (fun q => negb (Qeq_bool q 0)) row
      && forallb (fun rq => isclose (Qabs (a / b)) (fst rq / snd rq)) (combine r row)
  | _, _ => true
  end.

(* reaction_set.py:656-690 _get_idxs_to_keep; [order] is the argsort of the absolute
   sums. A group without its own first member raises IndexError. *)
Fixpoint keep_loop (rows : list (list Q)) (order : list nat) (ensure : list nat) (todo : list nat)
    (to_keep to_remove : list nat) : result (list nat) :=
  match todo with
  | [] => Ok to_keep
  | idx :: rest =>
      if memb Nat.eqb idx to_remove then keep_loop rows order ensure rest to_keep to_remove
      else
        let row := nth idx rows [] in
        let group := filter (fun j => is_multiple (nth j rows []) row) order in
        let overlap := filter (fun j => memb Nat.eqb j ensure) group in
        match overlap with
        | _ :: _ =>
            if forallb (fun j => memb Nat.eqb j to_keep) overlap
            then keep_loop rows order ensure rest to_keep to_remove
            else keep_loop rows order ensure rest (to_keep ++ overlap)
                   (to_remove ++ filter (fun j => negb (memb Nat.eqb j ensure)) group)
        | [] =>
            match group with
            | [] => Err IndexError
            | g :: gs => keep_loop rows order ensure rest (to_keep ++ [g]) (to_remove ++ gs)
            end
        end
  end.

(* sorted() of a list of positions *)
Fixpoint insert_pos (n : nat) (l : list nat) : list nat :=
  match l with [] => [n] | m :: l' => if Nat.leb n m then n :: l else m :: insert_pos n l' end.
Definition sort_pos (l : list nat) : list nat := fold_right insert_pos [] l.

Definition abs_sum (row : list Q) : Q := Qsum (map Qabs row).

(* np.argsort: any function; the theorems assume that it returns a permutation of
   the positions (which order it gives to ties is not specified). *)
Section Filter.
Variable argsort : list Q -> list nat.

Definition get_idxs_to_keep (rows : list (list Q)) (ensure : list nat) : result (list nat) :=
  let order := argsort (map abs_sum rows) in
  bind (keep_loop rows order ensure order [] []) (fun k => Ok (sort_pos k)).

(* reaction_set.py:716-743 _process_duplicates: positions in the group of the
   ensured rows; back to positions in the whole array. *)
Definition process_group (coeffs : list (list Q)) (ensure : list nat) (group : list nat) : result (list nat) :=
  bind (take coeffs group) (fun rows =>
  let rel := flat_map (fun e => positions (Nat.eqb e) group 0) (filter (fun e => memb Nat.eqb e group) ensure) in
  bind (get_idxs_to_keep rows rel) (take group)).
Definition process_duplicates (coeffs : list (list Q)) (ensure : list nat) (groups : list (option (list nat)))
  : result (list nat) :=
  bind (mapM (fun g => match g with None => Ok [] | Some g => process_group coeffs ensure g end) groups)
       (fun ls => Ok (concat ls)).

(* reaction_set.py:454-457: columns in ascending order of the entry position
   (np.argsort per row; ties only when a reaction lists an entry twice). *)
Fixpoint insert_col (p : nat * Q) (l : list (nat * Q)) : list (nat * Q) :=
  match l with [] => [p] | q :: l' => if Nat.leb (fst p) (fst q) then p :: l else q :: insert_col p l' end.
Definition sort_cols (idx : list nat) (co : list Q) : list (nat * Q) := fold_right insert_col [] (combine idx co).

(* reaction_set.py:459-477: rows with the same sorted entry positions. np.unique
   numbers the distinct keys; the groups here are in order of first occurrence, and
   the members of a group in the order given by [shuffle] (np.argsort of equal
   numbers). *)
Variable shuffle : list nat -> list nat.
Definition key_eqb (a b : list nat) : bool := if list_eq_dec Nat.eq_dec a b then true else false.
Definition key_groups (keys : list (list nat)) : list (list nat) :=
  map (fun k => shuffle (positions (key_eqb k) keys 0))
      (rev (nodup (list_eq_dec Nat.eq_dec) (rev keys))).
Definition singles (gs : list (list nat)) : list nat := concat (filter (fun g => Nat.eqb (length g) 1) gs).
Definition multis (gs : list (list nat)) : list (list nat) := filter (fun g => negb (Nat.eqb (length g) 1)) gs.

(* reaction_set.py:433-451: where the ensured reactions are. An entry that is not in
   the list raises ValueError, a size without reactions KeyError, a reaction without
   entries IndexError. *)
Definition entry_index (es : list sentry) (e : sentry) : result nat :=
  match positions (fun x => if sentry_eq_dec x e then true else false) es 0 with
  | [] => Err ValueError
  | i :: _ => Ok i
  end.
Definition same_row (idx : list nat) (co : list Q) (row : list nat * list Q) : bool :=
  key_eqb (fst row) idx && Nat.eqb (length (snd row)) (length co)
  && forallb (fun ab => Qeq_bool (fst ab) (snd ab)) (combine (snd row) co).
Definition find_ensured (s : rset) (r : srxn) : result (nat * nat) :=
  bind (mapM (entry_index (r_entries s)) (x_entries r)) (fun idx =>
  match idx with
  | [] => Err IndexError
  | _ =>
      let size := length idx in
      bind (dict_item size (r_indices s)) (fun is =>
      bind (dict_item size (r_coeffs s)) (fun cs =>
      match positions (same_row idx (x_coeffs r)) (combine is cs) 0 with
      | [] => Err ValueError
      | i :: _ => Ok (size, i)
      end))
  end).

(* The sorted columns of one size, and its groups. *)
Definition sorted_rows (is : list (list nat)) (cs : list (list Q)) : list (list (nat * Q)) :=
  map (fun ic => sort_cols (fst ic) (snd ic)) (combine is cs).

(* reaction_set.py:406-510 filter_duplicates(parallelize=False) *)
Definition ensured_of (size : nat) (ens : list (nat * nat)) : list nat :=
  map snd (filter (fun p => Nat.eqb (fst p) size) ens).
Definition filter_size (is : list (list nat)) (cs : list (list Q)) (ensure : list nat) : result (list nat) :=
  let rows := sorted_rows is cs in
  let gs := key_groups (map (map fst) rows) in
  bind (process_duplicates (map (map snd) rows) ensure (map Some (multis gs))) (fun kept =>
  Ok (singles gs ++ kept)).
Definition filter_duplicates_idxs (s : rset) (ensure_rxns : list srxn) : result (list (nat * list nat)) :=
  bind (mapM (find_ensured s) ensure_rxns) (fun ens =>
  mapM (fun kv => bind (dict_item (fst kv) (r_coeffs s)) (fun cs =>
                  bind (filter_size (snd kv) cs (ensured_of (fst kv) ens)) (fun k => Ok (fst kv, k))))
       (r_indices s)).
Definition filter_duplicates (s : rset) (ensure_rxns : list srxn) : result rset :=
  bind (filter_duplicates_idxs s ensure_rxns) (get_rxn_set_by_indices s).

(* reaction_set.py:406-510 filter_duplicates(parallelize=True) on a cluster with
   [cpus] CPUs: tasks are (size, chunk of groups); [wait] is ray.wait. *)
Definition size_tasks (num_cpus : nat) (size : nat) (gs : list (list nat)) : result (list (nat * list (option (list nat)))) :=
  match multis gs with
  | [] => Ok []
  | ms => if Nat.eqb num_cpus 0 then Err ZeroDivisionError
          else bind (grouper (map Some ms) (length ms / num_cpus + 1) None) (fun chunks =>
               Ok (map (fun c => (size, c)) chunks))
  end.
Definition filter_duplicates_parallel_idxs (cpus : nat)
    (wait : nat -> list (nat * list (option (list nat)) * result (list nat)) ->
            list (nat * list (option (list nat)) * result (list nat)) * list (nat * list (option (list nat)) * result (list nat)))
    (s : rset) (ensure_rxns : list srxn) : result (list (nat * list nat)) :=
  let num_cpus := cpus - 1 in
  bind (mapM (find_ensured s) ensure_rxns) (fun ens =>
  bind (mapM (fun kv => bind (dict_item (fst kv) (r_coeffs s)) (fun cs =>
                let rows := sorted_rows (snd kv) cs in
                let gs := key_groups (map (map fst) rows) in
                bind (size_tasks num_cpus (fst kv) gs) (fun ts =>
                Ok (fst kv, singles gs,
                    map (fun t => (t, process_duplicates (map (map snd) rows) (ensured_of (fst kv) ens) (snd t))) ts))))
             (r_indices s)) (fun per_size =>
  bind (to_iterator wait (fun t => t) (flat_map snd per_size)) (fun results =>
  mapM (fun sk =>
     bind (mapM (fun t => if Nat.eqb (fst (fst t)) (fst (fst sk)) then snd t else Ok []) results)
          (fun ls => Ok (fst (fst sk), snd (fst sk) ++ concat ls))) per_size))).
Definition filter_duplicates_parallel cpus wait (s : rset) (ensure_rxns : list srxn) : result rset :=
  bind (filter_duplicates_parallel_idxs cpus wait s ensure_rxns) (get_rxn_set_by_indices s).
End Filter.
