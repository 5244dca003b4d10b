(* Model of reactions/hull.py (InterfaceReactionHull). *)
From Verif Require Import Prelude NumQ UtilsModel.

(* A coordinate pair (mixing ratio, energy per atom). *)
Notation coord := (Q * Q)%type.

(* reactions/hull.py:65-75: the state kept by the constructor. [coords] is
   self.coords (sorted by x, contains the end points (0,0) and (1,0));
   self.reactions[i].energy_per_atom is the y value of coords[i] (line 67; the end
   point reactions e -> e have energy 0, line 68). [qhull] is self.hull.vertices as
   returned by scipy. A reaction is represented by its index in self.reactions.
   Not modelled: the computation of coords from compositions (lines 39-63). *)
Record hull := { coords : list coord; qhull : list nat }.

(* Insertion sort of coordinates by x, for coords[coords[:,0].argsort()]
   (reactions/hull.py:389). numpy's order of ties is unspecified; this is stable. *)
Fixpoint insert_by_x (c : coord) (l : list coord) : list coord :=
  match l with
  | [] => [c]
  | d :: l' => if Qlt_bool (fst d) (fst c) then d :: insert_by_x c l'
               else c :: l
  end.
Definition sort_by_x (l : list coord) : list coord := fold_right insert_by_x [] l.

(* np.sort of an integer array (reactions/hull.py:129). *)
Fixpoint insert_nat (n : nat) (l : list nat) : list nat :=
  match l with
  | [] => [n]
  | m :: l' => if Nat.leb n m then n :: l else m :: insert_nat n l'
  end.
Definition sort_nat (l : list nat) : list nat := fold_right insert_nat [] l.

(* coords[coords[:,0] == x][:,1].min(); None for an empty selection. *)
Definition min_at (cs : list coord) (x : Q) : option Q :=
  fold_right (fun c acc =>
    if Qeq_bool (fst c) x then
      match acc with
      | None => Some (snd c)
      | Some m => Some (if Qle_bool (snd c) m then snd c else m)
      end
    else acc) None cs.

(* reactions/hull.py:580-593 hull_vertices. qhull only returns valid indices. *)
Definition is_hull_vertex (h : hull) (i : nat) : bool :=
  match nth_error (coords h) i with
  | None => false
  | Some (x, y) =>
      Qle_bool y 0 &&
      match min_at (coords h) x with Some m => isclose m y | None => false end
  end.
Definition hull_vertices (h : hull) : list nat := filter (is_hull_vertex h) (qhull h).

(* reactions/hull.py:130-149, the loop over consecutive sorted vertices. *)
Fixpoint by_coordinate_loop (cs : list coord) (coordinate : Q) (vs : list nat)
  : result (list (nat * Q)) :=
  match vs with
  | v1 :: ((v2 :: _) as rest) =>
      match nth_error cs v1, nth_error cs v2 with
      | Some (x1, _), Some (x2, _) =>
          if isclose coordinate x1 then Ok [(v1, 1%Q)]
          else if isclose coordinate x2 then Ok [(v2, 1%Q)]
          else if Qlt_bool x1 coordinate && Qlt_bool coordinate x2 then
            Ok [(v1, (x2 - coordinate) / (x2 - x1)); (v2, (coordinate - x1) / (x2 - x1))]%Q
          else by_coordinate_loop cs coordinate rest
      | _, _ => Err IndexError
      end
  | _ => Err ValueError                          (* "No reactions found!" *)
  end.

(* reactions/hull.py:127-149 get_reactions_by_coordinate. The returned dict maps
   reactions to weights; here reactions are indices (two different reactions of a
   hull that compare equal would share one key in Python). *)
Definition get_reactions_by_coordinate (h : hull) (coordinate : Q) : result (list (nat * Q)) :=
  by_coordinate_loop (coords h) coordinate (sort_nat (hull_vertices h)).

(* reactions/hull.py:125: sum(weight * r.energy_per_atom). *)
Fixpoint weighted_energy (cs : list coord) (l : list (nat * Q)) : result Q :=
  match l with
  | [] => Ok 0%Q
  | (i, w) :: l' =>
      match nth_error cs i, weighted_energy cs l' with
      | Some (_, y), Ok s => Ok (w * y + s)%Q
      | None, _ => Err IndexError
      | _, Err e => Err e
      end
  end.

(* reactions/hull.py:115-125 get_hull_energy. *)
Definition get_hull_energy (h : hull) (coordinate : Q) : result Q :=
  match get_reactions_by_coordinate h coordinate with
  | Err e => Err e
  | Ok l => weighted_energy (coords h) l
  end.

(* reactions/hull.py:95-99 get_energy_above_hull; the reaction is given by its
   index (self.reactions.index). *)
Definition get_energy_above_hull (h : hull) (idx : nat) : result Q :=
  match nth_error (coords h) idx with
  | None => Err ValueError
  | Some (x, y) =>
      match get_hull_energy h x with Err e => Err e | Ok e => Ok (y - e)%Q end
  end.

(* Positions i (counted from k) with coords[i].x == x; np.where at line 171. *)
Fixpoint where_x (cs : list coord) (x : Q) (k : nat) : list nat :=
  match cs with
  | [] => []
  | c :: cs' => if Qeq_bool (fst c) x then k :: where_x cs' x (S k) else where_x cs' x (S k)
  end.

(* min of a Python list of numbers; ValueError when empty. *)
Fixpoint min_list (l : list Q) : result Q :=
  match l with
  | [] => Err ValueError
  | y :: l' =>
      match min_list l' with
      | Err _ => Ok y
      | Ok m => Ok (if Qle_bool y m then y else m)
      end
  end.

(* reactions/hull.py:151-182 get_primary_competition for a reaction with the given
   energy per atom and coordinate. matching is ascending, so min/max are its
   first/last item; an empty match raises ValueError. *)
Definition get_primary_competition (h : hull) (energy coordinate : Q) : result Q :=
  match where_x (coords h) coordinate 0 with
  | [] => Err ValueError
  | idx_min :: rest =>
      let idx_max := last rest idx_min in
      let competing := firstn idx_min (coords h) ++ skipn (idx_max + 1) (coords h) in
      match min_list (map snd competing) with
      | Err e => Err e
      | Ok m => Ok (energy - m)%Q
      end
  end.

(* reactions/hull.py:402-426: the table. *)
Definition counts : list Z :=
  [1; 1; 2; 5; 14; 42; 132; 429; 1430; 4862; 16796; 58786; 208012; 742900; 2674440;
   9694845; 35357670; 129644790; 477638700; 1767263190; 6564120420; 24466267020;
   91482563640]%Z.

(* l[i] of Python, negative indices counting from the end. *)
Definition py_index {A} (l : list A) (i : Z) : result A :=
  let j := if (i <? 0)%Z then (Z.of_nat (length l) + i)%Z else i in
  if (j <? 0)%Z then Err IndexError else index l (Z.to_nat j).

(* reactions/hull.py:517-547 _count_recursive. The for loop is the inner fixpoint:
   iteration i is reached with [todo] = n - i iterations left. Fuel bounds the
   recursion depth. *)
Fixpoint count_recursive (fuel : nat) (n : nat) (cache : list Z) : result (Z * list Z) :=
  match fuel with
  | 0 => Err OutOfFuel
  | S fuel' =>
      match n with
      | 0 => Ok (1, [1])%Z
      | 1 => Ok (1, [1; 1])%Z
      | _ =>
          if Nat.leb n (length cache) then
            match index cache n with Ok v => Ok (v, cache) | Err e => Err e end
          else
            (fix loop (todo : nat) (total : Z) (biggest : list Z) : result (Z * list Z) :=
               match todo with
               | 0 => Ok (total, biggest ++ [total])
               | S todo' =>
                   let i := n - todo in
                   match count_recursive fuel' i biggest with
                   | Err e => Err e
                   | Ok (left_divs, c1) =>
                       match count_recursive fuel' (n - i - 1) biggest with
                       | Err e => Err e
                       | Ok (right_divs, c2) =>
                           let biggest := if Nat.ltb (length biggest) (length c1) then c1 else biggest in
                           let biggest := if Nat.ltb (length biggest) (length c2) then c2 else biggest in
                           loop todo' (total + left_divs * right_divs)%Z biggest
                       end
                   end
               end) n 0%Z []
      end
  end.

(* reactions/hull.py:391-427 count. Python's recursion limit is not modelled. *)
Definition count (num : Z) : result Z :=
  if (num <=? 22)%Z then py_index counts num
  else match count_recursive (S (Z.to_nat num)) (Z.to_nat num) [] with
       | Ok (v, _) => Ok v
       | Err e => Err e
       end.

(* reactions/hull.py:610-629 _calculate_altitude. Where x3 = x1 numpy returns
   nan/inf; the theorems only concern lists where this does not happen. *)
Definition altitude (l m r : coord) : Q :=
  let '(x1, y1) := l in let '(x2, y2) := m in let '(x3, y3) := r in
  let xd := ((x2 - x1) / (x3 - x1))%Q in
  let yd := (y1 + xd * (y3 - y1))%Q in
  (y2 - yd)%Q.

(* reactions/hull.py:498-515 _altitude_multiplicity. *)
Definition altitude_multiplicity (n_left n_right n : Z) : result Z :=
  let remainder := (n - n_left - n_right - 1)%Z in
  if (remainder <? 0)%Z then Ok 0%Z
  else match count n_left, count n_right, count remainder with
       | Ok a, Ok b, Ok c => Ok (a * b * c)%Z
       | _, _, _ => Err IndexError
       end.

(* reactions/hull.py:293-307: the body of get_decomposition_energy for the
   coordinates found. combinations of an ascending range are ascending, so
   sorted(c) is c. *)
Definition energy_term (cs : list coord) (n : Z) (c : list nat) : result Q :=
  match c with
  | [i_left; i_mid; i_right] =>
      match nth_error cs i_left, nth_error cs i_mid, nth_error cs i_right with
      | Some cl, Some cm, Some cr =>
          let n_left := (Z.of_nat i_mid - Z.of_nat i_left - 1)%Z in
          let n_right := (Z.of_nat i_right - Z.of_nat i_mid - 1)%Z in
          match altitude_multiplicity n_left n_right n with
          | Ok k => Ok (inject_Z k * altitude cl cm cr)%Q
          | Err e => Err e
          end
      | _, _, _ => Err IndexError
      end
  | _ => Err ValueError
  end.

Definition decomposition_energy (cs : list coord) : result Q :=
  let n := (Z.of_nat (length cs) - 2)%Z in
  match mapM (energy_term cs n) (combinations (seq 0 (length cs)) 3) with
  | Ok ts => Ok (fold_left Qplus ts 0%Q)
  | Err e => Err e
  end.

(* reactions/hull.py:322-332: the body of get_max_decomposition_energy. *)
Definition altitude_of (cs : list coord) (c : list nat) : result Q :=
  match c with
  | [i_left; i_mid; i_right] =>
      match nth_error cs i_left, nth_error cs i_mid, nth_error cs i_right with
      | Some cl, Some cm, Some cr => Ok (altitude cl cm cr)
      | _, _, _ => Err IndexError
      end
  | _ => Err ValueError
  end.

Definition max_decomposition_energy (cs : list coord) : result Q :=
  match mapM (altitude_of cs) (combinations (seq 0 (length cs)) 3) with
  | Ok es => Ok (fold_left (fun m e => if Qlt_bool e m then e else m) es 0%Q)
  | Err e => Err e
  end.

(* reactions/hull.py:353-389 get_coords_in_range. *)
Definition get_coords_in_range (h : hull) (x1 x2 : Q) : result (list coord) :=
  let x_min := if Qle_bool x1 x2 then x1 else x2 in
  let x_max := if Qle_bool x1 x2 then x2 else x1 in
  match get_hull_energy h x_min, get_hull_energy h x_max with
  | Ok y_min, Ok y_max =>
      let pre := if isclose x_min 0 && negb (isclose y_min 0) then [(0, 0)]%Q else [] in
      let inner := filter (fun c : coord => Qlt_bool (fst c) x_max && Qlt_bool x_min (fst c)
                                            && Qle_bool (snd c) 0)
                     (map (fun i => nth i (coords h) (0, 0)%Q) (hull_vertices h)) in
      let post1 := if Qeq_bool x_max x_min then [] else [(x_max, y_max)] in
      let post2 := if isclose x_max 1 && negb (isclose y_max 0) then [(1, 0)]%Q else [] in
      Ok (sort_by_x (pre ++ [(x_min, y_min)] ++ inner ++ post1 ++ post2))
  | Err e, _ => Err e
  | _, Err e => Err e
  end.

(* reactions/hull.py:282-307 and 309-332. *)
Definition get_decomposition_energy (h : hull) (x1 x2 : Q) : result Q :=
  bind (get_coords_in_range h x1 x2) decomposition_energy.
Definition get_max_decomposition_energy (h : hull) (x1 x2 : Q) : result Q :=
  bind (get_coords_in_range h x1 x2) max_decomposition_energy.

(* reactions/hull.py:430-495 get_decomposition_energy_and_num_paths_recursive.
   The lru_cache is omitted (the function is pure). Note that the for loop
   overwrites use_x_min_ref/use_x_max_ref for its later iterations. *)
Fixpoint decomposition_recursive (fuel : nat) (h : hull) (x1 x2 : Q)
    (use_x_min_ref use_x_max_ref : bool) : result (Q * Z) :=
  match fuel with
  | 0 => Err OutOfFuel
  | S fuel' =>
      match get_coords_in_range h x1 x2 with
      | Err e => Err e
      | Ok all_coords =>
          let drop_first :=
            if use_x_min_ref then Ok all_coords
            else match index all_coords 1 with
                 | Err e => Err e
                 | Ok c => if Qeq_bool (fst c) 0 then Ok (tl all_coords) else Ok all_coords
                 end in
          match drop_first with
          | Err e => Err e
          | Ok all_coords =>
              let drop_last :=
                if use_x_max_ref then Ok all_coords
                else match rev all_coords with
                     | [] => Err IndexError
                     | c :: _ => if Qeq_bool (fst c) 1 then Ok (removelast all_coords) else Ok all_coords
                     end in
              match drop_last with
              | Err e => Err e
              | Ok [] => Err IndexError
              | Ok (cmin :: rest) =>
                  let cmax := last rest cmin in
                  let inner := removelast rest in
                  match inner with
                  | [] => Ok (0%Q, 1%Z)
                  | [c] => Ok (altitude cmin c cmax, 1%Z)
                  | _ =>
                      (fix loop (cs : list coord) (val : Q) (total : Z) (umin umax : bool) : result (Q * Z) :=
                         match cs with
                         | [] => Ok (val, total)
                         | c :: cs' =>
                             let at0 := Qeq_bool (fst c) 0 && negb (isclose (snd c) 0) in
                             let at1 := Qeq_bool (fst c) 1 && negb (isclose (snd c) 0) in
                             let umin' := if at0 then false else umin in
                             let umax' := if at0 then umax else if at1 then false else umax in
                             match decomposition_recursive fuel' h (fst cmin) (fst c) umin' umax',
                                   decomposition_recursive fuel' h (fst c) (fst cmax) umin' umax' with
                             | Ok (ld, lt), Ok (rd, rt) =>
                                 loop cs' (val + (altitude cmin c cmax * inject_Z (lt * rt)
                                                  + ld * inject_Z rt + rd * inject_Z lt))%Q
                                      (total + lt * rt)%Z umin' umax'
                             | Err e, _ => Err e
                             | _, Err e => Err e
                             end
                         end) inner 0%Q 0%Z use_x_min_ref use_x_max_ref
                  end
              end
          end
      end
  end.

(* Recursion depth that always suffices: at most one level per hull vertex. *)
Definition rec_fuel (h : hull) : nat := length (qhull h) + 3.

(* reactions/hull.py:217-249 get_secondary_competition with include_e_hull=False,
   for a reaction at coordinate x. *)
Definition num_paths (h : hull) (x1 x2 : Q) : result Z :=
  bind (get_coords_in_range h x1 x2) (fun cs => count (Z.of_nat (length cs) - 2)).

Definition combine_sides (normalize : bool) (left_energy right_energy : Q)
    (left_num right_num : Z) : Q :=
  let ln := if (left_num =? 0)%Z then 1%Z else left_num in
  let rn := if (right_num =? 0)%Z then 1%Z else right_num in
  let energy := (left_energy * inject_Z rn + right_energy * inject_Z ln)%Q in
  let energy := if normalize then (energy / inject_Z (ln * rn))%Q else energy in
  (-1 * energy)%Q.

Definition get_secondary_competition (h : hull) (x : Q) (normalize recursive : bool) : result Q :=
  if recursive then
    match decomposition_recursive (rec_fuel h) h 0 x true true with
    | Err e => Err e
    | Ok (le, ln) =>
        match decomposition_recursive (rec_fuel h) h x 1 true true with
        | Err e => Err e
        | Ok (re, rn) => Ok (combine_sides normalize le re ln rn)
        end
    end
  else
    match get_decomposition_energy h 0 x, num_paths h 0 x,
          get_decomposition_energy h x 1, num_paths h x 1 with
    | Ok le, Ok ln, Ok re, Ok rn => Ok (combine_sides normalize le re ln rn)
    | Err e, _, _, _ => Err e
    | _, Err e, _, _ => Err e
    | _, _, Err e, _ => Err e
    | _, _, _, Err e => Err e
    end.

(* reactions/hull.py:251-264 get_secondary_competition_max_energy. *)
Definition get_secondary_competition_max_energy (h : hull) (x : Q) : result Q :=
  match get_max_decomposition_energy h 0 x with
  | Err e => Err e
  | Ok le =>
      match get_max_decomposition_energy h x 1 with
      | Err e => Err e
      | Ok re => Ok (-1 * (le + re))%Q
      end
  end.
