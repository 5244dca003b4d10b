(* Model of get_offset of thermo/chempot_diagram.py, with real numbers for the norm. *)
From Coq Require Import Reals Qreals.
From Verif Require Import Prelude NumQ.
Open Scope R_scope.

(* numpy.linalg.norm *)
Definition norm (a : list R) : R := sqrt (fold_right Rplus 0 (map (fun x => x * x) a)).
(* chempot_diagram.py:229-232 _get_distance_between_parallel_hyperplanes *)
Definition parallel_distance (a : list R) (delta_b : R) : R := Rabs delta_b / norm a.

(* chempot_diagram.py:111-128 get_offset. [is_min] is entry in self._min_entries,
   [has_domain] is formula in self.domains, [above] is
   self._entry_set.get_e_above_hull(entry), [normal] the atomic fractions. *)
Definition get_offset (is_min has_domain : bool) (above : result Q) (normal : list Q) : result R :=
  if is_min && has_domain then Ok 0
  else bind above (fun d => Ok (parallel_distance (map Q2R normal) (Q2R d))).
