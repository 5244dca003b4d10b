(* C98 and C99: chemical potential diagrams. *)
From Coq Require Import Reals Qreals.
From Verif Require Import Prelude NumQ SumQ DiagModel DiagSpec DiagProofs DiagCheck OffsetModel OffsetSpec OffsetProofs.
Open Scope nat_scope.

(* --- C98 --- *)
(* At every point of the domain of a formula, its ground state is in equilibrium and no
   entry of the set is more stable by more than the tolerance. *)
Theorem C98_domains : forall els frac formula epa same entries, fractions els frac formula entries ->
  (forall a b, In a entries -> In b entries -> same a b = true <-> a = b) ->
  forall elements mins planes borders vs, diagram_init els frac formula epa same entries = Ok (elements, mins, planes) ->
  intersection (length elements) (all_halfspaces frac epa elements planes borders) vs ->
  exists d, get_domains formula planes (length borders) vs = Ok d /\ NoDup (map fst d)
  /\ forall f pts, In (f, pts) d -> pts <> [] /\ forall p, In p pts -> (exists facet, In (p, facet) vs)
     /\ (exists e, ground_state formula epa entries e /\ formula e = f /\ (level frac elements e p == epa e)%Q)
     /\ forall x, In x entries -> (level frac elements x p <= epa x + (1 # 100000000000))%Q.
Proof. exact diagram_sound. Qed.
Print Assumptions C98_domains.

(* Every vertex of the diagram at which a ground state of an element, or one of negative
   formation energy, is in equilibrium belongs to the domain of its formula. *)
Theorem C98_complete : forall els frac formula epa same entries, fractions els frac formula entries ->
  (forall a b, In a entries -> In b entries -> same a b = true <-> a = b) ->
  forall elements mins planes borders vs ref, diagram_init els frac formula epa same entries = Ok (elements, mins, planes) ->
  intersection (length elements) (all_halfspaces frac epa elements planes borders) vs -> all_named (all_halfspaces frac epa elements planes borders) vs ->
  references els formula epa entries ref ->
  exists d, get_domains formula planes (length borders) vs = Ok d
  /\ forall e p facet, ground_state formula epa entries e ->
     (exists el, els e = [el]) \/ (epa e + (1 # 100000000000) < sumQ (fun el => frac e el * epa (ref el)) elements)%Q ->
     In (p, facet) vs -> (level frac elements e p == epa e)%Q -> exists pts, In (formula e, pts) d /\ In p pts.
Proof. exact diagram_complete. Qed.
Print Assumptions C98_complete.

(* A formula with a domain is on the hull: no mixture of entries of its composition is
   lower by more than the tolerance. *)
Theorem C98_on_hull : forall els frac formula epa same entries elements mins planes borders vs, fractions els frac formula entries ->
  (forall a b, In a entries -> In b entries -> same a b = true <-> a = b) ->
  diagram_init els frac formula epa same entries = Ok (elements, mins, planes) ->
  intersection (length elements) (all_halfspaces frac epa elements planes borders) vs ->
  exists d, get_domains formula planes (length borders) vs = Ok d
  /\ forall f, In f (map fst d) -> exists e, ground_state formula epa entries e /\ formula e = f
     /\ forall ws, mixture frac entries e ws -> (epa e <= sumQ (fun xw => snd xw * epa (fst xw)) ws + (1 # 100000000000))%Q.
Proof. exact diagram_on_hull. Qed.
Print Assumptions C98_on_hull.

Example C98_demo : fractions lo_els lo_frac lo_formula lo_entries
  /\ diagram_init lo_els lo_frac lo_formula lo_epa Nat.eqb lo_entries = Ok ([0; 1], [0; 1; 2; 4], lo_planes)
  /\ intersection 2 (all_halfspaces lo_frac lo_epa [0; 1] lo_planes lo_borders) lo_vertices
  /\ all_named (all_halfspaces lo_frac lo_epa [0; 1] lo_planes lo_borders) lo_vertices
  /\ references lo_els lo_formula lo_epa lo_entries lo_ref
  /\ get_domains lo_formula lo_planes (length lo_borders) lo_vertices = Ok lo_domains.
Proof. split; [exact lo_fractions|]. split; [exact lo_init|]. split; [exact lo_intersection|]. split; [exact lo_named|]. split; [exact lo_references|exact lo_found]. Qed.

(* A set with ground states of all its elements is accepted exactly if it has two
   elements or more. *)
Theorem C98_build_partial : forall els frac formula epa same entries, fractions els frac formula entries ->
  (forall a b, In a entries -> In b entries -> same a b = true <-> a = b) -> has_references els entries ->
  let elements := diagram_elements els (sorted_key formula entries) in
  (2 <= length elements -> exists r, diagram_init els frac formula epa same entries = Ok r)
  /\ (length elements < 2 -> diagram_init els frac formula epa same entries = Err ValueError).
Proof. exact diagram_built. Qed.
Print Assumptions C98_build_partial.

(* Without an entry for one of the elements it is a KeyError instead of the ValueError
   that names the missing elements. *)
Theorem C98_missing_refuted : exists els frac formula epa same entries e el, fractions els frac formula entries
  /\ (forall a b, In a entries -> In b entries -> same a b = true <-> a = b) /\ In e entries /\ In el (els e) /\ (forall x, In x entries -> els x <> [el])
  /\ diagram_init els frac formula epa same entries = Err KeyError.
Proof. exact no_oxygen. Qed.
Print Assumptions C98_missing_refuted.
Theorem C98_missing_always : forall els frac formula epa same entries e el, In e entries -> In el (els e) -> (forall x, In x entries -> els x <> [el]) ->
  diagram_init els frac formula epa same entries = Err KeyError.
Proof. exact build_missing. Qed.
Print Assumptions C98_missing_always.

(* --- C99 --- *)
(* The offset of an entry is zero for a ground state with a domain, and otherwise the
   distance between its plane and the parallel one lowered by the energy above the
   hull; it is then zero exactly if that energy is. *)
Theorem C99_offset : forall is_min has_domain d normal b, (exists x, In x normal /\ ~ (x == 0)%Q) ->
  exists v, get_offset is_min has_domain (Ok d) normal = Ok v
  /\ (is_min = true -> has_domain = true -> v = 0%R)
  /\ (is_min && has_domain = false -> plane_gap (map Q2R normal) b (b - Q2R d) v /\ (v = 0%R <-> (d == 0)%Q)).
Proof. exact offset_spec. Qed.
Print Assumptions C99_offset.

Example C99_demo : exists x, In x (normal lo_frac [0; 1] 4) /\ ~ (x == 0)%Q.
Proof. exists (1#2)%Q. split; [left; reflexivity|discriminate]. Qed.
