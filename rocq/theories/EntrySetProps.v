(* C49-C53, C58-C60, C80-C83: theorems about entry sets. *)
From Verif Require Import Prelude NumQ SumQ UtilsModel ReactionModel ReactionSpec ReactionCheck SolverModel EnumModel RunModel GibbsModel GibbsCheck EntrySetModel EntrySetSpec EntrySetProofs EntryFilterProofs EntryAdjustProofs EntryBuildModel FromPdProofs ProcessProofs EntrySetCheck.
Open Scope nat_scope.

(* --- C49 --- *)
(* A view read after any history is what it would be if computed from the entries now. *)
Theorem C49_never_stale : forall (view value : Type) (view_eqb : view -> view -> bool), (forall a b, view_eqb a b = true <-> a = b) ->
  forall (compute : view -> list nat -> result value) (arrange : list nat -> list nat), (forall l, Permutation l (arrange l)) ->
  forall es ops v,
  let s := run view view_eqb value compute arrange (es_init view value arrange es) ops in
  snd (read view view_eqb value compute v s) = compute v (es_members s).
Proof. exact @never_stale. Qed.
Print Assumptions C49_never_stale.

(* A view that does not depend on the iteration order is the one of any fresh set with
   the same entries. *)
Theorem C49_like_fresh : forall (view value : Type) (view_eqb : view -> view -> bool), (forall a b, view_eqb a b = true <-> a = b) ->
  forall (compute : view -> list nat -> result value) (arrange : list nat -> list nat), (forall l, Permutation l (arrange l)) ->
  forall es ops v es', (forall l l', Permutation l l' -> compute v l = compute v l') ->
  (forall x, In x es' <-> In x (es_members (run view view_eqb value compute arrange (es_init view value arrange es) ops))) ->
  snd (read view view_eqb value compute v (run view view_eqb value compute arrange (es_init view value arrange es) ops))
    = snd (read view view_eqb value compute v (es_init view value arrange es')).
Proof. exact @like_fresh. Qed.
Print Assumptions C49_like_fresh.

Theorem C49_members : forall (view value : Type) (view_eqb : view -> view -> bool) (compute : view -> list nat -> result value) (arrange : list nat -> list nat),
  (forall a b, view_eqb a b = true <-> a = b) -> (forall l, Permutation l (arrange l)) -> forall es ops o,
  let s := run view view_eqb value compute arrange (es_init view value arrange es) ops in
  let s' := step view view_eqb value compute arrange s o in
  match o with
  | OAdd _ e => forall x, In x (es_members s') <-> x = e \/ In x (es_members s)
  | OUpdate _ new => forall x, In x (es_members s') <-> In x new \/ In x (es_members s)
  | ODiscard _ e => forall x, In x (es_members s') <-> In x (es_members s) /\ x <> e
  | ORemove _ e => (forall x, In x (es_members s') <-> In x (es_members s) /\ x <> e)
                 /\ (snd (remove view value arrange e s) = Err KeyError <-> ~ In e (es_members s))
  | OPop _ => (es_members s = [] /\ snd (pop view value arrange s) = Err KeyError)
           \/ exists p, snd (pop view value arrange s) = Ok p /\ In p (es_members s)
                       /\ forall x, In x (es_members s') <-> In x (es_members s) /\ x <> p
  | OClear _ => es_members s' = []
  | OIor _ new => forall x, In x (es_members s') <-> In x (es_members s) \/ In x new
  | OIsub _ old => forall x, In x (es_members s') <-> In x (es_members s) /\ ~ In x old
  | OIand _ both => forall x, In x (es_members s') <-> In x (es_members s) /\ In x both
  | ORead _ _ => es_members s' = es_members s
  end.
Proof. exact @members_after_history. Qed.
Print Assumptions C49_members.

Example C49_demo :
  let s := run nat Nat.eqb nat (fun v l => Ok (v + length l)) (@rev nat) (es_init nat nat (@rev nat) [4; 7; 4]) [ORead _ 1; OAdd _ 9; ORead _ 1; OPop _; ORead _ 1; OIor _ [7; 3]] in
  es_members s = [3; 7; 4] /\ snd (read nat Nat.eqb nat (fun v l => Ok (v + length l)) 1 s) = Ok 4.
Proof. split; reflexivity. Qed.

(* --- C50 --- *)
(* Missing: that the indices stay so when the set changes. *)
Theorem C50_indices_partial : forall sorted : list nat -> list nat, (forall l, Permutation (sorted l) l) -> forall members d, NoDup members ->
  map (build_indices sorted members d) (sorted members) = map Some (seq 0 (length members))
  /\ (forall x, ~ In x members -> build_indices sorted members d x = d x).
Proof. exact build_indices_spec. Qed.
Print Assumptions C50_indices_partial.

Example C50_demo : map (build_indices (@rev nat) [4; 7; 9] (fun _ => None)) [4; 7; 9; 5] = [Some 2; Some 1; Some 0; None] /\ NoDup [4; 7; 9].
Proof. split; [reflexivity|]. repeat constructor; cbn; intuition discriminate. Qed.

Theorem C50_add_refuted : exists sorted members e, (forall l, Permutation (sorted l) l) /\ NoDup members
  /\ ~ indexed (set_add e members) (build_indices sorted members (fun _ => None)).
Proof. exact add_unindexed. Qed.
Print Assumptions C50_add_refuted.

Theorem C50_discard_refuted : exists sorted members e, (forall l, Permutation (sorted l) l) /\ NoDup members
  /\ ~ indexed (set_discard e members) (build_indices sorted members (fun _ => None)).
Proof. exact discard_unindexed. Qed.
Print Assumptions C50_discard_refuted.

(* Indexing a subset changes the indices of the set it was taken from. *)
Theorem C50_shared_refuted : exists sorted elems members els sub, (forall l, Permutation (sorted l) l) /\ NoDup members
  /\ get_subset elems members els = Ok sub
  /\ ~ indexed members (build_indices sorted sub (build_indices sorted members (fun _ => None))).
Proof. exact subset_unindexed. Qed.
Print Assumptions C50_shared_refuted.

(* --- C51 --- *)
Theorem C51_ground_states : forall formula epa e_hull cutoff pds, exists l, filter_pds formula epa e_hull cutoff false pds = Ok l /\ NoDup l
  /\ (forall a b, In a l -> In b l -> formula a = formula b -> a = b)
  /\ (forall m, In m l -> ground_state formula epa (qualifies e_hull cutoff pds) m)
  /\ (forall e, qualifies e_hull cutoff pds e -> exists m, In m l /\ formula m = formula e).
Proof. exact no_polymorphs. Qed.
Print Assumptions C51_ground_states.

Theorem C51_polymorphs : forall formula epa e_hull cutoff pds, exists l, filter_pds formula epa e_hull cutoff true pds = Ok l /\ NoDup l
  /\ forall e, In e l <-> qualifies e_hull cutoff pds e.
Proof. exact with_polymorphs. Qed.
Print Assumptions C51_polymorphs.

(* For the diagrams of a set, when they agree on the energy above hull of an entry. *)
Theorem C51_filter_by_stability : forall elems formula epa e_hull h cutoff members, (forall e, NoDup (elems e)) -> (forall k pd e, In (k, pd) (expand_pd elems members) -> In e pd -> (e_hull pd e == h e)%Q) ->
  (exists l, filter_by_stability elems formula epa e_hull members cutoff false = Ok l /\ NoDup l
    /\ (forall a b, In a l -> In b l -> formula a = formula b -> a = b)
    /\ (forall m, In m l -> ground_state formula epa (fun e => In e members /\ (h e <= cutoff)%Q) m)
    /\ (forall e, In e members -> (h e <= cutoff)%Q -> exists m, In m l /\ formula m = formula e))
  /\ exists l, filter_by_stability elems formula epa e_hull members cutoff true = Ok l /\ NoDup l
    /\ forall e, In e l <-> In e members /\ (h e <= cutoff)%Q.
Proof. exact filter_set. Qed.
Print Assumptions C51_filter_by_stability.

Example C51_demo : (forall e, NoDup (some_elems e)) /\ (forall k pd e, In (k, pd) (expand_pd some_elems [3; 0; 1; 2]) -> In e pd -> (some_hull pd e == some_hull [] e)%Q)
  /\ filter_by_stability some_elems some_formula some_epa some_hull [3; 0; 1; 2] (1 # 10) false = Ok [0; 1; 2]
  /\ filter_by_stability some_elems some_formula some_epa some_hull [3; 0; 1; 2] (1 # 10) true = Ok [3; 0; 1; 2]
  /\ filter_by_stability some_elems some_formula some_epa some_hull [3; 0; 1; 2] (1 # 20) true = Ok [0; 1; 2].
Proof. split; [exact some_elems_nodup|]. split; [reflexivity|]. repeat split; vm_compute; reflexivity. Qed.

(* --- C52 --- *)
Theorem C52_min_entry : forall formula epa members f,
  (forall m, get_min_entry formula epa members f = Ok m -> formula m = f /\ ground_state formula epa (fun e => In e members) m)
  /\ (get_min_entry formula epa members f = Err KeyError <-> forall e, In e members -> formula e <> f)
  /\ (forall x, get_min_entry formula epa members f = Err x -> x = KeyError).
Proof. exact min_entry_spec. Qed.
Print Assumptions C52_min_entry.

Example C52_demo : get_min_entry some_formula some_epa [3; 0; 2] 2 = Ok 2 /\ get_min_entry some_formula some_epa [3; 0; 2] 1 = Err KeyError.
Proof. split; vm_compute; reflexivity. Qed.

(* --- C53 --- *)
(* H is the energy of the hull at the composition. Missing: a stored energy above hull
   that is not the one of the present hull. *)
Theorem C53_stabilized_partial : forall ln C mass table default_id refs deprecated above e data tol force h H,
  constructed ln C mass table default_id refs deprecated e -> (0 < natoms C (any_comp e))%Q ->
  (h == (any_energy ln C e - H) / natoms C (any_comp e))%Q -> (data = Some h \/ (data = None /\ above e = Ok h)) ->
  exists e', get_stabilized ln C mass table default_id refs deprecated above e data tol force = Ok e' /\ any_comp e' = any_comp e
    /\ (((any_energy ln C e == H)%Q /\ force = false /\ e' = e) \/ ((~ (any_energy ln C e == H)%Q \/ force = true) /\ (any_energy ln C e' == H - tol)%Q)).
Proof. exact stabilized_spec. Qed.
Print Assumptions C53_stabilized_partial.

Example C53_demo : constructed no_ln demo demo_mass demo_refs no_id demo_exp (fun _ => false) bao /\ (0 < natoms demo (any_comp bao))%Q
  /\ (1 == (any_energy no_ln demo bao - -(7)) / natoms demo (any_comp bao))%Q.
Proof. split; [apply bao_built|]. split; reflexivity. Qed.

Theorem C53_interpolated : forall ln C hull id_of c tol H, hull (red C c) = Ok H ->
  exists e, get_interpolated C hull id_of c tol = Ok e /\ any_comp e = red C c /\ (any_energy ln C e == H - tol * natoms C (red C c))%Q.
Proof. exact interpolated_spec. Qed.
Print Assumptions C53_interpolated.

Theorem C53_stale_data_refuted : forall ln, exists C mass table default_id refs deprecated e above data H tol e',
  constructed ln C mass table default_id refs deprecated e /\ (0 < natoms C (any_comp e))%Q
  /\ (exists h, above e = Ok h /\ h == (any_energy ln C e - H) / natoms C (any_comp e))%Q
  /\ get_stabilized ln C mass table default_id refs deprecated above e (Some data) tol false = Ok e'
  /\ (H < any_energy ln C e')%Q.
Proof. exact stale_data. Qed.
Print Assumptions C53_stale_data_refuted.

(* Stabilising the stabilised entry lowers it again. *)
Theorem C53_twice_refuted : forall ln, exists C mass table default_id refs deprecated e above data H tol e1 e2,
  constructed ln C mass table default_id refs deprecated e /\ (0 < natoms C (any_comp e))%Q
  /\ (data == (any_energy ln C e - H) / natoms C (any_comp e))%Q
  /\ get_stabilized ln C mass table default_id refs deprecated above e (Some data) tol false = Ok e1
  /\ get_stabilized ln C mass table default_id refs deprecated above e1 (Some data) tol false = Ok e2
  /\ (any_energy ln C e1 == H - tol)%Q /\ (any_energy ln C e2 < H - tol)%Q.
Proof. exact twice_stabilised. Qed.
Print Assumptions C53_twice_refuted.

(* stabilize_entries raises for an entry without to_dict, and otherwise raises the energy. *)
Theorem C53_stabilize_entries_refuted : forall ln, exists C e tol h H, (0 < natoms C (any_comp e))%Q /\ (h == (any_energy ln C e - H) / natoms C (any_comp e))%Q
  /\ (H < any_energy ln C e)%Q
  /\ stabilize_one ln C false h e tol = Err AttributeError
  /\ exists x, stabilize_one ln C true h e tol = Ok x /\ (any_energy ln C e < x)%Q.
Proof. exact stabilize_raises. Qed.
Print Assumptions C53_stabilize_entries_refuted.

(* It does so for every entry that is above the hull by more than half the tolerance. *)
Theorem C53_stabilize_entries_wrong_sign : forall ln C has_to_dict e tol h H, (0 < natoms C (any_comp e))%Q -> (h == (any_energy ln C e - H) / natoms C (any_comp e))%Q ->
  (tol < 2 * (any_energy ln C e - H))%Q ->
  (has_to_dict = false /\ stabilize_one ln C has_to_dict h e tol = Err AttributeError)
  \/ exists x, stabilize_one ln C has_to_dict h e tol = Ok x /\ (H < x)%Q /\ (x == H + 2 * (any_energy ln C e - H) - tol)%Q.
Proof. exact wrong_sign. Qed.
Print Assumptions C53_stabilize_entries_wrong_sign.

(* --- C58 --- *)
(* Missing: a formula that NIST has and FREED has not, with both requested. *)
Theorem C58_sources_partial : forall formula is_el is_ref nist freed, well_behaved nist -> well_behaved freed ->
  forall use_nist use_freed ignore_solids build, (forall e, exists u, build e = Ok u) ->
  (forall f, available use_nist ignore_solids nist f -> use_freed = true -> available use_freed false freed f) ->
  forall entries, NoDup entries ->
  exists out, from_pd formula is_el is_ref nist freed use_nist use_freed ignore_solids build entries = Ok out /\ NoDup out
  /\ (forall e, In (FromPd e) out <-> In e entries /\ considered is_el is_ref e
        /\ ~ available use_nist ignore_solids nist (formula e) /\ ~ available use_freed false freed (formula e))
  /\ (forall f, In (FromNist f) out <-> available use_nist ignore_solids nist f /\ exists e, In e entries /\ considered is_el is_ref e /\ formula e = f)
  /\ (forall f, In (FromFreed f) out <-> available use_freed false freed f /\ exists e, In e entries /\ considered is_el is_ref e /\ formula e = f).
Proof. exact from_pd_spec. Qed.
Print Assumptions C58_sources_partial.

Example C58_demo : well_behaved has_li2o /\ (forall f, available true true has_li2o f -> false = true -> available false false has_nothing f)
  /\ from_pd some_formula (fun e => e <? 2) (fun _ => true) has_li2o has_nothing true false true (fun _ => Ok tt) [0; 1; 2; 3] = Ok [FromPd 0; FromPd 1; FromNist 2].
Proof. split; [intros f x H; discriminate|]. split; [discriminate|]. reflexivity. Qed.

Theorem C58_sources_refuted : exists formula is_el is_ref nist freed entries out, well_behaved nist /\ well_behaved freed /\ NoDup entries
  /\ from_pd formula is_el is_ref nist freed true true true (fun _ => Ok tt) entries = Ok out
  /\ exists e f, available true true nist f /\ formula e = f /\ In (FromNist f) out /\ In (FromPd e) out.
Proof. exact mixed_sources. Qed.
Print Assumptions C58_sources_refuted.

(* --- C59 --- *)
(* Missing: elements, which are dropped. *)
Theorem C59_jitter_partial : forall ln C mass table default_id refs deprecated unc entries noise, length noise = length entries ->
  Forall (constructed ln C mass table default_id refs deprecated) entries ->
  (forall e, In e entries -> is_element C (any_comp e) = false) ->
  exists out, get_jitter ln C mass table default_id refs deprecated unc entries noise = Ok out
    /\ Forall2 (fun ez e' => noisy ln C unc (fst ez) (snd ez) e') (combine entries noise) out /\ length out = length entries.
Proof. exact jitter_no_elements. Qed.
Print Assumptions C59_jitter_partial.

Example C59_demo : length [1%Q; 2%Q] = length [bao; bao] /\ Forall (constructed no_ln demo demo_mass demo_refs no_id demo_exp (fun _ => false)) [bao; bao]
  /\ forall e, In e [bao; bao] -> is_element demo (any_comp e) = false.
Proof. split; [reflexivity|]. split; [repeat constructor; apply bao_built|]. intros e [<-|[<-|[]]]; reflexivity. Qed.

Theorem C59_elements_refuted : forall ln, exists C mass table default_id refs deprecated unc entries noise out,
  wf_chem C /\ length noise = length entries /\ Forall (constructed ln C mass table default_id refs deprecated) entries
  /\ get_jitter ln C mass table default_id refs deprecated unc entries noise = Ok out /\ length out < length entries
  /\ exists e, In e entries /\ forall e', In e' out -> any_comp e' <> any_comp e.
Proof. exact jitter_drops. Qed.
Print Assumptions C59_elements_refuted.

(* --- C60 --- *)
Theorem C60_subset : forall elems members els,
  (forall l, get_subset elems members els = Ok l -> (forall e, In e l <-> In e members /\ forall x, In x (elems e) -> In x els) /\ (NoDup members -> NoDup l))
  /\ (get_subset elems members els = Err ValueError <-> exists x, In x els /\ forall e, In e members -> ~ In x (elems e))
  /\ (forall x, get_subset elems members els = Err x -> x = ValueError).
Proof. exact get_subset_spec. Qed.
Print Assumptions C60_subset.

Example C60_demo : get_subset some_elems [3; 0; 1; 2] [1] = Ok [1] /\ get_subset some_elems [3; 0; 1; 2] [0; 1] = Ok [3; 0; 1; 2] /\ get_subset some_elems [0] [0; 1] = Err ValueError.
Proof. repeat split; reflexivity. Qed.

(* --- C80 --- *)
(* When the entries are filtered at the temperature that is wanted. *)
Theorem C80_same_temperature : forall elems formula epa sorted e_hull interp warm, (forall f e, interp f = Ok e -> formula e = f) ->
  forall members cutoff poly formulas, (forall f, In f formulas -> exists e, initialize_entry formula epa interp members f = Ok e) ->
  exists kept included out, filter_by_stability elems formula epa e_hull members cutoff poly = Ok kept
    /\ Forall2 (fun f e => initialize_entry formula epa interp members f = Ok e) formulas included
    /\ process_entries elems formula epa sorted e_hull interp warm members cutoff poly formulas false = Ok out
    /\ NoDup out
    /\ (forall e, In e out <-> In e kept \/ In e included)
    /\ (forall f, In f formulas -> exists e, In e out /\ formula e = f).
Proof. exact process_same. Qed.
Print Assumptions C80_same_temperature.

(* The entry for a wanted formula is the ground state, or an interpolated one if there is
   none. *)
Theorem C80_initialize : forall formula epa interp, (forall f e, interp f = Ok e -> formula e = f) -> forall members f,
  (forall e, initialize_entry formula epa interp members f = Ok e -> formula e = f
     /\ (ground_state formula epa (fun e => In e members) e \/ ((forall m, In m members -> formula m <> f) /\ interp f = Ok e)))
  /\ (forall x, initialize_entry formula epa interp members f = Err x -> (forall m, In m members -> formula m <> f) /\ interp f = Err x).
Proof. exact initialize_spec. Qed.
Print Assumptions C80_initialize.

(* Otherwise a wanted formula is only kept if its entry can be given the temperature. *)
Theorem C80_other_temperature_partial : forall elems formula epa sorted e_hull interp warm, (forall f e, interp f = Ok e -> formula e = f) ->
  forall members cutoff poly formulas, (forall l, Permutation (sorted l) l) ->
  (forall f, In f formulas -> exists e, initialize_entry formula epa interp members f = Ok e) ->
  (forall e x, warm e = Err x -> x = ValueError) -> (forall e x, warm e = Ok x -> formula x = formula e) ->
  exists kept included out, filter_by_stability elems formula epa e_hull members cutoff poly = Ok kept
    /\ Forall2 (fun f e => initialize_entry formula epa interp members f = Ok e) formulas included
    /\ process_entries elems formula epa sorted e_hull interp warm members cutoff poly formulas true = Ok out
    /\ NoDup out
    /\ (forall x, In x out <-> exists e, (In e kept \/ In e included) /\ warm e = Ok x)
    /\ (forall f e, initialize_entry formula epa interp members f = Ok e -> In f formulas -> (exists x, warm e = Ok x) -> exists x, In x out /\ formula x = f).
Proof. exact process_other. Qed.
Print Assumptions C80_other_temperature_partial.

Example C80_demo : (forall f e, (fun f => if Nat.eqb f 9 then Ok 9 else Err ValueError) f = Ok e -> some_formula e = f)
  /\ process_entries some_elems some_formula some_epa (@rev nat) some_hull (fun f => if Nat.eqb f 9 then Ok 9 else Err ValueError) (@Ok nat) [3; 0; 1] (1 # 20) false [2; 9] false = Ok [0; 1; 3; 9]
  /\ process_entries some_elems some_formula some_epa (@rev nat) some_hull (fun f => if Nat.eqb f 9 then Ok 9 else Err ValueError) (@Ok nat) [3; 0; 1] (1 # 20) false [2; 9] true = Ok [9; 3; 1; 0].
Proof. split; [|split; vm_compute; reflexivity]. intros f e. destruct (Nat.eqb_spec f 9); [|discriminate]. intros H. inversion H; subst. reflexivity. Qed.

Theorem C80_dropped_refuted : exists elems formula epa sorted e_hull interp warm members formulas out,
  (forall e, NoDup (elems e)) /\ (forall l, Permutation (sorted l) l) /\ (forall f e, interp f = Ok e -> formula e = f)
  /\ (forall e x, warm e = Err x -> x = ValueError) /\ (forall e x, warm e = Ok x -> formula x = formula e)
  /\ process_entries elems formula epa sorted e_hull interp warm members 0 false formulas true = Ok out
  /\ exists f m, In f formulas /\ In m members /\ formula m = f /\ forall x, In x out -> formula x <> f.
Proof. exact included_dropped. Qed.
Print Assumptions C80_dropped_refuted.

(* --- C81 --- *)
(* The first part is the property; it needs that no entry fails with another error. *)
Theorem C81_new_temperature_partial : forall (sorted : list nat -> list nat) warm members, (forall l, Permutation (sorted l) l) ->
  ((forall e x, In e members -> warm e = Err x -> x = ValueError) ->
     exists r, new_temperature sorted warm members = Ok r /\ NoDup r /\ forall x, In x r <-> exists e, In e members /\ warm e = Ok x)
  /\ ((exists e x, In e members /\ warm e = Err x /\ x <> ValueError) ->
     exists e x, In e members /\ warm e = Err x /\ x <> ValueError /\ new_temperature sorted warm members = Err x).
Proof. exact new_temperature_spec. Qed.
Print Assumptions C81_new_temperature_partial.

Example C81_demo : new_temperature (@rev nat) (fun e => if Nat.eqb e 1 then Err ValueError else Ok (e + 10)) [0; 1; 2] = Ok [12; 10].
Proof. reflexivity. Qed.

Theorem C81_raises_refuted : exists sorted warm members, (forall l, Permutation (sorted l) l)
  /\ (exists e x, In e members /\ warm e = Ok x) /\ new_temperature sorted warm members = Err TypeError.
Proof. exact temperature_raises. Qed.
Print Assumptions C81_raises_refuted.

(* --- C82 --- *)
(* The entries are those of C58, whether or not the system is split into several
   diagrams. Missing: the option to store energies above hull. *)
Theorem C82_split_partial : forall elems, (forall e, NoDup (elems e)) -> forall formula is_el is_ref nist freed, well_behaved nist -> well_behaved freed ->
  forall use_nist use_freed ignore_solids build, (forall e, exists u, build e = Ok u) ->
  (forall f, available use_nist ignore_solids nist f -> use_freed = true -> available use_freed false freed f) ->
  forall entries calc, NoDup entries ->
  (forall k pd e, In (k, pd) (expand_pd elems entries) -> In e pd -> is_ref pd e = is_ref entries e) ->
  exists out flag, from_computed elems formula is_el is_ref nist freed use_nist use_freed ignore_solids build entries calc = Ok (out, flag)
  /\ NoDup out
  /\ (forall e, In (FromPd e) out <-> In e entries /\ considered is_el (is_ref entries) e
        /\ ~ available use_nist ignore_solids nist (formula e) /\ ~ available use_freed false freed (formula e))
  /\ (forall f, In (FromNist f) out <-> available use_nist ignore_solids nist f /\ exists e, In e entries /\ considered is_el (is_ref entries) e /\ formula e = f)
  /\ (forall f, In (FromFreed f) out <-> available use_freed false freed f /\ exists e, In e entries /\ considered is_el (is_ref entries) e /\ formula e = f)
  /\ (length (chem_sys elems entries) <= 9 -> flag = calc).
Proof. exact from_computed_spec. Qed.
Print Assumptions C82_split_partial.

Example C82_demo : from_computed (fun e => match e with 0 => seq 0 6 | 1 => seq 5 6 | _ => [e] end) (fun e => e) (fun e => 2 <=? e) (fun _ _ => true) has_li2o has_nothing true false true (fun _ => Ok tt) [2; 1; 0; 7] true
    = Ok ([FromPd 1; FromPd 7; FromNist 2; FromPd 0], false)
  /\ from_computed some_elems some_formula (fun e => e <? 2) (fun _ _ => true) has_li2o has_nothing true false true (fun _ => Ok tt) [2; 1; 0; 3] true = Ok ([FromNist 2; FromPd 1; FromPd 0], true).
Proof. split; vm_compute; reflexivity. Qed.

Theorem C82_option_refuted : exists elems formula is_el is_ref nist freed entries out, well_behaved nist /\ well_behaved freed /\ NoDup entries
  /\ from_computed elems formula is_el is_ref nist freed true false true (fun _ => Ok tt) entries true = Ok (out, false).
Proof. exact flag_lost. Qed.
Print Assumptions C82_option_refuted.

(* --- C83 --- *)
Theorem C83_carbonate : forall C c_el o_el c,
  (exists n, carbonate C c_el o_el true c = Some n) <-> In c_el (elems C c) /\ In o_el (elems C c) /\ ~ (amt C c c_el == 0)%Q /\ ~ (amt C c o_el == 0)%Q /\ isclose (amt C c o_el / amt C c c_el) 3 = true.
Proof. exact carbonate_iff. Qed.
Print Assumptions C83_carbonate.

Theorem C83_carbonate_extensive : forall C c_el o_el gga c c' k, (0 < k)%Q -> elems C c' = elems C c -> (forall e, (amt C c' e == k * amt C c e)%Q) ->
  (carbonate C c_el o_el gga c = None /\ carbonate C c_el o_el gga c' = None)
  \/ exists n n', carbonate C c_el o_el gga c = Some n /\ carbonate C c_el o_el gga c' = Some n' /\ (n == amt C c c_el)%Q /\ (n' == k * n)%Q.
Proof. exact carbonate_extensive. Qed.
Print Assumptions C83_carbonate_extensive.

Example C83_demo : carbonate demo 4 1 true 9 = Some 1%Q /\ carbonate demo 4 1 true 12 = None /\ carbonate demo 4 1 false 9 = None.
Proof. repeat split; vm_compute; reflexivity. Qed.

(* The adjustment is this number times the correction of one group; the correction of the entry is the sum of its
   adjustments (that of carbon dioxide is kT ln p per three atoms). *)
Theorem C83_value : forall ln l, (correction ln [] == 0)%Q
  /\ (forall name v, (correction ln (AConst name v :: l) == v + correction ln l)%Q)
  /\ (forall n per_group, (correction ln (ACarbonate n per_group :: l) == n * per_group + correction ln l)%Q)
  /\ (forall n temp p, (3 * (correction ln (ACO2 n temp p :: l) - correction ln l) == n * ((8617 # 100000000) * temp * ln p))%Q).
Proof. exact correction_value. Qed.
Print Assumptions C83_value.

Example C83_value_demo : Qred (correction (fun _ => (-8)%Q) [ACarbonate 2 (83 # 100); AConst (Named 0) (1 # 2); ACO2 3 300 (1 # 2500)]) = (244149 # 125000)%Q.
Proof. vm_compute. reflexivity. Qed.
