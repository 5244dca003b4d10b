(* C91: theorems about the entries an enumerator works with. *)
From Verif Require Import Prelude NumQ UtilsModel UtilsSpec ReactionModel ReactionSpec ReactionCheck RxnSetCheck EnumModel EnumSpec EnumLinkModel EnumCheck EntrySetModel EntrySetSpec InitModel InitSpec InitProofs StabilizeProofs InitCheck.
Open Scope nat_scope.

(* Missing: open phases written as another text than the reduced formula, and stabilize
   (both refuted below). *)
Theorem C91_initialized_partial : forall reduced formula epa interp stabilized stable,
  (forall t e, interp t = Ok e -> formula e = reduced t) -> (forall t t', reduced t = reduced t' -> interp t = interp t') ->
  forall members pre tar open_phases, NoDup members ->
  (forall t, In t pre \/ In t tar -> (exists x, In x members /\ formula x = reduced t) \/ (exists e, interp t = Ok e)) ->
  exists new P T O, initialized reduced formula epa interp stabilized stable false members pre tar open_phases = Ok (new, P, T, O)
  /\ NoDup new /\ NoDup P /\ NoDup T /\ NoDup O
  /\ (forall e, In e new <-> In e members \/ In e P \/ In e T)
  /\ (forall e, In e P -> exists t, In t pre /\ meant reduced formula epa interp members t e)
  /\ (forall t, In t pre -> exists e, In e P /\ meant reduced formula epa interp members t e)
  /\ (forall e, In e T -> exists t, In t tar /\ meant reduced formula epa interp members t e)
  /\ (forall t, In t tar -> exists e, In e T /\ meant reduced formula epa interp members t e)
  /\ (forall a b, In a P \/ In a T -> In b P \/ In b T -> formula a = formula b -> a = b)
  /\ (forall e, In e O <-> In e new /\ In (formula e) open_phases).
Proof. exact init_spec. Qed.
Print Assumptions C91_initialized_partial.

(* What BasicEnumerator returns for formulas given by the user: the reactions consume
   and make the entries meant by the formulas, never another polymorph. *)
Theorem C91_enumerate : forall {D} C ent solve rank (diagram : list nat -> D) o reduced formula epa interp stabilized stable members pre tar wait, wf_chem C ->
  (forall c e, In e (ReactionModel.elems C c) -> (1#100 < amt C (red C c) e)%Q) -> (forall i, e_id (ent i) = i) ->
  (forall r p c, length (solve r p c) = length r + length p) ->
  (forall t e, interp t = Ok e -> formula e = reduced t) -> (forall t t', reduced t = reduced t' -> interp t = interp t') ->
  NoDup members -> (forall e, In e members \/ (exists t, interp t = Ok e) -> ReactionModel.elems C (e_comp (ent e)) <> []) -> o_changed o = true ->
  1 <= o_chunk o -> 1 <= o_jobs o -> valid_schedule wait ->
  (forall t, In t pre \/ In t tar -> (exists x, In x members /\ formula x = reduced t) \/ (exists e, interp t = Ok e)) ->
  exists new P T out, initialized reduced formula epa interp stabilized stable false members pre tar [] = Ok (new, P, T, [])
  /\ enumerate_rxns (fun i => ReactionModel.elems C (e_comp (ent i))) basic_iterable basic_iter_length
       (basic_react (forward_rxn C ent solve rank) (backward_rxn C ent solve rank)) diagram o new P T [] [] wait = Ok out
  /\ (forall r, In r out -> sound_rxn o r
       /\ (pre <> [] -> match o_pfunc o with
            | IsSuperset => forall e, In e (er_reactants r) -> exists t, In t pre /\ meant reduced formula epa interp members t e
            | Intersection => exists e t, In e (er_reactants r) /\ In t pre /\ meant reduced formula epa interp members t e
            end)
       /\ (tar <> [] -> match o_tfunc o with
            | IsSuperset => forall e, In e (er_products r) -> exists t, In t tar /\ meant reduced formula epa interp members t e
            | Intersection => exists e t, In e (er_products r) /\ In t tar /\ meant reduced formula epa interp members t e
            end)).
Proof. exact @enumerate_named. Qed.
Print Assumptions C91_enumerate.

(* With stabilize the precursors and targets are the lowered entries, each of which takes
   the place of one ground state before the stable entries are selected. Missing: that the
   selection keeps them (refuted below). *)
Theorem C91_stabilize_partial : forall reduced formula epa interp stabilized stable,
  (forall t e, interp t = Ok e -> formula e = reduced t) -> (forall t t', reduced t = reduced t' -> interp t = interp t') ->
  (forall e s, stabilized e = Ok s -> formula s = formula e) ->
  forall members pre tar open_phases, NoDup members ->
  (forall t, In t pre \/ In t tar -> (exists x, In x members /\ formula x = reduced t) \/ (exists e, interp t = Ok e)) ->
  (forall e, In e members \/ (exists t, interp t = Ok e) -> exists s, stabilized e = Ok s) ->
  exists P T named before, NoDup P /\ NoDup T
  /\ (forall s, In s P -> exists t e, In t pre /\ meant reduced formula epa interp members t e /\ stabilized e = Ok s)
  /\ (forall t, In t pre -> exists e s, meant reduced formula epa interp members t e /\ stabilized e = Ok s /\ In s P)
  /\ (forall s, In s T -> exists t e, In t tar /\ meant reduced formula epa interp members t e /\ stabilized e = Ok s)
  /\ (forall t, In t tar -> exists e s, meant reduced formula epa interp members t e /\ stabilized e = Ok s /\ In s T)
  /\ (forall s, In s named <-> In s P \/ In s T)
  /\ replaces formula epa members named before
  /\ match stable before with
     | Err x => initialized reduced formula epa interp stabilized stable true members pre tar open_phases = Err x
     | Ok new => exists O, initialized reduced formula epa interp stabilized stable true members pre tar open_phases = Ok (new, P, T, O)
         /\ forall e, In e O <-> In e new /\ In (formula e) open_phases
     end.
Proof. exact stabilize_spec. Qed.
Print Assumptions C91_stabilize_partial.

Theorem C91_open_text_refuted : exists reduced formula epa interp stabilized stable members open_phases new P T O,
  initialized reduced formula epa interp stabilized stable false members [] [] open_phases = Ok (new, P, T, O)
  /\ exists t e, In t open_phases /\ In e new /\ formula e = reduced t /\ ~ In e O.
Proof. exact open_text_witness. Qed.
Print Assumptions C91_open_text_refuted.

Theorem C91_stabilize_refuted : exists reduced formula elems epa interp stabilized hull members pre new P T O,
  initialized reduced formula epa interp stabilized (fun l => filter_by_stability elems formula epa hull l 0 false) true members pre [] [] = Ok (new, P, T, O)
  /\ exists e, In e P /\ ~ In e new.
Proof. exact stabilize_witness. Qed.
Print Assumptions C91_stabilize_refuted.

(* AB has three polymorphs, the second being the ground state; A12B4 is another way to
   write A6B2; A2B is missing. *)
Example C91_demo : ab_init false [0; 1; 7; 3; 8; 2] [20; 9] [3] [1] = Ok ([0; 1; 7; 3; 8; 2; 9], [2; 9], [3], [1])
  /\ (forall t e, ab_interp t = Ok e -> ab_formula e = ab_reduced t) /\ (forall t t', ab_reduced t = ab_reduced t' -> ab_interp t = ab_interp t')
  /\ meant ab_reduced ab_formula ab_epa ab_interp [0; 1; 7; 3; 8; 2] 9 9.
Proof.
  split; [vm_compute; reflexivity|]. split; [exact ab_interp_formula|]. split; [exact ab_interp_same|].
  right. split; [|reflexivity]. cbn. intuition (subst; discriminate).
Qed.

(* AB and A6B2 are lowered; without the selection 5 stands for the ground state 3 of AB and
   4 for 2, the polymorph 7 stays. *)
Example C91_demo_stabilize : initialized ab_reduced ab_formula ab_epa ab_interp ab_stabilized (fun l => Ok l) true [0; 1; 7; 3; 2] [2; 3] [] [0]
    = Ok ([0; 1; 7; 4; 5], [4; 5], [], [0])
  /\ (forall e s, ab_stabilized e = Ok s -> ab_formula s = ab_formula e) /\ (forall e, exists s, ab_stabilized e = Ok s).
Proof.
  split; [vm_compute; reflexivity|]. split; intros e; do 4 (destruct e as [|e]; [cbn; first [eexists; reflexivity | intros s [= <-]; reflexivity]|]);
  cbn; first [eexists; reflexivity | intros s [= <-]; reflexivity].
Qed.

(* BaCO3 and TiO2 given, CO2 wanted; 30 is another text for BaCO3. *)
Example C91_demo_enumerate :
  initialized (fun t => match t with 30 => 9 | _ => t end) (fun e => e) (fun _ => 0%Q) (fun _ => Err ValueError) (fun e => Ok e) (fun l => Ok l) false [9; 10; 11; 12] [30; 10] [12] []
    = Ok ([9; 10; 11; 12], [9; 10], [12], [])
  /\ demo_enumerate demo_options [9; 10] [12] = Ok [titanate_rxn] /\ o_pfunc demo_options = IsSuperset
  /\ (forall e, In e [9; 10; 11; 12] \/ (exists t : nat, (fun _ => Err ValueError) t = Ok e) -> ReactionModel.elems ReactionCheck.demo (e_comp (plain_entry e)) <> []).
Proof.
  split; [vm_compute; reflexivity|]. split; [vm_compute; reflexivity|]. split; [reflexivity|].
  intros e [I|(t & T)]; [apply demo_entries_elems; exact I|discriminate].
Qed.
