(* C141: the colours of a drawn network. *)
From Coq Require Import String Ascii Sorted.
From Verif Require Import Prelude UtilsModel EntryDbModel EntryDbSpec LoadModel VisModel VisSpec VisProofs.
Open Scope list_scope.
Open Scope nat_scope.

(* --- C141 --- *)
(* Each node of a drawn network gets a colour. Two nodes get the same colour exactly if
   their entries have the same elements, provided that the palette has different colours
   at different places. *)
Theorem C141_colors : forall {C} (cmap : nat -> nat -> C) {E} (eqe : E -> E -> bool) (elems : E -> list string) order (nodes : list (list E * kind)), orders order ->
  (forall e s, In s (elems e) -> symbol s /\ s <> ""%string) -> distinct_colors cmap ->
  exists cols, vertex_colors C cmap (map (fun p => network_entry E eqe elems order (fst p) (snd p)) nodes) = Ok cols
  /\ List.length cols = List.length nodes
  /\ forall i j a b c d, nth_error nodes i = Some a -> nth_error nodes j = Some b -> nth_error cols i = Some c -> nth_error cols j = Some d ->
     (c = d <-> same_system elems (fst a) (fst b)).
Proof. exact @colors_system. Qed.
Print Assumptions C141_colors.

(* For any nodes, dummy nodes among them, the palette has one place for each chemical
   system, and the places are given in the alphabetical order of the chemical systems. *)
Theorem C141_places : forall {C} (cmap : nat -> nat -> C) {E} (nodes : list (nentry E)), exists u cols, alphabet (map (ne_chemsys E) nodes) u
  /\ vertex_colors C cmap nodes = Ok cols
  /\ Forall2 (fun n c => exists k, nth_error u k = Some (ne_chemsys E n) /\ c = cmap (List.length u) k) nodes cols.
Proof. exact @colors_ranked. Qed.
Print Assumptions C141_places.

Example C141_demo : let elems (e : nat) := match e with 0 => ["Mn"; "O"; "Y"] | 1 => ["O"] | 2 => ["Mn"; "O"] | _ => ["Y"] end%string in let palette (n i : nat) := (n, i) in
  orders unique_str /\ (forall e s, In s (elems e) -> symbol s /\ s <> ""%string) /\ distinct_colors palette
  /\ vertex_colors (nat * nat) palette (map (fun p => network_entry nat Nat.eqb elems unique_str (fst p) (snd p))
       [([0], KTarget); ([2; 3], KReactants); ([1], KProducts); ([3], KPrecursors); ([3; 0], KReactants)] ++ [dummy_entry nat])
     = Ok [(4, 1); (4, 1); (4, 2); (4, 3); (4, 1); (4, 0)]
  /\ ~ same_system elems [0] [1] /\ same_system elems [0] [2; 3].
Proof.
  split; [exact unique_orders|]. split.
  - intros [|[|[|e]]] s I; cbn in I; repeat destruct I as [<-|I]; try contradiction; (split; [unfold symbol; cbn; intuition discriminate|discriminate]).
  - split; [intros n i j _ _ [= ->]; reflexivity|]. split; [vm_compute; reflexivity|]. split.
    + intros H. destruct (proj1 (H "Y"%string)) as (e & [<-|[]] & I); [exists 0; cbn; auto|]. cbn in I. destruct I as [I|[]]; discriminate I.
    + intros s. unfold made_of. split; intros (e & I & J); cbn in I.
      * destruct I as [<-|[]]. cbn in J. destruct J as [<-|[<-|[<-|[]]]]; [exists 2|exists 2|exists 3]; cbn; auto.
      * destruct I as [<-|[<-|[]]]; exists 0; cbn in *; tauto.
Qed.
