(* C132: theorems about the metastable domains of a diagram. *)
From Verif Require Import Prelude NumQ ReactionModel EntrySetModel CpdModel CpdCheck DomModel DomSpec DomProofs.
Open Scope list_scope.
Open Scope nat_scope.

(* Every formula without a stable domain has one metastable domain, whatever domains
   were asked for before. Missing: an entry on the hull whose stabilised entry is itself
   (C88_on_hull_refuted), and formulas whose domain cannot be made (C132_failure). *)
Theorem C132_domains_partial : forall P domains ground stabilized domain_in S (c : @cpd P) fs,
  new_entries ground stabilized S -> asked ground stabilized domain_in S c ->
  (forall f, In f fs -> domains f = None -> exists p, has_domain ground stabilized domain_in S f p) ->
  exists c' d, metastable_domains domains ground stabilized domain_in fs c = (c', Ok d)
  /\ asked ground stabilized domain_in S c' /\ c_set c' = S /\ NoDup (map fst d)
  /\ (forall f, In f (map fst d) <-> In f fs /\ domains f = None)
  /\ (forall f p, In (f, p) d -> has_domain ground stabilized domain_in S f p).
Proof. exact @domains_spec. Qed.
Print Assumptions C132_domains_partial.

(* The first formula whose domain cannot be made decides the error. *)
Theorem C132_failure : forall P domains ground stabilized domain_in S (c : @cpd P) before f after e,
  new_entries ground stabilized S -> asked ground stabilized domain_in S c ->
  (forall g, In g before -> domains g = None -> exists p, has_domain ground stabilized domain_in S g p) -> domains f = None -> no_domain ground stabilized domain_in S f e ->
  snd (metastable_domains domains ground stabilized domain_in (before ++ f :: after) c) = Err e.
Proof. exact @domains_fail. Qed.
Print Assumptions C132_failure.

(* The distance of two formulas is that of their domains, whatever was asked for before. *)
Theorem C132_distance_partial : forall P domains ground stabilized domain_in (dist : P -> P -> Q) S (c : @cpd P) f1 f2 p1 p2 off,
  new_entries ground stabilized S -> asked ground stabilized domain_in S c ->
  (domains f1 = Some p1 \/ domains f1 = None /\ has_domain ground stabilized domain_in S f1 p1) ->
  (domains f2 = Some p2 \/ domains f2 = None /\ has_domain ground stabilized domain_in S f2 p2) ->
  snd (shortest_domain_distance dist domains ground stabilized domain_in f1 f2 off c) = shortest dist p1 p2 off.
Proof. exact @distance_spec. Qed.
Print Assumptions C132_distance_partial.

Example C132_demo :
  let stable := fun f => if Nat.eqb f 7 then Some [3%Q; 8%Q] else None in
  new_entries on_ground above_hull [0; 1; 2] /\ has_domain on_ground above_hull forced_only [0; 1; 2] 5 [0%Q]
  /\ metastable_domains stable on_ground above_hull forced_only [7; 5; 6] (fresh [0; 1; 2])
     = ({| c_set := [0; 1; 2]; c_cache := [(5, [0%Q]); (6, [0%Q])] |}, Ok [(5, [0%Q]); (6, [0%Q])])
  /\ snd (shortest_domain_distance (fun p q => Qabs (p - q)) stable on_ground above_hull forced_only 7 6 1 (fresh [0; 1; 2])) = Ok 4%Q.
Proof.
  intros stable. split; [|split; [vm_compute; reflexivity|split; vm_compute; reflexivity]].
  intros f e b x E H. injection E as <-. injection H as <-. destruct b; cbn; intuition discriminate.
Qed.

Example C132_failure_demo :
  let named := fun (S : list nat) f => if Nat.eqb f 6 then Err KeyError else on_ground S f in
  new_entries named above_hull [0; 1; 2] /\ has_domain named above_hull forced_only [0; 1; 2] 5 [0%Q] /\ no_domain (P:=Q) named above_hull forced_only [0; 1; 2] 6 KeyError
  /\ snd (metastable_domains (fun _ => None) named above_hull forced_only [5; 6; 7] (fresh [0; 1; 2])) = Err KeyError.
Proof.
  intros named. split; [|split; [vm_compute; reflexivity|split; vm_compute; reflexivity]].
  intros f e b x E H. unfold named in E. destruct (Nat.eqb f 6); [discriminate|]. injection E as <-. injection H as <-. destruct b; cbn; intuition discriminate.
Qed.

(* A domain that was asked for while an entry was on the hull changes the entries. *)
Theorem C132_on_hull_refuted : exists c d c', c_set c = [0; 1; 2]
  /\ metastable_domains (fun _ => None) on_ground on_hull forced_only [5] c = (c', Ok d) /\ map fst d = [5] /\ c_set c' <> c_set c.
Proof.
  exists {| c_set := [0; 1; 2]; c_cache := [] |}. eexists. eexists. split; [reflexivity|]. split; [vm_compute; reflexivity|]. split; [reflexivity|discriminate].
Qed.
Print Assumptions C132_on_hull_refuted.
