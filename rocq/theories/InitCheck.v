(* Concrete entries for C91. *)
From Verif Require Import Prelude NumQ UtilsModel ReactionModel EnumModel RunModel EntrySetModel EntrySetSpec InitModel InitSpec.
Open Scope nat_scope.

(* 0 is A, 1 is B2, 2 is A6B2 and 3 is AB, the last two above the line from A to B2; 4
   and 5 are 2 and 3 stabilised, lowered to that line and by a further 0.001 per entry
   (8 and 2 atoms); 7 and 8 are polymorphs of 3, 9 is interpolated A2B. *)
Definition ab_formula (e : nat) : nat := match e with 4 => 2 | 5 => 3 | 7 => 3 | 8 => 3 | _ => e end.
Definition ab_elems (e : nat) : list nat := match e with 0 => [0] | 1 => [1] | _ => [0; 1] end.
Definition ab_x (e : nat) : Q := match ab_formula e with 0 => 0 | 1 => 1 | 2 => 1 # 4 | 9 => 1 # 3 | _ => 1 # 2 end.
Definition ab_epa (e : nat) : Q :=
  match e with 2 => 1 # 10 | 3 => 1 # 5 | 4 => -(1 # 8000) | 5 => -(1 # 2000) | 7 => 1 # 4 | 8 => 1 # 3 | _ => 0 end.
(* Texts: the formulas themselves, 20 is A12B4 and 21 is B. *)
Definition ab_reduced (t : nat) : nat := match t with 20 => 2 | 21 => 1 | _ => t end.
Definition ab_interp (t : nat) : result nat := match t with 9 => Ok 9 | _ => Err ValueError end.
Definition ab_stabilized (e : nat) : result nat := match e with 2 => Ok 4 | 3 => Ok 5 | _ => Ok e end.

(* Height of the lower hull of the points of a binary diagram at x. *)
Definition line (a b x : Q) (ea eb : Q) : option Q :=
  if Qeq_bool a b then (if Qeq_bool a x then Some (if Qle_bool ea eb then ea else eb) else None)
  else if Qle_bool a x && Qle_bool x b then Some (ea + (eb - ea) * (x - a) / (b - a))%Q else None.
Definition lower (u v : option Q) : option Q :=
  match u, v with Some p, Some q => Some (if Qle_bool p q then p else q) | None, w => w | w, None => w end.
Definition ab_hull (pd : list nat) (e : nat) : Q :=
  match fold_right (fun a acc => fold_right (fun b acc => lower (line (ab_x a) (ab_x b) (ab_x e) (ab_epa a) (ab_epa b)) acc) acc pd) None pd with
  | Some h => (ab_epa e - h)%Q
  | None => 0
  end.
Definition ab_stable (members : list nat) : result (list nat) := filter_by_stability ab_elems ab_formula ab_epa ab_hull members 0 false.
Definition ab_init := initialized ab_reduced ab_formula ab_epa ab_interp ab_stabilized ab_stable.

Lemma ab_interp_formula t e : ab_interp t = Ok e -> ab_formula e = ab_reduced t.
Proof. do 10 (destruct t as [|t]; [cbn; intros [=]; subst; reflexivity|]). discriminate. Qed.
Lemma ab_interp_same t t' : ab_reduced t = ab_reduced t' -> ab_interp t = ab_interp t'.
Proof.
  assert (A : forall t, ab_reduced t = 9 <-> t = 9).
  { intros x. split; [|intros ->; reflexivity]. do 22 (destruct x as [|x]; [cbn; congruence|]). cbn. congruence. }
  assert (B : forall t, t <> 9 -> ab_interp t = Err ValueError).
  { intros x H. do 9 (destruct x as [|x]; [reflexivity|]). destruct x as [|x]; [congruence|reflexivity]. }
  intros E. destruct (Nat.eq_dec t 9) as [T|T].
  - subst t. assert (t' = 9) as -> by (apply A; rewrite <- E; reflexivity). reflexivity.
  - rewrite (B t T). symmetry. apply B. intros ->. apply T, A. rewrite E. reflexivity.
Qed.

(* The user means B2 and writes B. *)
Lemma open_text_witness : exists reduced formula epa interp stabilized stable members open_phases new P T O,
  initialized reduced formula epa interp stabilized stable false members [] [] open_phases = Ok (new, P, T, O)
  /\ exists t e, In t open_phases /\ In e new /\ formula e = reduced t /\ ~ In e O.
Proof.
  exists ab_reduced, ab_formula, ab_epa, ab_interp, ab_stabilized, ab_stable, [0; 1; 3], [21], [0; 1; 3], [], [], [].
  split; [reflexivity|]. exists 21, 1. cbn. tauto.
Qed.

(* Both stabilised: A6B2 is above the line from A to the lowered AB and is dropped. *)
Lemma stabilize_witness : exists reduced formula elems epa interp stabilized hull members pre new P T O,
  initialized reduced formula epa interp stabilized (fun l => filter_by_stability elems formula epa hull l 0 false) true members pre [] [] = Ok (new, P, T, O)
  /\ exists e, In e P /\ ~ In e new.
Proof.
  exists ab_reduced, ab_formula, ab_elems, ab_epa, ab_interp, ab_stabilized, ab_hull, [0; 1; 2; 3], [2; 3], [0; 1; 5], [4; 5], [], [].
  split; [vm_compute; reflexivity|]. exists 4. cbn. split; [tauto|]. intuition discriminate.
Qed.
