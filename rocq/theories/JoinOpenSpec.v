(* What is asked of enumerators with open phases. *)
From Verif Require Import Prelude UtilsSpec ReactionModel EnumModel JoinModel.
Open Scope nat_scope.

Section OpenSpec.
Variable C : chem.
Variable ent : nat -> entry.
Variable entries : list nat.
Variable phases : list nat.   (* the formulas of the open phases *)

Definition gaseous (i : nat) : Prop := In (red C (e_comp (ent i))) phases.
Definition solids (n : nat) (c : list nat) : Prop := subseq c entries /\ 1 <= length c <= n /\ forall i, In i c -> ~ gaseous i.
Definition gases (c : list nat) : Prop := subseq c entries /\ c <> [] /\ forall i, In i c -> gaseous i.

(* Up to n solids on one side, up to n solids and any number of gases on the other. *)
Definition with_gas (n : nat) (r p : list nat) : Prop := solids n r /\ exists c oc, solids n c /\ gases oc /\ p = c ++ oc.

(* The elements of the phases and of all gases are two to nine, and those asked for are among
   them. *)
Definition spans (asked : option (list nat)) (r : list nat) : Prop :=
  exists k, NoDup k /\ 2 <= length k <= 9 /\ (forall f, asked = Some f -> incl f k)
  /\ forall x, In x k <-> exists i, (In i r \/ In i entries /\ gaseous i) /\ In x (ReactionModel.elems C (e_comp (ent i))).

(* The phases of a side are those given, apart from gases; or at least one of them is. *)
Definition allowed (f : set_func) (given side : list nat) : Prop :=
  given = [] \/ match f with
                | IsSuperset => forall i, In i side -> In i given \/ gaseous i
                | Intersection => exists i, In i side /\ In i given /\ ~ gaseous i
                end.
End OpenSpec.
