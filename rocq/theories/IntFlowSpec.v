(* What is asked of the whole flow with reactions between intermediates. *)
From Verif Require Import Prelude NumQ SumQ ReactionModel RxnSetModel ChainSpec IntSpec.
Open Scope nat_scope.

(* The phase u is made or used on the way, is a target, or is an element of the network. *)
Definition on_the_way (C : chem) (ent : nat -> entry) (us ts : list nat) (walked : srxn -> Prop) (u : nat) : Prop :=
  (exists x, walked x /\ ~ (amount x u == 0)%Q) \/ In u ts \/ In u us /\ exists el, ReactionModel.elems C (e_comp (ent u)) = [el].

(* One or two of the phases mid to one or two others, one of them a target, of two to nine elements. *)
Definition could_react (C : chem) (ent : nat -> entry) (mid : nat -> Prop) (ts r p : list nat) : Prop :=
  few r /\ few p /\ (forall u, In u r -> ~ In u p) /\ (forall u, In u (r ++ p) -> mid u) /\ (exists t, In t p /\ In t ts)
  /\ exists els, NoDup els /\ 2 <= length els <= 9 /\ forall el, In el els <-> exists u, In u r /\ In el (ReactionModel.elems C (e_comp (ent u))).
