(* Concrete cases for the minimising enumerators: Li2O, Li, O2 and a metastable LiO of
   the demonstration table. *)
From Verif Require Import Prelude NumQ UtilsModel UtilsSpec UtilsProofs ReactionModel ReactionCheck RxnSetSpec RxnSetCheck EnumModel EnumSpec EnumCheck EnumReactProofs EnumLinkModel EntrySetModel EntrySetSpec MinModel MinSpec MinProofs.
Open Scope nat_scope.

Definition min_elems (i : nat) : list nat := ReactionModel.elems ReactionCheck.demo i.
Definition min_solve (r p c : list nat) : list Q :=
  if list_eqb r [8] && list_eqb p [0; 7] then [-4#1; 2#1; 1#1]%Q
  else if list_eqb r [4; 7] && list_eqb p [0] then [-4#1; -1#1; 2#1]%Q else repeat 0%Q (length r + length p).
Definition min_balance : list nat -> list nat -> result erxn := balance_seen ReactionCheck.demo plain_entry min_solve (fun _ _ => 2).
(* an interface with LiO lists its decomposition, the one of lithium with oxygen the oxide *)
Definition min_kinks (pd : unit) (a b : nat) : result (list (list nat * list nat)) :=
  Ok (if inb 8 [a; b] then [([8], [0; 7])] else if inb 4 [a; b] then [([4; 7], [0])] else [([0], [0])]).
Definition min_entries_list : list nat := [0; 4; 7; 8].
Definition min_build (s : list nat) : result unit := if inb 4 s && inb 7 s then Ok tt else Err ValueError.
Definition min_demo (tar op : list nat) (grand : bool) : result (list erxn) :=
  min_enumerate min_elems min_build
    (if grand then grand_react min_elems (fun e => e) (fun _ => 0%Q) min_kinks min_balance (fun l => l) 1
     else gibbs_react (fun e => e) (fun _ => 0%Q) min_kinks min_balance (fun l => l))
    demo_options min_entries_list [] tar op lifo_any.
Definition lio_rxn : erxn :=
  {| er_reactants := [8]; er_products := [0; 7]; er_identity := false; er_balanced := true; er_errors := Some 0; er_constraints := 1 |}.
Definition oxide_rxn : erxn :=
  {| er_reactants := [4; 7]; er_products := [0]; er_identity := false; er_balanced := true; er_errors := Some 0; er_constraints := 1 |}.

Lemma min_balance_ok : forall rs ps, rs <> [] -> ps <> [] -> exists x, min_balance rs ps = Ok x.
Proof. intros. apply balance_seen_ok; assumption. Qed.

(* With O2 open every combination has both elements. *)
Lemma min_good : good_interfaces min_elems (fun e => e) min_build min_kinks min_entries_list [7].
Proof.
  intros c k s (Hs & Hl & Hd) [_ Hk] Hw.
  assert (Hc : forall e, In e c -> e = 0 \/ e = 4 \/ e = 8).
  { intros e He. pose proof (subseq_In _ _ _ Hs He) as Hi. specialize (Hd e He). cbn in Hi, Hd. destruct Hi as [<-|[<-|[<-|[<-|[]]]]]; auto. exfalso. apply Hd. left. reflexivity. }
  assert (Ho : In 1 k) by (apply Hk; right; left; reflexivity).
  assert (Hli : In 0 k).
  { destruct c as [|e c]; [cbn in Hl; lia|]. apply Hk. left. exists e. split; [left; reflexivity|]. destruct (Hc e (or_introl eq_refl)) as [->|[->| ->]]; left; reflexivity. }
  assert (Hall : s = min_entries_list).
  { apply (picks_unique _ _ _ _ Hw). assert (F : forall e, In e min_entries_list -> forall x, In x (min_elems e) -> In x k).
    { intros e He x Hx. cbn in He. destruct He as [<-|[<-|[<-|[<-|[]]]]]; cbn in Hx; repeat (destruct Hx as [<-|Hx]; [assumption|]); destruct Hx. }
    clear -F. induction min_entries_list as [|e l IH]; [constructor|]. constructor; [apply F; left; reflexivity|apply IH; intros e' He'; apply F; right; exact He']. }
  subst s. exists tt. split; [reflexivity|]. intros a b Ha Hb. eexists. split; [reflexivity|].
  assert (K : forall kink, In kink (if inb 8 [a; b] then [([8], [0; 7])] else if inb 4 [a; b] then [([4; 7], [0])] else [([0], [0])]) ->
    kink = ([8], [0; 7]) \/ kink = ([4; 7], [0]) \/ kink = ([0], [0])).
  { intros kink H. destruct (inb 8 [a; b]); [|destruct (inb 4 [a; b])]; destruct H as [<-|[]]; auto. }
  intros kink H. assert (P : forall f, In f [0; 4; 7; 8] -> exists e, In e min_entries_list /\ e = f) by (intros f Hf; exists f; split; [exact Hf|reflexivity]).
  destruct (K kink H) as [->|[->| ->]]; (split; [discriminate|]; split; [discriminate|]); intros f Hf; apply P; cbn in *; intuition (subst; auto).
Qed.
Lemma min_nodup : NoDup min_entries_list.
Proof. repeat constructor; cbn; intuition discriminate. Qed.
Lemma min_elems_nonempty : forall e, In e min_entries_list -> min_elems e <> [].
Proof. intros e He. cbn in He. destruct He as [<-|[<-|[<-|[<-|[]]]]]; discriminate. Qed.
Lemma min_open_phases : forall e, In e min_entries_list -> min_elems e = [1] -> In e [7].
Proof. intros e He E. cbn in He. destruct He as [<-|[<-|[<-|[<-|[]]]]]; try discriminate. left. reflexivity. Qed.
