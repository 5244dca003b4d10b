(* Proofs about the data of enumerated reactions: C156. *)
From Coq Require Import Lia.
From Verif Require Import Prelude NumQ SumQ ListFacts UtilsModel UtilsSpec UtilsProofs ReactionModel ReactionSpec EnumModel EnumSpec EnumProofs EnumReactProofs EnumLinkModel EntrySetModel LinModel LinSpec LinProofs LinBalanceProofs CoefProofs FreeSpec FreeProofs
  RxnSetModel RxnSetSpec RxnSetBaseProofs RxnSetParProofs NetModel YenModel YenSpec FlowModel NetJobModel NetJobSpec RunModel MinModel MinSpec MinProofs JoinModel JoinSpec JoinProofs MinJoinModel MinJoinSpec MinJoinProofs IntModel IntMinModel AnyWholeModel AnyWholeSpec OpenWholeModel GrandJoinModel GrandJoinSpec GrandJoinProofs DataSpec.
Open Scope nat_scope.

Lemma keep_origin {D X : Type} (see : X -> erxn) elems iterable iter_length (react : list nat -> list nat -> D -> result (list X)) diagram o entries pre tar op opens wait xs x :
  1 <= o_chunk o -> 1 <= o_jobs o -> valid_schedule wait -> (forall cs, iter_length cs opens = length (iterable cs opens)) ->
  keep_rxns see elems iterable iter_length react diagram o entries pre tar op opens wait = Ok xs -> In x xs ->
  exists r p t l, react r p t = Ok l /\ In x l /\ er_constraints (see x) <= o_constraints o.
Proof.
  intros H1 H2 Hw Hlen E Ix. pose proof (keep_all see elems iterable iter_length react diagram o entries pre tar op opens wait H1 H2 Hw Hlen) as A. rewrite E in A.
  match type of A with agree _ _ ?c => destruct c as [ys|] eqn:Ec end; [|destruct A]. cbn in A. apply (Permutation_in _ A) in Ix.
  destruct (cat_in _ _ _ _ Ec Ix) as ((t & rp) & l & _ & El & Il). cbn [fst snd] in El. unfold keep_pair in El.
  destruct (consider o pre tar op (fst rp) (snd rp)); [|injection El as <-; destruct Il].
  destruct (react (fst rp) (snd rp) (diagram t)) as [l0|] eqn:Er; [|discriminate]. cbn [bind] in El. injection El as <-. apply filter_In in Il as [Il Ha].
  exists (fst rp), (snd rp), (diagram t), l0. split; [exact Er|]. split; [exact Il|].
  unfold accept in Ha. apply andb_true_iff in Ha as [Ha _]. apply andb_true_iff in Ha as [Ha _]. apply negb_true_iff in Ha. apply orb_false_iff in Ha as [_ Ha]. apply Nat.ltb_ge in Ha. exact Ha.
Qed.

Lemma minimize_len (cs : list (list nat)) : minimize_iter_length cs [] = length (minimize_iterable cs []).
Proof. unfold minimize_iterable. rewrite map_length. reflexivity. Qed.

Section Data.
Variable C : chem.
Hypothesis W : wf_chem C.
Variable ent : nat -> entry.
Hypothesis Hid : forall i, e_id (ent i) = i.
Notation solve := (entry_solve C ent).
Notation rank := (entry_rank C ent).

(* where an object comes from *)
Definition made_of (x : object) : Prop :=
  exists r p, c_entries (ro_rxn x) = map ent (r ++ p) /\ ro_constraints x = num_constraints (length r) (length p) (rank r p).

Lemma balance_entries r p y : real_balance C ent solve rank r p = Ok y -> c_entries y = map ent (r ++ p).
Proof.
  unfold real_balance, computed_balance. destruct (balance_coeffs _ _ _ _ _) as [ks low]. destruct (Nat.eqb _ _); [discriminate|]. intros E. injection E as <-. cbn. symmetry. apply map_app.
Qed.
Lemma react_made D r p (t : D) l x : react_objects C ent solve rank r p t = Ok l -> In x l -> made_of x.
Proof.
  unfold react_objects. destruct (real_balance C ent solve rank r p) as [y|] eqn:Ey; [|discriminate]. cbn [bind]. intros E I. injection E as <-.
  exists r, p. destruct I as [<-|[<-|[]]]; (split; [|reflexivity]); exact (balance_entries _ _ _ Ey).
Qed.
Lemma balanced_made r p x : balance_object C ent solve rank r p = Ok x -> made_of x.
Proof.
  unfold balance_object. destruct (real_balance C ent solve rank r p) as [y|] eqn:Ey; [|discriminate]. cbn [bind]. intros E. injection E as <-. exists r, p. split; [exact (balance_entries _ _ _ Ey)|reflexivity].
Qed.
Lemma interface_made P form epa kinks a b es (pd : P) l x : react_interface form epa kinks (balance_object C ent solve rank) a b es pd = Ok l -> In x l -> made_of x.
Proof.
  unfold react_interface. destruct (kinks pd a b) as [ks|]; [|discriminate]. cbn [bind]. intros E I. apply mapM_Forall2 in E. destruct (Forall2_In_r _ _ _ _ E I) as (k & _ & Ek). unfold get_computed_rxn in Ek.
  destruct (mapM _ (fst k)) as [rs|]; [|discriminate]. cbn [bind] in Ek. destruct (mapM _ (snd k)) as [ps|]; [|discriminate]. cbn [bind] in Ek. exact (balanced_made _ _ _ Ek).
Qed.

Lemma made_counts x es ks : made_of x -> NoDup (map (set_entry C) (c_entries (ro_rxn x))) ->
  counted C (fun i => red C (e_comp (ent i))) {| x_entries := map (set_entry C) (c_entries (ro_rxn x)); x_coeffs := ks; x_data := ro_constraints x; x_mu := es |}.
Proof.
  intros (r & p & Ee & En) N. rewrite Ee in N. unfold counted. cbn [x_entries x_data]. rewrite Ee. rewrite !map_map in *. cbn [uid set_entry] in *.
  rewrite (map_ext _ (fun i => i)) by (intros i; apply Hid). rewrite map_id. apply NoDup_map_inv in N.
  destruct (number_of_ways C W (fun i => red C (e_comp (ent i))) r p N) as (d & Hd & Hm). exists d. split; [exact Hd|]. rewrite En. exact Hm.
Qed.

Lemma counted_one form x : counted C form x -> x_data x <= 1 -> one_way C form (map uid (x_entries x)).
Proof. intros (d & Hd & E) L. apply (ways_one C _ _ d); [lia|exact Hd]. Qed.

Section Any.
Hypothesis Hbig : forall c e, In e (ReactionModel.elems C c) -> (1 # 100 < amt C (red C c) e)%Q.
Context {P : Type}.
Variable build : list nat -> result P.
Variable kinks : P -> nat -> nat -> result (list (list nat * list nat)).
Variable order : list nat -> list nat.
Hypothesis Hord : forall l, Permutation (order l) l.
Variable epa : nat -> Q.
Variable mwait : nat -> list (list (list (list nat * list nat) * option (list nat * P))) ->
  list (list (list (list nat * list nat) * option (list nat * P))) * list (list (list (list nat * list nat) * option (list nat * P))).
Hypothesis Hmw : valid_schedule mwait.
Variable entries : list nat.
Hypothesis Hn : NoDup entries.
Hypothesis Hel : forall e, In e entries -> ReactionModel.elems C (e_comp (ent e)) <> [].
Hypothesis Hgood : good_interfaces (fun i => ReactionModel.elems C (e_comp (ent i))) (fun i => red C (e_comp (ent i))) build kinks entries [].
Hypothesis Htidy : tidy_kinks kinks.
Context {D : Type}.
Variable diagram : list nat -> D.
Variable wait : nat -> list (list (list (list nat * list nat) * D)) -> list (list (list (list nat * list nat) * D)) * list (list (list (list nat * list nat) * D)).
Hypothesis Hw : valid_schedule wait.
Hypothesis Hne : entries <> [].
Variable arrange : list sentry -> list sentry.
Hypothesis Harr : arranges arrange.
Variable argsort : list Q -> list nat.
Hypothesis Harg : forall l, Permutation (argsort l) (seq 0 (length l)).
Variable shuffle : list nat -> list nat.
Hypothesis Hsh : forall l, Permutation (shuffle l) l.
Notation outs_of := (any_enumerated C ent solve rank diagram build kinks order epa wait mwait entries).

Lemma any_origin a xs x : any_usable a -> outs_of a = Ok xs -> In x xs -> made_of x /\ ro_constraints x <= most_constraints a.
Proof.
  destruct a as [en|m]; cbn [any_usable any_enumerated most_constraints].
  - intros (_ & U1 & U2 & _) E I. unfold enumerated in E. destruct (en_open en) as [phases|].
    + destruct (keep_origin _ _ _ _ _ _ _ _ _ _ _ _ _ _ _ U1 U2 Hw (fun cs => open_iter_length_ok cs _) E I) as (r & p & t & l & El & Il & Hc). split; [exact (react_made _ _ _ _ _ _ El Il)|exact Hc].
    + destruct (keep_origin _ _ _ _ _ _ _ _ _ _ _ _ _ _ _ U1 U2 Hw (fun cs => basic_iter_length_ok cs _) E I) as (r & p & t & l & El & Il & Hc). split; [exact (react_made _ _ _ _ _ _ El Il)|exact Hc].
  - intros (_ & _ & U1 & U2 & _) E I. unfold gibbs_enumerated in E. destruct (mapM _ _) as [ds|]; [|discriminate]. cbn [bind] in E.
    destruct (keep_origin _ _ _ _ _ _ _ _ _ _ _ _ _ _ _ U1 U2 Hmw minimize_len E I) as (r & p & t & l & El & Il & Hc). split; [|exact Hc].
    unfold gibbs_react in El. destruct t as [[es pd]|]; [|discriminate]. destruct (order r) as [|r0 [|r1 rest]]; [discriminate| |]; exact (interface_made _ _ _ _ _ _ _ _ _ _ El Il).
Qed.

Theorem any_counted ens : ens <> [] -> (forall a, In a ens -> any_usable a) ->
  (forall outs, Forall2 (fun a xs => outs_of a = Ok xs) ens outs -> sharp (map (set_rxn C) (concat outs))) ->
  exists s out, any_enumeration C ent solve rank diagram build kinks order epa arrange argsort shuffle wait mwait ens entries = Ok (Some s) /\ get_rxns s = Ok out
  /\ forall x, In x out -> counted C (fun i => red C (e_comp (ent i))) x /\ exists a, In a ens /\ x_data x <= most_constraints a
      /\ (most_constraints a = 1 -> one_way C (fun i => red C (e_comp (ent i))) (map uid (x_entries x))).
Proof.
  intros Hens Us Sh.
  destruct (general_enumeration_from C ent Hid entries Hn Hne arrange Harr argsort Harg shuffle Hsh outs_of any_duplicates any_usable (any_looks C ent build kinks epa entries) (any_finds C ent build kinks epa entries)
    (any_spec C W Hbig ent Hid build kinks order Hord epa mwait Hmw entries Hn Hel Hgood Htidy diagram wait Hw) ens Hens Us Sh) as (s & out & K1 & K2 & _ & K4 & _ & _ & _ & _ & outs & F & Sub).
  exists s, out. split; [exact K1|]. split; [exact K2|]. intros x Ix. destruct (K4 x Ix) as (_ & _ & (Nd & _) & _).
  pose proof (Sub x Ix) as I. apply in_map_iff in I as (o & <- & Io). apply in_concat in Io as (xs & Ixs & Io). destruct (Forall2_In_r _ _ _ _ F Ixs) as (a & Ia & Ea).
  destruct (any_origin a xs o (Us a Ia) Ea Io) as [Hm Hc]. assert (K : counted C (fun i => red C (e_comp (ent i))) (set_rxn C o)) by (apply made_counts; [exact Hm|exact Nd]). split; [exact K|]. exists a. split; [exact Ia|]. split; [exact Hc|]. intros E1. exact (counted_one _ _ K ltac:(rewrite <- E1; exact Hc)).
Qed.
End Any.

Section Grand.
Hypothesis Hbig : forall c e, In e (ReactionModel.elems C c) -> (1 # 100 < amt C (red C c) e)%Q.
Context {G : Type}.
Variable grand_diagram : nat -> Q -> list (nat * Q) -> result G.
Variable grand_interface : G -> nat -> nat -> result (list (list nat * list nat)).
Hypothesis Htidy0 : forall pd a b ks kink, grand_interface pd a b = Ok ks -> In kink ks -> NoDup (fst kink) /\ NoDup (snd kink) /\ (disjoint (fst kink) (snd kink) \/ exists f, kink = ([f], [f])).
Variable order : list nat -> list nat.
Hypothesis Hord : forall l, Permutation (order l) l.
Variable gwait : nat -> list (list (list (list nat * list nat) * option (list nat * G))) ->
  list (list (list (list nat * list nat) * option (list nat * G))) * list (list (list (list nat * list nat) * option (list nat * G))).
Hypothesis Hmw : valid_schedule gwait.
Variable gas_of : nat -> nat.
Variable el : nat.
Variable mu : Q.
Variable entries : list nat.
Hypothesis Hn : NoDup entries.
Hypothesis Hel : forall e, In e entries -> ReactionModel.elems C (e_comp (ent e)) <> [].
Hypothesis Hoe : forall e, In e entries -> ReactionModel.elems C (e_comp (ent e)) = [el] -> red C (e_comp (ent e)) = gas_of el.
Hypothesis Hgood : good_interfaces (fun i => ReactionModel.elems C (e_comp (ent i))) (fun i => red C (e_comp (ent i))) (diagram_for (grand_diagram el mu) ent) (kinks_for grand_interface ent) entries (gases_in C ent entries (gas_of el)).
Hypothesis Hne : entries <> [].
Variable arrange : list sentry -> list sentry.
Hypothesis Harr : arranges arrange.
Variable argsort : list Q -> list nat.
Hypothesis Harg : forall l, Permutation (argsort l) (seq 0 (length l)).
Variable shuffle : list nat -> list nat.
Hypothesis Hsh : forall l, Permutation (shuffle l) l.
Notation found m := (grand_enumerated C ent solve rank grand_diagram grand_interface order gwait gas_of el mu entries m).

Lemma grand_origin m xs x : minimizer_usable m -> found m = Ok xs -> In x xs -> made_of x /\ ro_constraints x <= o_constraints (mi_options m).
Proof.
  intros (_ & _ & U1 & U2 & _) E I. unfold grand_enumerated in E. destruct (mapM _ _) as [ds|]; [|discriminate]. cbn [bind] in E.
  destruct (keep_origin _ _ _ _ _ _ _ _ _ _ _ _ _ _ _ U1 U2 Hmw minimize_len E I) as (r & p & t & l & El & Il & Hc). split; [|exact Hc].
  unfold grand_react in El. destruct t as [[es pd]|]; [|discriminate]. destruct (order r) as [|r0 rest]; [discriminate|]. destruct (existsb _ _); [injection El as <-; destruct Il|]. exact (interface_made _ _ _ _ _ _ _ _ _ _ El Il).
Qed.

Theorem grand_counted m : minimizer_usable m -> (forall xs, found m = Ok xs -> sharp (map (open_set_rxn C el mu) xs)) ->
  exists s out, grand_enumeration C ent solve rank grand_diagram grand_interface order arrange argsort shuffle gwait gas_of el mu entries m = Ok (Some s) /\ get_rxns s = Ok out
  /\ forall x, In x out -> counted C (fun i => red C (e_comp (ent i))) x /\ x_data x <= o_constraints (mi_options m) /\ x_mu x = Some [(el, mu)]
      /\ (o_constraints (mi_options m) = 1 -> one_way C (fun i => red C (e_comp (ent i))) (map uid (x_entries x))).
Proof.
  intros Us Sh. destruct (grand_made C W Hbig ent Hid grand_diagram grand_interface Htidy0 order Hord gwait Hmw gas_of el mu entries Hn Hel Hoe Hgood m Us) as (xs & E & _).
  destruct (grand_enumeration_spec C W Hbig ent Hid grand_diagram grand_interface Htidy0 order Hord gwait Hmw gas_of el mu entries Hn Hel Hoe Hgood Hne arrange Harr argsort Harg shuffle Hsh m Us Sh) as (s & out & K1 & K2 & K3 & _ & Sub).
  exists s, out. split; [exact K1|]. split; [exact K2|]. intros x Ix. destruct (K3 x Ix) as ((Nd & _) & _). pose proof (Sub xs E x Ix) as I. apply in_map_iff in I as (o & <- & Io).
  destruct (grand_origin m xs o Us E Io) as [Hm Hc]. assert (K : counted C (fun i => red C (e_comp (ent i))) (open_set_rxn C el mu o)) by (apply made_counts; [exact Hm|exact Nd]). split; [exact K|]. split; [exact Hc|]. split; [reflexivity|]. intros E1. exact (counted_one _ _ K ltac:(rewrite <- E1; exact Hc)).
Qed.
End Grand.
End Data.
