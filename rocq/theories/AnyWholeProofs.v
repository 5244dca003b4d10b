(* The whole flow with every enumerator for closed systems. *)
From Coq Require Import Lqa.
From Verif Require Import Prelude NumQ SumQ ListFacts UtilsModel UtilsSpec ReactionModel ReactionSpec ReactionBaseProofs RxnSetModel RxnSetSpec PathModel PathSpec SolverModel SolverSpec
  NetModel YenModel YenSpec FlowModel NetJobModel NetJobSpec SolveJobModel SolveJobSpec SolveJobProofs EnumModel EnumSpec EnumLinkModel LinModel LinSpec LinProofs LinBalanceProofs PinvModel PinvProofs CapSpec CapProofs
  RunModel ChainModel ChainSpec ChainProofs ChainFindSpec ChainFindProofs JoinModel JoinSpec JoinProofs WholeModel WholeProofs IntModel IntSpec CoefProofs IntProofs IntFlowSpec IntFlowProofs
  MinModel MinSpec MinJoinModel MinJoinSpec MinJoinProofs IntMinModel IntMinSpec IntMinProofs AnyWholeModel AnyWholeSpec.
Open Scope nat_scope.

(* --- interfaces of the numbered entries --- *)
Section Meet.
Variable C : chem.
Variable ent : nat -> entry.
Variable listed : list nat -> list nat.
Variable us ts : list nat.
Hypothesis Nl : NoDup (listed us).
Notation lus := (listed us).
Notation pool := (numbered (fun i => e_comp (ent i)) (fun i => e_energy (ent i)) listed us).
Notation entry0 := (entry_of (fun i => e_comp (ent i)) (fun i => e_energy (ent i)) listed us).
Notation nm := (nm listed us).
Notation inside := (inside listed us).
Notation pos := (fun u => position u lus).
Variable rxns : list rxn.
Variable net0 : rxn.
Variable way : nat -> Prop.
Notation mid := (intermediate C pool rxns net0).
Hypothesis Way : forall u, way u -> In u lus.
Hypothesis MW : forall i, mid i <-> i < length lus /\ way (nm i).
Hypothesis TI : forall i, target net0 i <-> exists u, nth_error lus i = Some u /\ In u ts.
Context {P : Type}.
Variable phase_diagram : list (nat * Q) -> result P.
Variable interface : P -> nat -> nat -> result (list (list nat * list nat)).
Notation epa := (fun u => e_energy (ent u) / natoms C (e_comp (ent u)))%Q.
Notation els := (fun u => ReactionModel.elems C (e_comp (ent u))).

Lemma meet_occurs i el : i < length lus -> (occurs C pool i el <-> In el (els (nm i))).
Proof.
  intros L. split.
  - intros (e & E & I). apply (pool_some ent listed us) in E as (_ & ->). exact I.
  - intros I. exists (entry0 (nm i)). split; [apply pool_in; exact L|exact I].
Qed.
Lemma meet_inside l : (forall i, In i l -> mid i) -> inside l.
Proof. intros H i I. apply MW, H. exact I. Qed.
Lemma meet_elements c : inside c -> forall el, (exists j, In j c /\ occurs C pool j el) <-> exists w, In w (map nm c) /\ In el (els w).
Proof.
  intros Hc el. split.
  - intros (j & J & O). exists (nm j). split; [apply in_map; exact J|]. apply (meet_occurs j el (Hc j J)). exact O.
  - intros (w & I & O). apply in_map_iff in I as (j & <- & J). exists j. split; [exact J|]. apply (meet_occurs j el (Hc j J)). exact O.
Qed.
Lemma meet_system c s : system C pool rxns net0 c s -> inside c /\ inside s /\ phases_around C ent way (map nm c) (map nm s).
Proof.
  intros ((Nc & Lc) & Mc & Ns & Hs). assert (Ic : inside c) by (apply meet_inside; exact Mc). assert (Is : inside s) by (apply meet_inside; intros i I; apply Hs; exact I).
  split; [exact Ic|]. split; [exact Is|]. split; [split; [apply map_nm_nodup; assumption|rewrite map_length; exact Lc]|]. split; [|split].
  - intros u I. apply in_map_iff in I as (i & <- & I). apply MW, Mc. exact I.
  - apply map_nm_nodup; assumption.
  - intros u. split.
    + intros I. apply in_map_iff in I as (i & <- & I). apply Hs in I as (M & E). split; [apply MW; exact M|]. intros el Ie. apply (meet_elements c Ic). apply E. apply (meet_occurs i el); [apply MW; exact M|exact Ie].
    + intros (Wu & E). pose proof (Way u Wu) as Iu. rewrite <- (nm_position listed us u Iu). apply in_map, Hs. split; [apply MW; rewrite nm_position by exact Iu; split; [apply position_lt; exact Iu|exact Wu]|].
      intros el O. apply (meet_elements c Ic), E. apply (meet_occurs _ el (position_lt listed us u Iu)) in O. rewrite nm_position in O by exact Iu. exact O.
Qed.
Lemma meet_size c : inside c -> (right_size C pool c <-> elements_fit C ent (map nm c)).
Proof. intros Hc. split; intros (l & N & L & H); exists l; (split; [exact N|]; split; [exact L|]); intros el; rewrite H; [|symmetry]; apply (meet_elements c Hc). Qed.
Lemma meet_diagram s : inside s -> diagram_for phase_diagram (with_index pool) s = diagram_for phase_diagram ent (map nm s).
Proof. intros H. unfold diagram_for. f_equal. rewrite map_map. apply map_ext_in. intros i I. rewrite (pool_at ent listed us i (H i I)). reflexivity. Qed.
Lemma meet_kinks pd a b : a < length lus -> b < length lus -> kinks_for interface (with_index pool) pd a b = kinks_for interface ent pd (nm a) (nm b).
Proof. intros Ha Hb. unfold kinks_for. rewrite (pool_at ent listed us a Ha), (pool_at ent listed us b Hb). reflexivity. Qed.
Lemma meet_formula i : i < length lus -> formula_at C pool i = red C (e_comp (ent (nm i))).
Proof. intros L. unfold formula_at. rewrite (pool_in ent listed us i L). reflexivity. Qed.
Lemma meet_energy i : i < length lus -> atom_energy C pool i = epa (nm i).
Proof. intros L. unfold atom_energy. rewrite (pool_in ent listed us i L). reflexivity. Qed.
Lemma meet_stable s f e : inside s -> stable C pool s f e -> stable_phase C ent epa (map nm s) f (nm e).
Proof.
  intros Hs (Ef & Ie & Lo). split; [rewrite <- (meet_formula e (Hs e Ie)); exact Ef|]. split; [apply in_map; exact Ie|]. intros x Ix Fx. apply in_map_iff in Ix as (i & <- & Ii).
  specialize (Lo i Ii ltac:(rewrite (meet_formula i (Hs i Ii)); exact Fx)). rewrite (meet_energy e (Hs e Ie)), (meet_energy i (Hs i Ii)) in Lo. exact Lo.
Qed.
Lemma stable_meet s f u : inside s -> In u lus -> only_stable_phase C ent epa (map nm s) f u -> most_stable_only C pool s f (pos u).
Proof.
  intros Hs Iu (Ef & Ie & Lo). pose proof (position_lt listed us u Iu) as Lu. assert (Is : In (pos u) s) by (apply (in_map_nm listed us Nl (pos u) s Hs Lu); rewrite nm_position by exact Iu; exact Ie).
  split; [rewrite (meet_formula _ Lu), nm_position by exact Iu; exact Ef|]. split; [exact Is|]. intros x Ix Fx. rewrite (meet_formula x (Hs x Ix)) in Fx.
  destruct (Lo (nm x) (in_map nm s x Ix) Fx) as [E|E]; [left; rewrite <- E; symmetry; apply position_nm; [exact Nl|exact (Hs x Ix)]|right]. rewrite (meet_energy x (Hs x Ix)), (meet_energy _ Lu), nm_position by exact Iu. exact E.
Qed.
Lemma meet_ends c a b : ends c a b -> In a c /\ In b c /\ ends (map nm c) (nm a) (nm b).
Proof. intros [(-> & ->)|[->| ->]]; cbn; (split; [auto|]; split; [auto|]); [left; auto|right; left; reflexivity|right; right; reflexivity]. Qed.

Lemma between_meets r p : kink_between C pool rxns net0 (diagram_for phase_diagram (with_index pool)) (kinks_for interface (with_index pool)) r p -> inside r /\ inside p /\ could_meet C ent phase_diagram interface way ts (map nm r) (map nm p).
Proof.
  intros ((c & s & pd & a & b & ks & kink & Sy & Rs & Eb & En & Ek & Ik & F1 & F2) & t & It & Tt). destruct (meet_system c s Sy) as (Ic & Is & Ph). destruct (meet_ends c a b En) as (Ia & Ib & En').
  assert (Hin : forall fs l, Forall2 (stable C pool s) fs l -> inside l).
  { intros fs l F. induction F as [|f e fs l (_ & I & _) _ IH]; [intros i []|]. intros i [<-|J]; [exact (Is e I)|exact (IH i J)]. }
  assert (Mp : forall fs l, Forall2 (stable C pool s) fs l -> Forall2 (stable_phase C ent epa (map nm s)) fs (map nm l)).
  { intros fs l F. induction F as [|f e fs l St _ IH]; cbn [map]; constructor; [apply meet_stable; assumption|exact IH]. }
  split; [exact (Hin _ _ F1)|]. split; [exact (Hin _ _ F2)|]. split.
  - exists (map nm c), (map nm s), pd, (nm a), (nm b), ks, kink. split; [exact Ph|]. split; [apply meet_size; assumption|]. split; [rewrite <- meet_diagram by exact Is; exact Eb|]. split; [exact En'|].
    split; [rewrite <- meet_kinks by (apply Ic; assumption); exact Ek|]. split; [exact Ik|]. split; [exact (Mp _ _ F1)|exact (Mp _ _ F2)].
  - exists (nm t). split; [apply in_map; exact It|]. apply TI in Tt as (u & Eu & Iu). rewrite (nm_some listed us t u Eu). exact Iu.
Qed.

Lemma map_pos_nodup l : NoDup l -> (forall u, In u l -> In u lus) -> NoDup (map pos l).
Proof. intros N H. apply NoDup_map_inv with (f := nm). rewrite map_nm_position by exact H. exact N. Qed.
Lemma pos_inside l : (forall u, In u l -> In u lus) -> inside (map pos l).
Proof. intros H i I. apply in_map_iff in I as (u & <- & I). apply position_lt, H. exact I. Qed.

Lemma meets_between r p : sure_to_meet C ent phase_diagram interface way ts r p ->
  (forall u, In u (r ++ p) -> In u lus) /\ sure_kink C pool rxns net0 (diagram_for phase_diagram (with_index pool)) (kinks_for interface (with_index pool)) (map pos r) (map pos p).
Proof.
  intros (Wrp & (c & kink & (Nc & Lc) & Wc & Sz & Hs) & t & It & Tt). assert (Irp : forall u, In u (r ++ p) -> In u lus) by (intros u I; apply Way, Wrp; exact I).
  assert (Hc : forall u, In u c -> In u lus) by (intros u I; apply Way, Wc; exact I). split; [exact Irp|].
  pose proof (map_nm_position listed us c Hc) as Back. split.
  - exists (map pos c), kink. split; [split; [apply map_pos_nodup; assumption|rewrite map_length; exact Lc]|]. split; [|split].
    + intros i I. apply in_map_iff in I as (u & <- & I). apply MW. split; [apply position_lt, Hc; exact I|]. rewrite nm_position by (apply Hc; exact I). apply Wc. exact I.
    + apply meet_size; [apply pos_inside; exact Hc|]. rewrite Back. exact Sz.
    + intros s Sy. destruct (meet_system (map pos c) s Sy) as (Ic & Is & Ph). rewrite Back in Ph. destruct (Hs (map nm s) Ph) as (F1 & F2 & pd & Ed & Kk).
      assert (Mp : forall fs l, (forall u, In u l -> In u lus) -> Forall2 (only_stable_phase C ent epa (map nm s)) fs l -> Forall2 (most_stable_only C pool s) fs (map pos l)).
      { intros fs l H F. induction F as [|f e fs l St _ IH]; cbn [map]; constructor; [apply stable_meet; [exact Is|apply H; left; reflexivity|exact St]|apply IH; intros u I; apply H; right; exact I]. }
      split; [apply Mp; [intros u I; apply Irp, in_app_iff; left; exact I|exact F1]|]. split; [apply Mp; [intros u I; apply Irp, in_app_iff; right; exact I|exact F2]|].
      exists pd. split; [rewrite meet_diagram by exact Is; exact Ed|]. intros a b En. destruct (meet_ends _ a b En) as (Ia & Ib & En'). rewrite Back in En'. destruct (Kk _ _ En') as (ks & Ek & Ik). exists ks. split; [|exact Ik].
      rewrite meet_kinks by (apply Ic; assumption). exact Ek.
  - exists (pos t). split; [apply (in_map pos); exact It|]. apply TI. exists t. split; [apply position_nth, Irp, in_app_iff; right; exact It|exact Tt].
Qed.

Lemma work_sense : interfaces_work C ent phase_diagram interface way -> kinks_make_sense C pool rxns net0 (diagram_for phase_diagram (with_index pool)) (kinks_for interface (with_index pool)).
Proof.
  intros Wk c s Sy. destruct (meet_system c s Sy) as (Ic & Is & Ph). destruct (Wk _ _ Ph) as (pd & Ed & Kk). exists pd. split; [rewrite meet_diagram by exact Is; exact Ed|].
  intros a b Ia Ib. destruct (Kk (nm a) (nm b) (in_map nm c a Ia) (in_map nm c b Ib)) as (ks & Ek & H). exists ks. split; [rewrite meet_kinks by (apply Ic; assumption); exact Ek|].
  intros kink Ik. destruct (H kink Ik) as (H1 & H2 & H3). split; [exact H1|]. split; [exact H2|]. intros f If. destruct (H3 f If) as (e & Ie & Ef). apply in_map_iff in Ie as (i & <- & Ii). exists i. split; [exact Ii|]. rewrite (meet_formula i (Is i Ii)). exact Ef.
Qed.
End Meet.

Lemma kink_not_empty C ents rxns net0 {P} (build : list nat -> result P) kinks r p : kinks_make_sense C ents rxns net0 build kinks -> kink_between C ents rxns net0 build kinks r p -> r <> [].
Proof.
  intros Ks ((c & s & pd & a & b & ks & kink & Sy & _ & Eb & En & Ek & Ik & F1 & _) & _). destruct (Ks c s Sy) as (pd' & Eb' & H). rewrite Eb in Eb'. injection Eb' as <-.
  assert (Iab : In a c /\ In b c) by (destruct En as [[-> ->]|[->| ->]]; cbn; auto). destruct (H a b (proj1 Iab) (proj2 Iab)) as (ks' & Ek' & Hk'). rewrite Ek in Ek'. injection Ek' as <-. destruct (Hk' kink Ik) as (N & _). intros ->. inversion F1. congruence.
Qed.

(* --- the flow --- *)
Section Flow.
Variable C : chem.
Hypothesis W : wf_chem C.
Hypothesis Hbig : forall c e, In e (ReactionModel.elems C c) -> (1 # 100 < amt C (red C c) e)%Q.
Variable ent : nat -> entry.
Hypothesis Hid : forall i, e_id (ent i) = i.
Context {D PD : Type}.
Variable diagram : list nat -> D.
Variable wait : nat -> list (list (list (list nat * list nat) * D)) -> list (list (list (list nat * list nat) * D)) * list (list (list (list nat * list nat) * D)).
Hypothesis Hw : valid_schedule wait.
Variable phase_diagram : list (nat * Q) -> result PD.
Variable interface : PD -> nat -> nat -> result (list (list nat * list nat)).
Hypothesis Htidy : forall pd a b ks kink, interface pd a b = Ok ks -> In kink ks -> NoDup (fst kink) /\ NoDup (snd kink) /\ (disjoint (fst kink) (snd kink) \/ exists f, kink = ([f], [f])).
Variable pair_order : list nat -> list nat.
Hypothesis Hpair : forall l, Permutation (pair_order l) l.
Variable mwait : nat -> list (list (list (list nat * list nat) * option (list nat * PD))) ->
  list (list (list (list nat * list nat) * option (list nat * PD))) * list (list (list (list nat * list nat) * option (list nat * PD))).
Hypothesis Hmw : valid_schedule mwait.
Variable entries : list nat.
Hypothesis Hn : NoDup entries.
Hypothesis Hne : entries <> [].
Hypothesis Hel : forall e, In e entries -> ReactionModel.elems C (e_comp (ent e)) <> [].
Notation build := (diagram_for phase_diagram ent).
Notation kinks := (kinks_for interface ent).
Hypothesis Hgood : good_interfaces (fun i => ReactionModel.elems C (e_comp (ent i))) (fun i => red C (e_comp (ent i))) build kinks entries [].
Variable arrange : list sentry -> list sentry.
Hypothesis Harr : arranges arrange.
Variable argsort : list Q -> list nat.
Hypothesis Harg : forall l, Permutation (argsort l) (seq 0 (length l)).
Variable shuffle : list nat -> list nat.
Hypothesis Hsh : forall l, Permutation (shuffle l) l.
Variable listed members : list nat -> list nat.
Hypothesis Hlisted : forall us, NoDup us -> Permutation (listed us) us.
Hypothesis Hmembers : forall us, Permutation (members us) (seq 0 (length us)).
Variable cpus : nat.
Hypothesis Hcpus : 2 <= cpus.
Variable nwait : nat -> list (nat * list (option (list nat)) * result (list nat)) ->
  list (nat * list (option (list nat)) * result (list nat)) * list (nat * list (option (list nat)) * result (list nat)).
Hypothesis Hnw : valid_schedule nwait.
Variable xcost : srxn -> Q.
Hypothesis Hcost : forall r, (0 <= xcost r)%Q.
Variable sp : (payload -> Q) -> list (nat * nat * payload) -> nat -> nat -> option (list nat).
Hypothesis Hsp : forall weight, shortest weight (sp weight).
Variable xeq : srxn -> srxn -> bool.
Hypothesis Hxeq : forall r, xeq r r = true.
Variable req : rxn -> rxn -> bool.
Variable waits1 waits2 : nat -> nat -> list nat -> list nat * list nat.
Variable uniq : list (path rxn) -> list (path rxn).
Variable clean : list rxn -> list rxn.
Variable cost : rxn -> Q.
Variable chunk : nat.
Hypothesis Hw1 : forall k, valid_schedule (waits1 k).
Hypothesis Hw2 : forall k, valid_schedule (waits2 k).
Variable rhash : rxn -> nat.
Hypothesis Hreq : forall r, req r r = true.
Hypothesis Huniq : set_members req rhash uniq.
Hypothesis Hnone : uniq [] = [].
Hypothesis Hclean : keeps_all req clean.
Hypothesis Hchunk : 1 <= chunk.
Variable order : list nat -> list nat.
Hypothesis Hord : forall l, Permutation (order l) l.
Variable ichunk ijobs : nat.
Hypothesis Hic : 1 <= ichunk.
Hypothesis Hij : 1 <= ijobs.
Variable mchunk mjobs : nat.
Hypothesis Hmc : 1 <= mchunk.
Hypothesis Hmj : 1 <= mjobs.
Variables ub um : bool.
Variable cutoff : Q.
Notation solve := (entry_solve C ent).
Notation rank := (entry_rank C ent).
Notation here := (in_set C ent).
Notation form0 := (fun i => red C (e_comp (ent i))).
Notation inter0 := (find_between C diagram phase_diagram interface pair_order arrange argsort shuffle wait mwait (exact_solve C) (exact_rank C) order ichunk ijobs mchunk mjobs cutoff ub um).
Notation epa0 := (fun u => e_energy (ent u) / natoms C (e_comp (ent u)))%Q.
Notation on_path rs per := (on_pathways xcost rs (concat per)).

Notation outs_of := (any_enumerated C ent solve rank diagram build kinks pair_order epa0 wait mwait entries).
Notation looks := (any_looks C ent build kinks epa0 entries).
Notation finds := (any_finds C ent build kinks epa0 entries).
Notation reacts0 := (any_reacts C ent build kinks epa0 entries).
Lemma tidy_here of : tidy_kinks (kinks_for interface of).
Proof. intros pd a b ks kink E I. exact (Htidy pd _ _ ks kink E I). Qed.
Lemma each a : any_usable a -> exists xs, outs_of a = Ok xs
  /\ (forall x, In x xs -> plain (set_rxn C x) /\ (forall e, In e (x_entries (set_rxn C x)) -> exists i, In i entries /\ e = here i) /\ exists r p, looks a r p /\ turns C ent r p (set_rxn C x))
  /\ forall r p, finds a r p -> exists x, In x xs /\ turns C ent r p (set_rxn C x).
Proof. exact (any_spec C W Hbig ent Hid build kinks pair_order Hpair epa0 mwait Hmw entries Hn Hel Hgood (tidy_here ent) diagram wait Hw a). Qed.
Lemma looks_not_empty a r p : looks a r p -> r <> [].
Proof.
  destruct a as [en|m]; cbn [any_looks]; [intros L; exact (proj1 (looks_some C ent entries en r p L))|].
  intros ((c & s & pd & a & b & ks & kink & (Cb & _ & k & Hk & Hs & Eb) & En & Ek & Ik & F1 & _) & _). destruct (Hgood c k s Cb Hk Hs) as (pd' & Eb' & H). rewrite Eb in Eb'. injection Eb' as <-.
  assert (Iab : In a c /\ In b c) by (destruct En as [[-> ->]|[->| ->]]; cbn; auto). destruct (H a b (proj1 Iab) (proj2 Iab)) as (ks' & Ek' & Hk'). rewrite Ek in Ek'. injection Ek' as <-. destruct (Hk' kink Ik) as (N & _). intros ->. inversion F1. congruence.
Qed.

Definition any_sharp_outputs (ens : list any_enumerator) : Prop :=
  forall outs, Forall2 (fun en xs => outs_of en = Ok xs) ens outs -> sharp (map (set_rxn C) (concat outs)).

(* What the enumeration hands on. *)
Lemma any_handed_on ens ps ts : ens <> [] -> (forall en, In en ens -> any_usable en) -> any_sharp_outputs ens ->
  incl (ps ++ ts) entries -> most_stable C ent epa0 entries (ps ++ ts) -> (forall i, In i (ps ++ ts) -> exists r p, reacts0 ens r p /\ In i (r ++ p)) ->
  exists s out, any_enumeration C ent solve rank diagram build kinks pair_order epa0 arrange argsort shuffle wait mwait ens entries = Ok (Some s) /\ get_rxns s = Ok out
  /\ (forall x, In x out -> plain x /\ (forall e, In e (x_entries x) -> exists i, In i entries /\ e = here i) /\ exists en r p, In en ens /\ looks en r p /\ turns C ent r p x)
  /\ (forall r p, reacts0 ens r p -> exists x, In x out /\ turns C ent r p x)
  /\ (sharp out /\ forall x, In x out -> x_mu x = None)
  /\ (forall x y, In x (all_entries out) -> In y (all_entries out) -> uid x = uid y -> x = y)
  /\ (forall r e, In r out -> In e (x_entries r) -> comp e = e_comp (ent (uid e)) /\ form e = red C (comp e))
  /\ (forall f, In f (map form0 ps ++ map form0 ts) -> exists r e, In r out /\ In e (x_entries r) /\ form e = f)
  /\ (forall l l', incl l (ps ++ ts) -> Forall2 (lowest epa0 out) (map form0 l) l' -> l' = map here l).
Proof.
  intros Hens Us Sh Hincl Hform Hin.
  destruct (general_enumeration_spec C ent Hid entries Hn Hne arrange Harr argsort Harg shuffle Hsh outs_of any_duplicates any_usable looks finds each ens Hens Us Sh) as (s & out & E & G & _ & Good & Comp & _ & Sho).
  assert (Hent : forall x e, In x out -> In e (x_entries x) -> exists i, In i entries /\ e = here i).
  { intros x e Ix Ie. destruct (Good x Ix) as (en & _ & _ & H & _). exact (H e Ie). }
  assert (Comp' : forall r p, reacts0 ens r p -> exists x, In x out /\ turns C ent r p x).
  { intros r p (en & Ie & L). exact (Comp en r p Ie L). }
  exists s, out. split; [exact E|]. split; [exact G|]. split.
  { intros x Ix. destruct (Good x Ix) as (en & Ie & P & He & r & p & L & T). split; [exact P|]. split; [exact He|]. exists en, r, p. auto. }
  split; [exact Comp'|]. split; [exact Sho|]. split; [|split; [|split]].
  - intros x y Ix Iy. apply in_flat_map in Ix as (a & Ia & Ix), Iy as (b & Ib & Iy). destruct (Hent a x Ia Ix) as (i & _ & ->). destruct (Hent b y Ib Iy) as (j & _ & ->). cbn. intros ->. reflexivity.
  - intros x e Ix Ie. destruct (Hent x e Ix Ie) as (i & _ & ->). split; reflexivity.
  - intros f If. rewrite <- map_app in If. apply in_map_iff in If as (i & <- & Ii). destruct (Hin i Ii) as (r & p & Fd & Irp). destruct (Comp' r p Fd) as (x & Ix & (U & M & _)).
    exists x, (here i). split; [exact Ix|]. split; [|reflexivity]. apply in_app_iff in Irp as [I|I].
    + destruct (proj2 (U (here i)) (ex_intro _ i (conj I eq_refl))) as (c & T & _). exact (in_combine_l _ _ _ _ T).
    + destruct (proj2 (M (here i)) (ex_intro _ i (conj I eq_refl))) as (c & T & _). exact (in_combine_l _ _ _ _ T).
  - induction l as [|i l IH]; intros l' Hl F; cbn [map] in F; inversion F as [|f e fs l0 L F0]; subst; [reflexivity|]. rewrite (IH l0) by (try exact F0; intros j Hj; apply Hl; right; exact Hj). cbn [map]. f_equal.
    destruct L as (Lf & (x & Ix & Ie) & Lw). destruct (Hent x e Ix Ie) as (j & Hj & ->). f_equal.
    cbn [form in_set] in Lf. pose proof (Hl i (or_introl eq_refl)) as Ii. destruct (Hform i j Ii Hj Lf) as [Ej|Lt]; [exact Ej|]. exfalso.
    destruct (Hin i Ii) as (r & p & Fd & Irp). destruct (Comp' r p Fd) as (y & Iy & T). specialize (Lw y (here i) Iy (JoinProofs.turns_entries C ent r p y i T Irp) eq_refl). cbn [uid in_set] in Lw. cbv beta in Lt, Lw. lra.
Qed.

Lemma any_rs_turn out m rs ens : families m out rs -> (forall x, In x out -> plain x /\ (forall e, In e (x_entries x) -> exists i, In i entries /\ e = here i) /\ exists en r p, In en ens /\ looks en r p /\ turns C ent r p x) ->
  forall x, In x rs -> plain x /\ exists en r p, In en ens /\ looks en r p /\ turns C ent r p x.
Proof. intros (_ & Fb & _) Good x Ix. destruct (Fb x Ix) as (y & Iy & ->). destruct (Good y Iy) as (P & _ & en & r & p & Ie & L & T). split; [exact P|]. exists en, r, p. split; [exact Ie|]. split; [exact L|exact T]. Qed.


Lemma any_finds_with ens nmk smk max find fi ps ts k : ens <> [] -> (forall en, In en ens -> any_usable en) -> any_sharp_outputs ens -> incl (ps ++ ts) entries -> most_stable C ent epa0 entries (ps ++ ts) -> determined C form0 ps ts ->
  (forall i, In i (ps ++ ts) -> exists r p, reacts0 ens r p /\ In i (r ++ p)) ->
  nm_precursors nmk = Some (map form0 ps) -> ps <> [] -> nm_targets nmk = Some (map form0 ts) -> ts <> [] -> nm_k nmk = Some k -> 0 < k ->
  sm_precursors smk = map form0 ps -> sm_targets smk = map form0 ts ->
  exists us rs per net0 es ks v t rxns, NoDup us /\ incl us entries /\ (forall u, In u us <-> exists x, In x rs /\ In (here u) (x_entries x))
  /\ (forall x, In x rs -> plain x /\ exists en r p, In en ens /\ looks en r p /\ turns C ent r p x)
  /\ (forall r p, reacts0 ens r p -> exists x, In x rs /\ turns C ent r p x)
  /\ (forall i j x y, nth_error rs i = Some x -> nth_error rs j = Some y -> multiples x y -> i = j)
  /\ Forall2 (fun t pathways => pathways_to xcost rs (map here ps) (here t) k pathways) ts per
  /\ Forall2 (stands_for (listed us)) (map here (ps ++ ts)) es /\ only_combination C (map form0 (ps ++ ts)) v /\ LinSpec.sides (length ps) v /\ (0 < t)%Q /\ multiple t v ks /\ parts net0 = combine es ks
  /\ environment (sm_open smk) (sm_chempot smk) net0
  /\ (forall r, In r rxns -> exists x, on_pathways xcost rs (concat per) x /\ r = (rxn_of C (fun i => e_comp (ent i)) (fun i => e_energy (ent i)) listed us) x)
  /\ (forall x, on_pathways xcost rs (concat per) x -> exists x' r, on_pathways xcost rs (concat per) x' /\ xeq x' x = true /\ In r rxns /\ req ((rxn_of C (fun i => e_comp (ent i)) (fun i => e_energy (ent i)) listed us) x') r = true)
  /\ (nm_open nmk = None -> forall x, In x rs -> x_mu x = None) /\ (forall x, In x rs -> amounts_of (listed us) x (turnover ((rxn_of C (fun i => e_comp (ent i)) (fun i => e_energy (ent i)) listed us) x)))
  /\ forall ys, (find = true -> inter0 (numbered (fun i => e_comp (ent i)) (fun i => e_energy (ent i)) listed us) rxns net0 = Ok (map ((rxn_of C (fun i => e_comp (ent i)) (fun i => e_energy (ent i)) listed us)) ys)) -> (find = false -> ys = []) ->
     (forall y, In y ys -> plain y /\ x_entries y <> [] /\ (forall e, In e (x_entries y) -> exists u, In u us /\ e = here u) /\ forall c, In c (x_coeffs y) -> (1 # 100000000 < Qabs c)%Q) ->
     (forall x y, In x rs -> In y rs -> xeq x y = true -> like x y) ->
     (forall x y, In x (rs ++ ys) -> In y (rs ++ ys) -> req ((rxn_of C (fun i => e_comp (ent i)) (fun i => e_energy (ent i)) listed us) x) ((rxn_of C (fun i => e_comp (ent i)) (fun i => e_energy (ent i)) listed us) y) = true -> like x y) ->
     (forall x y, In x (rs ++ ys) -> In y ys -> multiples x y \/ multiples y x -> req ((rxn_of C (fun i => e_comp (ent i)) (fun i => e_energy (ent i)) listed us) x) ((rxn_of C (fun i => e_comp (ent i)) (fun i => e_energy (ent i)) listed us) y) = true /\ req ((rxn_of C (fun i => e_comp (ent i)) (fun i => e_energy (ent i)) listed us) y) ((rxn_of C (fun i => e_comp (ent i)) (fun i => e_energy (ent i)) listed us) x) = true) ->
     (forall x, In x (rs ++ ys) -> req ((rxn_of C (fun i => e_comp (ent i)) (fun i => e_energy (ent i)) listed us) x) net0 = true -> amounts_of (listed us) x (turnover net0)) ->
     (forall x r, In x (rs ++ ys) -> environment (sm_open smk) (sm_chempot smk) r -> amounts_of (listed us) x (turnover r) -> req ((rxn_of C (fun i => e_comp (ent i)) (fun i => e_energy (ent i)) listed us) x) r = true) ->
     let allowed := fun x => (on_pathways xcost rs (concat per) x \/ In x ys) /\ ~ amounts_of (listed us) x (turnover net0) in
     forall ds, length ds = max -> (forall i j x y, i < j -> nth_error ds i = Some x -> nth_error ds j = Some y -> ~ like x y) -> (forall x, In x ds -> allowed x) ->
     forall xs ms, 1 <= length xs <= max -> (forall x, In x xs -> allowed x) -> unrelated xs ->
     (fi = true -> ~ circle (takes C (fun i => e_comp (ent i))) (gives C (fun i => e_comp (ent i))) (map (fun i => e_comp (ent i)) ps) xs) ->
     length ms = length xs -> Forall (fun q => (1 # 1000000 <= q)%Q) ms ->
     (forall i u, nth_error (listed us) i = Some u -> (together ms xs u == turnover net0 i)%Q) ->
     exists paths q ms' ms0 xs0, any_whole_flow C ent solve rank diagram phase_diagram interface pair_order arrange argsort shuffle wait mwait listed members cpus nwait xcost sp xeq (exact_solve C) (exact_rank C) req path_pinv waits1 waits2 uniq clean cost chunk order ichunk ijobs mchunk mjobs cutoff ub um ens entries nmk smk max find fi = Ok (net0, paths)
     /\ In q paths /\ p_coeffs q = Some ms' /\ Forall2 Qeq ms' ms0 /\ length ms0 = length xs0 /\ Permutation (combine ms xs) (combine ms0 xs0)
     /\ Forall2 (fun x r => exists r', amounts_of (listed us) x (turnover r') /\ environment (sm_open smk) (sm_chempot smk) r' /\ req r' r = true) xs0 (p_rxns q).
Proof.
  intros Hens Us Sh Hincl Hform (Nd & v & Ov & Sv) Hin Ep Hps Et Hts Ek Hk Sp St.
  destruct (any_handed_on ens ps ts Hens Us Sh Hincl Hform Hin) as (s & out & E & G & Good & Comp & (Sho & Hmu) & Hu & Hf & Hre & Hlow).
  destruct (chain_finds C W (fun i => e_comp (ent i)) (fun i => e_energy (ent i)) listed members Hlisted Hmembers arrange Harr argsort Harg shuffle Hsh cpus Hcpus nwait Hnw xcost Hcost sp Hsp xeq Hxeq req
    waits1 waits2 uniq clean cost inter0 chunk rhash Hw1 Hw2 Hreq Huniq Hnone Hclean Hchunk nmk smk max find fi [s] [out] (map form0 ps) (map form0 ts) k v) as (us & rs & m & pe & te & per & net0 & gs & es & ks & t & rxns & Nus & Ius & Fam & Hm0 & Lp & Lt & Path & L1 & Std & Tp & M & Pn & Env & Rx1 & Rx2 & Find);
    rewrite ?only_set; try assumption.
  - constructor; [exact G|constructor].
  - intros x Ix. apply (Good x Ix).
  - intros x Ix En0. destruct (Good x Ix) as (_ & _ & en & r & p & _ & Lk & (U & _)). apply looks_not_empty in Lk. destruct r as [|i r]; [contradiction|].
    destruct (proj2 (U (here i)) (ex_intro _ i (conj (or_introl eq_refl) eq_refl))) as (c & T & _). apply in_combine_l in T. rewrite En0 in T. destruct T.
  - intros x c Ix Ic. destruct (Good x Ix) as ((_ & Lc & _) & _ & en & r & p & _ & _ & (_ & _ & B & _)).
    assert (Te : exists e, takes_part x e c).
    { revert Lc Ic. clear. unfold takes_part. generalize (x_entries x). induction (x_coeffs x) as [|c0 l IH]; intros [|e es] Lc Ic; try discriminate; [destruct Ic|]. destruct Ic as [->|Ic]; [exists e; left; reflexivity|].
      destruct (IH es ltac:(cbn in Lc; lia) Ic) as (e' & I). exists e'. right. exact I. }
    destruct Te as (e & Te). specialize (B e c Te). lra.
  - destruct ps; [contradiction|discriminate].
  - destruct ts; [contradiction|discriminate].
  - rewrite <- map_app. exact Nd.
  - intros f If. rewrite <- map_app in If. apply in_map_iff in If as (i & <- & _). apply (wf_red_red C W).
  - rewrite <- map_app. exact Ov.
  - rewrite map_length. exact Sv.
  - rewrite only_set in Ius, Fam, Lp, Lt, L1. rewrite <- map_app in L1.
    assert (Ips : incl ps (ps ++ ts)) by (intros i I; apply in_app_iff; left; exact I). assert (Its : incl ts (ps ++ ts)) by (intros i I; apply in_app_iff; right; exact I).
    apply Hlow in Lp as ->; [|exact Ips]. apply Hlow in Lt as ->; [|exact Its]. apply Hlow in L1 as ->; [|apply incl_refl].
    pose proof (any_rs_turn out m rs ens Fam Good) as Rs.
    exists us, rs, per, net0, es, ks, v, t, rxns. split; [exact Nus|]. split.
    { intros u Iu. apply Ius in Iu as (e & Ie & <-). apply in_flat_map in Ie as (x & Ix & Ie). destruct (Good x Ix) as (_ & He & _). destruct (He e Ie) as (i & Ii & ->). exact Ii. }
    split.
    { intros u. split.
      - intros Iu. apply Ius in Iu as (e & Ie & <-). apply in_flat_map in Ie as (x & Ix & Ie). destruct (Good x Ix) as (_ & He & _). destruct (He e Ie) as (i & Ii & ->).
        destruct (proj1 Fam x Ix) as (x' & Ix' & M'). exists x'. split; [exact Ix'|]. exact (multiples_entries _ _ (proj1 (proj2 (proj1 (Good x Ix)))) M' _ Ie).
      - intros (x & Ix & Ie). destruct (proj1 (proj2 Fam) x Ix) as (y & Iy & ->). apply Ius. exists (here u). split; [apply in_flat_map; exists y; split; [exact Iy|exact Ie]|reflexivity]. }
    split; [exact Rs|]. split.
    { intros r p Fd. destruct (Comp r p Fd) as (x & Ix & T). destruct (proj1 Fam x Ix) as (x' & Ix' & M'). exists x'. split; [exact Ix'|].
      destruct (Rs x' Ix') as (_ & en' & r' & p' & _ & _ & T'). exact (turns_sided C ent r p r' p' x x' T T' (multiples_sides _ _ M')). }
    split; [exact (proj2 (proj2 Fam))|]. split.
    { clear -Path. revert per Path. induction ts as [|t l IH]; intros per Path; cbn [map] in Path; inversion Path; subst; constructor; [assumption|apply IH; assumption]. }
    repeat (split; [assumption|]). split.
    { intros Eo x Ix. rewrite only_set in Hm0. destruct (proj1 (proj2 Fam) x Ix) as (y & _ & ->). exact (proj2 Hm0 Eo Hmu). }
    split.
    { intros x Ix. apply (rxn_turnover C (fun i => e_comp (ent i)) (fun i => e_energy (ent i)) listed Hlisted us Nus). intros e Ie. apply Ius. exists e. split; [|reflexivity].
      destruct (proj1 (proj2 Fam) x Ix) as (y & Iy & ->). apply in_flat_map. exists y. split; [exact Iy|exact Ie]. }
    intros ys Y1 Y2 Y3 T1 T2 T5 T3 T4 allowed ds Lds Ads Ods xs ms Lxs Oxs Uxs Hci Lms Mms Sum.
    unfold any_whole_flow. change (diagram_of phase_diagram ent) with build. change (kinks_of interface ent) with kinks. rewrite E. cbn [bind]. refine (Find ys Y1 Y2 _ T1 T2 T5 T3 T4 ds Lds Ads Ods xs ms Lxs Oxs Uxs _ Lms Mms Sum).
    + intros y Iy. destruct (Y3 y Iy) as (P & Ne & He & B). split; [exact P|]. split; [exact Ne|]. split; [|exact B]. intros e Ie. destruct (He e Ie) as (u & Iu & ->). rewrite only_set.
      apply Ius in Iu as (e' & Ie' & <-). pose proof Ie' as J. apply in_flat_map in J as (x & Ix & Iex). destruct (Good x Ix) as (_ & He' & _). destruct (He' e' Iex) as (i & _ & ->). exact Ie'.
    + intros F. rewrite map_length, map_app, firstn_app, !map_length, Nat.sub_diag, app_nil_r. rewrite firstn_all2 by (rewrite map_length; lia). rewrite map_map. exact (Hci F).
Qed.

Theorem any_flow_finds ens nmk smk max fi ps ts k : ens <> [] -> (forall en, In en ens -> any_usable en) ->
  (forall outs, Forall2 (fun en xs => outs_of en = Ok xs) ens outs -> sharp (map (set_rxn C) (concat outs))) -> incl (ps ++ ts) entries -> most_stable C ent epa0 entries (ps ++ ts) -> determined C form0 ps ts ->
  (forall i, In i (ps ++ ts) -> exists r p, reacts0 ens r p /\ In i (r ++ p)) ->
  nm_precursors nmk = Some (map form0 ps) -> ps <> [] -> nm_targets nmk = Some (map form0 ts) -> ts <> [] -> nm_k nmk = Some k -> 0 < k -> nm_open nmk = None ->
  sm_precursors smk = map form0 ps -> sm_targets smk = map form0 ts -> sm_open smk = None ->
  exists us rs per net0 es ks v t, NoDup us /\ incl us entries
  /\ (forall x, In x rs -> plain x /\ exists en r p, In en ens /\ looks en r p /\ turns C ent r p x)
  /\ (forall r p, reacts0 ens r p -> exists x, In x rs /\ turns C ent r p x)
  /\ Forall2 (fun t pathways => pathways_to xcost rs (map here ps) (here t) k pathways) ts per
  /\ Forall2 (stands_for us) (map here (ps ++ ts)) es /\ only_combination C (map form0 (ps ++ ts)) v /\ (0 < t)%Q /\ multiple t v ks /\ parts net0 = combine es ks
  /\ exists (objects : srxn -> rxn) pool rxns, (forall x, In x rs -> amounts_of us x (turnover (objects x)))
  /\ lists_entries (fun i => e_comp (ent i)) (fun i => e_energy (ent i)) us pool /\ (forall r, In r rxns -> exists x, on_path rs per x /\ r = objects x)
  /\ ((forall x y, In x rs -> In y rs -> xeq x y = true -> like x y) ->
      (forall x y, In x rs -> In y rs -> req (objects x) (objects y) = true -> like x y) ->
      (forall targets mids xb xm, targets_of net0 = Ok targets -> intermediates C order pool rxns targets = Ok mids ->
         (if ub then basic_objects C (exact_solve C) (exact_rank C) diagram wait ichunk ijobs pool mids (map e_id targets) else Ok []) = Ok xb ->
         (if um then min_objects C (exact_solve C) (exact_rank C) (diagram_for phase_diagram (with_index pool)) (kinks_for interface (with_index pool)) pair_order mwait mchunk mjobs pool mids (map e_id targets) else Ok []) = Ok xm -> sharp (map (set_rxn C) (xb ++ xm))) ->
      let way := on_the_way C ent us ts (on_path rs per) in (um = true -> interfaces_work C ent phase_diagram interface way) ->
      exists ys, (forall y, In y ys -> plain y /\ (forall e, In e (x_entries y) -> exists u, way u /\ e = here u) /\ (NoDup (map form (x_entries y)) -> low C cutoff (combine (map (fun e => ent (uid e)) (x_entries y)) (x_coeffs y)))
                    /\ exists r p, ((ub = true /\ could_react C ent way ts r p) \/ (um = true /\ could_meet C ent phase_diagram interface way ts r p)) /\ turns C ent r p y)
      /\ (forall r p w, ((ub = true /\ could_react C ent way ts r p) \/ (um = true /\ sure_to_meet C ent phase_diagram interface way ts r p)) -> NoDup (map form0 (r ++ p)) -> only_combination C (map form0 (r ++ p)) w -> LinSpec.sides (length r) w -> low C cutoff (combine (map ent (r ++ p)) w) ->
            exists y q, In y ys /\ (0 < q)%Q /\ (forall j u a, nth_error (r ++ p) j = Some u -> nth_error w j = Some a -> (amount y u == q * a)%Q) /\ forall u, ~ In u (r ++ p) -> (amount y u == 0)%Q)
      /\ ((forall x y, In x (rs ++ ys) -> In y (rs ++ ys) -> req (objects x) (objects y) = true -> like x y) ->
          (forall x y, In x (rs ++ ys) -> In y ys -> multiples x y \/ multiples y x -> req (objects x) (objects y) = true /\ req (objects y) (objects x) = true) ->
          (forall x, In x (rs ++ ys) -> req (objects x) net0 = true -> amounts_of us x (turnover net0)) ->
          (forall x r, In x (rs ++ ys) -> environment None (sm_chempot smk) r -> amounts_of us x (turnover r) -> req (objects x) r = true) ->
          let allowed := fun x => (on_path rs per x \/ In x ys) /\ ~ amounts_of us x (turnover net0) in
          forall ds, length ds = max -> (forall i j x y, i < j -> nth_error ds i = Some x -> nth_error ds j = Some y -> ~ like x y) -> (forall x, In x ds -> allowed x) ->
          forall xs ms, 1 <= length xs <= max -> (forall x, In x xs -> allowed x) -> unrelated xs ->
          (fi = true -> ~ circle (takes C (fun i => e_comp (ent i))) (gives C (fun i => e_comp (ent i))) (map (fun i => e_comp (ent i)) ps) xs) ->
          length ms = length xs -> Forall (fun q => (1 # 1000000 <= q)%Q) ms ->
          (forall i u, nth_error us i = Some u -> (together ms xs u == turnover net0 i)%Q) ->
          exists paths q ms' ms0 xs0, any_whole_flow C ent solve rank diagram phase_diagram interface pair_order arrange argsort shuffle wait mwait listed members cpus nwait xcost sp xeq (exact_solve C) (exact_rank C) req path_pinv waits1 waits2 uniq clean cost chunk order ichunk ijobs mchunk mjobs cutoff ub um ens entries nmk smk max true fi = Ok (net0, paths)
          /\ In q paths /\ p_coeffs q = Some ms' /\ Forall2 Qeq ms' ms0 /\ length ms0 = length xs0 /\ Permutation (combine ms xs) (combine ms0 xs0)
          /\ Forall2 (fun x r => exists r', amounts_of us x (turnover r') /\ environment None (sm_chempot smk) r' /\ req r' r = true) xs0 (p_rxns q))).
Proof.
  intros Hens Us Sh Hincl Hst Dt Hin Ep Hps Et Hts Ek Hk Eno Sp St Eso.
  destruct (any_finds_with ens nmk smk max true fi ps ts k Hens Us Sh Hincl Hst Dt Hin Ep Hps Et Hts Ek Hk Sp St)
    as (us & rs & per & net0 & es & ks & v & t & rxns & Nus & Ius & Uus & Rs & Comp & _ & Path & Std & Ov & Sv & Tp & M & Pn & Env & R1 & R2 & Mu & Am & Find).
  specialize (Mu Eno). rewrite Eso in *. set (pool := numbered (fun i => e_comp (ent i)) (fun i => e_energy (ent i)) listed us) in *.
  set (obj := rxn_of C (fun i => e_comp (ent i)) (fun i => e_energy (ent i)) listed us) in *.
  assert (Nl : NoDup (listed us)) by exact (Permutation_NoDup (Permutation_sym (Hlisted us Nus)) Nus).
  assert (Hl : forall u, In u (listed us) <-> In u us) by (intros u; split; apply Permutation_in; [|apply Permutation_sym]; apply Hlisted; exact Nus).
  exists (listed us), rs, per, net0, es, ks, v, t. split; [exact Nl|]. split; [intros u Iu; apply Ius, Hl; exact Iu|]. repeat (split; [assumption|]).
  exists obj, pool, rxns. split; [exact Am|]. split.
  { split; [|intros i e E; exact (pool_id ent listed us Nl i e E)]. unfold pool, numbered. clear. induction (listed us) as [|u l IH]; cbn [map]; constructor; [split; reflexivity|exact IH]. }
  split; [exact R1|]. intros T1 T2 Shs way Wk. set (walked := on_path rs per) in *.
  assert (Hw0 : forall x, walked x -> In x rs).
  { intros x (p & xs & _ & G & I). clear - G I. revert I. induction G as [|pc y p xs ((n & _ & E) & _) _ IH]; intros I; [destruct I|]. destruct I as [<-|I]; [exact (nth_error_In _ _ E)|exact (IH I)]. }
  assert (Hplain : forall x, walked x -> plain x) by (intros x Wx; apply (Rs x (Hw0 x Wx))).
  assert (Hent : forall x e, walked x -> In e (x_entries x) -> exists u, In u us /\ e = here u).
  { intros x e Wx I. destruct (Rs x (Hw0 x Wx)) as (P & en & r & p & _ & _ & T). destruct (turns_entries C ent r p x e P T I) as (u & ->). exists u. split; [|reflexivity]. apply Uus. exists x. split; [exact (Hw0 x Wx)|exact I]. }
  assert (R2' : forall x, walked x -> exists x' x'', walked x'' /\ like x' x /\ In (obj x'') rxns /\ like x' x'').
  { intros x Wx. destruct (R2 x Wx) as (x' & r & Wx' & Ex & Ir & Er). destruct (R1 r Ir) as (x'' & Wx'' & ->). exists x', x''. split; [exact Wx''|]. split; [apply T1; [apply Hw0; exact Wx'|apply Hw0; exact Wx|exact Ex]|]. split; [exact Ir|]. apply T2; [apply Hw0; exact Wx'|apply Hw0; exact Wx''|exact Er]. }
  assert (Lv : length v = length (ps ++ ts)) by (destruct Ov as ((L & _) & _); rewrite map_length in L; exact L).
  assert (Cnet : exists c, net0 = RComputed c) by (destruct net0; cbn in Env; try contradiction; eexists; reflexivity).
  assert (Hmu : forall x, walked x -> x_mu x = None) by (intros x Wx; apply Mu, Hw0; exact Wx).
  pose proof (mid_way C ent listed us ts ps Nl Hl walked Hplain Hent rxns R1 R2' net0 es ks v t Std Sv Lv Tp M Pn) as MW.
  pose proof (might_could C ent listed us ts ps Nl Hl walked Hplain Hent rxns R1 R2' net0 es ks v t Std Sv Lv Tp M Pn) as MC.
  pose proof (could_might C ent listed us ts ps Nl Hl walked Hplain Hent rxns R1 R2' net0 es ks v t Std Sv Lv Tp M Pn) as CM.
  pose proof (net_names C ent listed us ts ps net0 es ks Std Pn Cnet) as NN.
  pose proof (rxn_names C ent listed us Hl walked Hplain Hent rxns R1 Hmu) as RN.
  pose proof (rxn_full C ent listed us walked Hplain rxns R1 Hmu) as RF.
  pose proof (some_target C ent listed us ts ps Nl net0 es ks v t Std Sv Lv Tp M Pn Hts) as ST.
  pose proof (way_in C ent listed us ts ps Hl walked Hplain Hent es Std) as WI.
  pose proof (target_iff C ent listed us ts ps Nl net0 es ks v t Std Sv Lv Tp M Pn) as TI.
  assert (Sense : um = true -> kinks_make_sense C pool rxns net0 (diagram_for phase_diagram (with_index pool)) (kinks_for interface (with_index pool))) by (intros Hum; apply (work_sense C ent listed us Nl rxns net0 way WI MW); apply Wk; exact Hum).
  destruct (options_search C W Hbig pool) with (rxns := rxns) (net0 := net0) (diagram := diagram) (wait := wait) (arrange := arrange) (argsort := argsort) (shuffle := shuffle) (order := order) (chunk := ichunk) (jobs := ijobs) (cutoff := cutoff)
    (build := diagram_for phase_diagram (with_index pool)) (kinks := kinks_for interface (with_index pool)) (pair_order := pair_order) (mwait := mwait) (mchunk := mchunk) (mjobs := mjobs) (ub := ub) (um := um)
    as (zs & E & Sound & Cmp & _); try assumption; try (intros _; apply tidy_here).
  { intros i e Ee. exact (pool_id ent listed us Nl i e Ee). }
  { intros i e Ee. apply (pool_some ent listed us) in Ee as (L & ->). cbn [e_comp entry_of]. apply Hel, Ius, Hl, nm_mem. exact L. }
  { intros i j a c Ti _ Ea Ec Er. apply (pool_some ent listed us) in Ea as (L1 & ->), Ec as (L2 & ->). cbn [e_comp e_energy entry_of] in *.
    apply (target_iff C ent listed us ts ps Nl net0 es ks v t Std Sv Lv Tp M Pn) in Ti as (u & Eu & Iu). assert (u = nm listed us i) as -> by (symmetry; apply nm_some; exact Eu).
    destruct (Hst (nm listed us i) (nm listed us j)) as [H|H]; [apply in_app_iff; right; exact Iu|apply Ius, Hl, nm_mem; exact L2|exact Er| |right; exact H]. left. apply (nm_inj listed us Nl j i L2 L1). exact H. }
  assert (Ins : forall l, (forall i, In i l -> intermediate C pool rxns net0 i) -> inside listed us l) by (intros l H i I; apply MW, H; exact I).
  exists (map (relabel C ent listed us) zs). split; [|split].
  - intros y Iy. apply in_map_iff in Iy as (x & <- & Ix). destruct (Sound x Ix) as (P0 & (l & El & Nd & Ml & Low) & r & p & Nrp0 & Mr & T & _). pose proof (Ins l Ml) as Il.
    split; [exact (relabel_plain C ent listed us Nl x l El Il P0)|]. split; [|split].
    + intros e Ie. rewrite (relabel_entries C ent listed us x l El), map_map in Ie. apply in_map_iff in Ie as (i & <- & Ii). exists (nm listed us i). split; [apply MW, Ml; exact Ii|reflexivity].
    + rewrite (relabel_entries C ent listed us x l El). rewrite !(map_map here). cbn [uid in_set form]. intros Nf. apply (relabel_low C ent listed us l (x_coeffs x) cutoff Il), Low.
      pose proof (relabel_forms C ent listed us l Il) as Fm. fold pool in Fm. rewrite Fm. exact Nf.
    + assert (Mr' : inside listed us r /\ inside listed us p /\ ((ub = true /\ could_react C ent way ts (map (nm listed us) r) (map (nm listed us) p)) \/ (um = true /\ could_meet C ent phase_diagram interface way ts (map (nm listed us) r) (map (nm listed us) p)))).
      { destruct Mr as [(Hub & Mr)|(Hum & Mr)]; [destruct (MC r p Mr) as (Ir & Ip & Cr); auto|]. destruct (between_meets C ent listed us ts Nl rxns net0 way WI MW TI phase_diagram interface r p Mr) as (Ir & Ip & Cr). auto. }
      destruct Mr' as (Ir & Ip & Cr). exists (map (nm listed us) r), (map (nm listed us) p). split; [exact Cr|]. exact (relabel_turns C ent listed us Nl x l r p El Il Ir Ip T).
  - intros r p w Cr Nf Ow Sw Lw. set (pos := fun u => position u (listed us)) in *.
    assert (Mr' : (forall u, In u (r ++ p) -> In u (listed us)) /\ ((ub = true /\ might_react C pool rxns net0 (map pos r) (map pos p)) \/ (um = true /\ sure_kink C pool rxns net0 (diagram_for phase_diagram (with_index pool)) (kinks_for interface (with_index pool)) (map pos r) (map pos p)))).
    { destruct Cr as [(Hub & Cr)|(Hum & Cr)]; [destruct (CM r p Cr); auto|]. destruct (meets_between C ent listed us ts Nl rxns net0 way WI MW TI phase_diagram interface r p Cr) as (Irp & Mr). auto. }
    destruct Mr' as (Irp & Mr).
    assert (Back : map (nm listed us) (map pos r ++ map pos p) = r ++ p) by (rewrite <- map_app; apply map_nm_position; exact Irp).
    assert (Il : inside listed us (map pos r ++ map pos p)) by (rewrite <- map_app; intros i I; apply in_map_iff in I as (u & <- & I); apply position_lt, Irp; exact I).
    destruct (Cmp (map pos r) (map pos p) w Mr) as (z & q & Iz & Pq & Az).
    + pose proof (relabel_forms C ent listed us _ Il) as Fm. rewrite Back in Fm. fold pool in Fm. rewrite Fm. exact Nf.
    + pose proof (relabel_forms C ent listed us _ Il) as Fm. rewrite Back in Fm. fold pool in Fm. rewrite Fm. exact Ow.
    + rewrite map_length. exact Sw.
    + apply (relabel_low C ent listed us _ w cutoff Il). rewrite Back. exact Lw.
    + exists (relabel C ent listed us z), q. split; [apply in_map; exact Iz|]. split; [exact Pq|]. destruct (Sound z Iz) as (P0 & (l & El & Nd & Ml & _) & _). pose proof (Ins l Ml) as Ilz.
      assert (Nrp : NoDup (map pos r ++ map pos p)).
      { apply NoDup_map_inv with (f := nm listed us). rewrite Back. exact (NoDup_map_inv _ _ Nf). }
      assert (Lw0 : length w = length (map pos r ++ map pos p)) by (destruct Ow as ((L & _) & _); rewrite map_length in L; rewrite <- map_app, map_length; exact L).
      assert (Az' : forall u, In u (listed us) -> (amount (relabel C ent listed us z) u == q * coef (map pos r ++ map pos p) w (pos u))%Q).
      { intros u Iu. pose proof (relabel_amount C ent listed us Nl z l (pos u) El Ilz (position_lt listed us u Iu)) as Ra. unfold pos in Ra at 1. rewrite (nm_position listed us u Iu) in Ra. rewrite Ra. apply Az. }
      split.
      * intros j u a Eu Ea. assert (Iu : In u (listed us)) by (apply Irp; exact (nth_error_In _ _ Eu)). rewrite (Az' u Iu). rewrite (coef_nth _ _ j (pos u) a Nrp Lw0); [reflexivity| |exact Ea]. rewrite <- map_app, nth_error_map, Eu. reflexivity.
      * intros u Nu. destruct (in_dec Nat.eq_dec u (listed us)) as [Iu|Niu].
        -- rewrite (Az' u Iu), coef_none; [ring|]. rewrite <- map_app. intros I. apply in_map_iff in I as (u' & Eu & I). apply (f_equal (nm listed us)) in Eu. unfold pos in Eu. rewrite !nm_position in Eu by auto. subst u'. exact (Nu I).
        -- apply amount_none. intros e Ie Eu. rewrite (relabel_entries C ent listed us z l El), map_map in Ie. apply in_map_iff in Ie as (i & <- & Ii). cbn in Eu. apply Niu. rewrite <- Eu. apply nm_mem, Ilz. exact Ii.
  - intros T2' T5 T3 T4. refine (Find (map (relabel C ent listed us) zs) _ ltac:(discriminate) _ T1 T2' T5 T3 T4).
    + intros _. etransitivity; [exact E|]. f_equal. rewrite map_map. apply map_ext_in. intros x Ix. destruct (Sound x Ix) as (_ & (l & El & _ & Ml & _) & _). symmetry. exact (relabel_object C ent listed us x l El (Ins l Ml)).
    + intros y Iy. apply in_map_iff in Iy as (x & <- & Ix). destruct (Sound x Ix) as (P0 & (l & El & Nd & Ml & Low) & r & p & Nrp0 & Mr & T & _). pose proof (Ins l Ml) as Il. split; [exact (relabel_plain C ent listed us Nl x l El Il P0)|]. split; [|split].
      * rewrite (relabel_entries C ent listed us x l El). intros E0. apply map_eq_nil, map_eq_nil in E0. subst l. assert (Nr : r <> []).
        { destruct Mr as [(_ & ((_ & Lr) & _))|(Hum & Mr)]; [intros ->; cbn in Lr; lia|exact (kink_not_empty _ _ _ _ _ _ r p (Sense Hum) Mr)]. }
        destruct r as [|i r]; [contradiction|].
        destruct (proj2 (proj1 T (in_set C (with_index pool) i)) (ex_intro _ i (conj (or_introl eq_refl) eq_refl))) as (c & Tc & _). apply in_combine_l in Tc. rewrite El in Tc. destruct Tc.
      * intros e Ie. rewrite (relabel_entries C ent listed us x l El), map_map in Ie. apply in_map_iff in Ie as (i & <- & Ii). exists (nm listed us i). split; [apply Hl, nm_mem, Il; exact Ii|reflexivity].
      * intros c Ic. cbn [relabel x_coeffs] in Ic. destruct (in_combined_r (x_entries x) (x_coeffs x) c (proj1 (proj2 P0)) Ic) as (e & Ie). destruct T as (_ & _ & B & _). specialize (B e c Ie). lra.
Qed.


Theorem any_flow_sound pinv ens nmk smk max find fi ps ts k b net0 paths :
  (forall M v, length (pinv M v) = length M) -> (forall l p, In p (uniq l) -> In p l) ->
  ens <> [] -> (forall en, In en ens -> any_usable en) ->
  (forall outs, Forall2 (fun en xs => outs_of en = Ok xs) ens outs -> sharp (map (set_rxn C) (concat outs))) -> incl (ps ++ ts) entries -> most_stable C ent epa0 entries (ps ++ ts) -> NoDup (ps ++ ts) ->
  (forall i, In i (ps ++ ts) -> exists r p, reacts0 ens r p /\ In i (r ++ p)) ->
  nm_precursors nmk = Some (map form0 ps) -> ps <> [] -> nm_targets nmk = Some (map form0 ts) -> ts <> [] -> nm_k nmk = Some k -> 0 < k -> nm_open nmk = None ->
  sm_precursors smk = map form0 ps -> sm_targets smk = map form0 ts -> sm_open smk = None ->
  post_init C (exact_solve C) (exact_rank C) smk = Ok b -> num_errors b = Some 0 ->
  any_whole_flow C ent solve rank diagram phase_diagram interface pair_order arrange argsort shuffle wait mwait listed members cpus nwait xcost sp xeq (exact_solve C) (exact_rank C) req pinv waits1 waits2 uniq clean cost chunk order ichunk ijobs mchunk mjobs cutoff ub um ens entries nmk smk max find fi = Ok (net0, paths) ->
  exists us rs per es ks kp pool rxns, NoDup us /\ incl us entries
  /\ (forall x, In x rs -> plain x /\ exists en r p, In en ens /\ looks en r p /\ turns C ent r p x)
  /\ Forall2 (fun t pathways => pathways_to xcost rs (map here ps) (here t) k pathways) ts per
  /\ Forall2 (stands_for us) (map here (ps ++ ts)) es /\ length ks = length ps /\ length kp = length ts /\ parts net0 = combine es (ks ++ kp)
  /\ Forall (fun q => (q <= -(1 # 1000000))%Q) ks /\ Forall (fun q => (1 # 1000000 <= q)%Q) kp
  /\ (forall el, (Qabs (ReactionSpec.net C (combine (map form0 (ps ++ ts)) (ks ++ kp)) el) <= 1 # 100000000)%Q)
  /\ lists_entries (fun i => e_comp (ent i)) (fun i => e_energy (ent i)) us pool /\ (forall r, In r rxns -> exists x, on_path rs per x /\ amounts_of us x (turnover r))
  /\ ((forall targets mids xb xm, targets_of net0 = Ok targets -> intermediates C order pool rxns targets = Ok mids ->
         (if ub then basic_objects C (exact_solve C) (exact_rank C) diagram wait ichunk ijobs pool mids (map e_id targets) else Ok []) = Ok xb ->
         (if um then min_objects C (exact_solve C) (exact_rank C) (diagram_for phase_diagram (with_index pool)) (kinks_for interface (with_index pool)) pair_order mwait mchunk mjobs pool mids (map e_id targets) else Ok []) = Ok xm -> sharp (map (set_rxn C) (xb ++ xm))) ->
      (um = true -> kinks_make_sense C pool rxns net0 (diagram_for phase_diagram (with_index pool)) (kinks_for interface (with_index pool))) ->
      forall q, In q paths -> exists ms steps, p_coeffs q = Some ms /\ length ms = length steps /\ 1 <= length steps <= max /\ Forall (fun m => (1 # 1000000 <= m)%Q) ms
      /\ Forall2 makes_amounts (p_rxns q) steps
      /\ (forall a, In a steps -> (exists x, on_path rs per x /\ amounts_of us x a)
            \/ find = true /\ exists r p y, ((ub = true /\ might_react C pool rxns net0 r p) \/ (um = true /\ kink_between C pool rxns net0 (diagram_for phase_diagram (with_index pool)) (kinks_for interface (with_index pool)) r p)) /\ turns_into C r p y /\ of_entries pool y /\ (distinct C (parts y) -> low C cutoff (parts y)) /\ forall i, (a i == turnover y i)%Q)
      /\ forall i, (Qabs (total ms steps i - turnover net0 i) <= (1 # 100000000) + (1 # 100000) * Qabs (turnover net0 i))%Q).
Proof.
  intros Hpinv Hun Hens Us Sh Hincl Hst Nd Hin Ep Hps Et Hts Ek Hk Eno Sp St Eso Pi Ze H.
  destruct (any_handed_on ens ps ts Hens Us Sh Hincl Hst Hin) as (s & out & E & G & Good & Comp & (Sho & Hmu) & Hu & Hf & Hre & Hlow).
  unfold any_whole_flow in H. change (diagram_of phase_diagram ent) with build in H. change (kinks_of interface ent) with kinks in H. rewrite E in H. cbn [bind] in H.
  destruct (chain_sound_with C W (fun i => e_comp (ent i)) (fun i => e_energy (ent i)) listed members Hlisted Hmembers arrange Harr argsort Harg shuffle Hsh cpus Hcpus nwait Hnw xcost Hcost sp Hsp xeq Hxeq (exact_solve C) (exact_rank C) (LinProofs.exact_solve_length C) req pinv
    waits1 waits2 uniq clean cost inter0 chunk Hw1 Hw2 Hpinv Hun nmk smk max find fi [s] [out] (map form0 ps) (map form0 ts) k b net0 paths) as (us & rs & m & pe & te & per & pool & rxns & Nus & Ius & Fam & Hm0 & Lp & Lt & Path & (gs & gt & es & ks & kp & L1 & L2 & Std & K1 & K2 & Pn & F1 & F2 & Cons) & Env & Lst & Only & Rx & Bal);
    rewrite ?only_set; try assumption.
  - constructor; [exact G|constructor].
  - intros x Ix. apply (Good x Ix).
  - destruct ps; [contradiction|discriminate].
  - destruct ts; [contradiction|discriminate].
  - rewrite <- map_app. exact (form_once C ent entries (ps ++ ts) Hincl Hst Nd).
  - intros f If. rewrite <- map_app in If. apply in_map_iff in If as (i & <- & _). apply (wf_red_red C W).
  - rewrite only_set in Ius, Fam, Hm0, Lp, Lt, L1, L2. rewrite map_length in K1, K2. rewrite <- map_app in Cons. rewrite Eso in Env.
    assert (Ips : incl ps (ps ++ ts)) by (intros i I; apply in_app_iff; left; exact I). assert (Its : incl ts (ps ++ ts)) by (intros i I; apply in_app_iff; right; exact I).
    apply Hlow in Lp as ->; [|exact Ips]. apply Hlow in Lt as ->; [|exact Its]. apply Hlow in L1 as ->; [|exact Ips]. apply Hlow in L2 as ->; [|exact Its]. rewrite <- map_app in Std.
    assert (Nl : NoDup (listed us)) by exact (Permutation_NoDup (Permutation_sym (Hlisted us Nus)) Nus).
    assert (Hl : forall u, In u (listed us) -> In u entries).
    { intros u Iu. apply (Permutation_in _ (Hlisted us Nus)), Ius in Iu as (e & Ie & <-). apply in_flat_map in Ie as (x & Ix & Ie). destruct (Good x Ix) as (_ & He & _). destruct (He e Ie) as (i & Ii & ->). exact Ii. }
    assert (Rs : forall x, In x rs -> plain x /\ x_mu x = None).
    { intros x Ix. destruct (proj1 (proj2 Fam) x Ix) as (y & Iy & ->). split; [apply (Good y Iy)|exact (proj2 Hm0 Eno Hmu)]. }
    assert (Hw0 : forall x, on_path rs per x -> In x rs).
    { intros x (p & xs & _ & Gt & I). clear - Gt I. revert I. induction Gt as [|pc y p xs ((n & _ & E) & _) _ IH]; intros I; [destruct I|]. destruct I as [<-|I]; [exact (nth_error_In _ _ E)|exact (IH I)]. }
    exists (listed us), rs, per, es, ks, kp, pool, rxns. split; [exact Nl|]. split; [exact Hl|].
    split; [exact (any_rs_turn out m rs ens Fam Good)|]. split.
    { clear -Path. revert per Path. induction ts as [|t l IH]; intros per Path; cbn [map] in Path; inversion Path; subst; constructor; [assumption|apply IH; assumption]. }
    repeat (split; [assumption|]). split; [intros r Ir; destruct (Rx r Ir) as (x & Ox & Ax & _); exists x; auto|]. intros Shs Sense.
    assert (At : forall i e, nth_error pool i = Some e -> exists u, nth_error (listed us) i = Some u /\ e_comp e = e_comp (ent u) /\ e_energy e = e_energy (ent u)).
    { intros i e Ee. destruct (nth_r _ _ _ (proj1 Lst) i e Ee) as (u & Eu & (Ec & En)). exists u. auto. }
    assert (Nm : forall r, (exists c, r = RComputed c) -> only_entries pool r -> names_entries pool r).
    { intros r (c0 & ->) O. split; [discriminate|]. intros e q I. pose proof (O _ I) as Ie. cbn [fst] in Ie. apply In_nth_error in Ie as (i & Ei). exists e. split; [|reflexivity]. rewrite (proj2 Lst i e Ei). exact Ei. }
    assert (Cr : forall r, In r rxns -> exists c, r = RComputed c /\ length (coeffs (c_base c)) = length (c_entries c)).
    { intros r Ir. destruct (Rx r Ir) as (x & Ox & _ & ->). destruct (Rs x (Hw0 x Ox)) as ((_ & Lc & _) & Mx). unfold rxn_of. rewrite Mx. eexists. split; [reflexivity|]. cbn. rewrite map_length. exact Lc. }
    assert (Tg : exists i, target net0 i).
    { assert (Lts : 0 < length ts) by (clear -Hts; destruct ts; [contradiction|cbn; lia]). destruct (nth_error (ks ++ kp) (length ps)) as [q|] eqn:Eq; [|apply nth_error_None in Eq; rewrite app_length in Eq; lia].
      pose proof (Forall2_length _ _ _ Std) as Les. rewrite map_length, app_length in Les. destruct (nth_error es (length ps)) as [e|] eqn:Ee; [|apply nth_error_None in Ee; lia]. exists (e_id e), e, q. split; [|split; [|reflexivity]].
      - rewrite Pn. apply (nth_error_In _ (length ps)), nth_combine. auto.
      - rewrite nth_error_app2 in Eq by lia. apply nth_error_In in Eq. rewrite Forall_forall in F2. specialize (F2 q Eq). lra. }
    assert (Sp0 : exists zs, inter0 pool rxns net0 = Ok (map (fun x => RComputed (object_of C pool x)) zs)
      /\ forall z, In z zs -> NoDup (map (fun ek => e_id (fst ek)) (parts (RComputed (object_of C pool z)))) /\ exists r p, ((ub = true /\ might_react C pool rxns net0 r p) \/ (um = true /\ kink_between C pool rxns net0 (diagram_for phase_diagram (with_index pool)) (kinks_for interface (with_index pool)) r p)) /\ turns_into C r p (RComputed (object_of C pool z)) /\ of_entries pool (RComputed (object_of C pool z)) /\ (distinct C (parts (RComputed (object_of C pool z))) -> low C cutoff (parts (RComputed (object_of C pool z))))).
    { assert (H1 : forall i e, nth_error pool i = Some e -> e_id e = i) by exact (proj2 Lst).
      assert (H2 : forall i e, nth_error pool i = Some e -> ReactionModel.elems C (e_comp e) <> []) by (intros i e Ee; destruct (At i e Ee) as (u & Eu & -> & _); apply Hel, Hl; exact (nth_error_In _ _ Eu)).
      assert (H3 : names_entries pool net0) by (apply Nm; [destruct net0; cbn in Env; try contradiction; eexists; reflexivity|apply Only; left; reflexivity]).
      assert (H4 : forall r, In r rxns -> names_entries pool r) by (intros r Ir; apply Nm; [destruct (Cr r Ir) as (c & Ec & _); exists c; exact Ec|apply Only; right; exact Ir]).
      assert (H5 : forall r, In r rxns -> each_with_amount r) by (intros r Ir c Hc; destruct (Cr r Ir) as (c' & -> & Lc); destruct Hc as [Ec|(? & Ec)]; [injection Ec as <-; exact Lc|discriminate]).
      assert (H6 : forall i j a c, target net0 i -> intermediate C pool rxns net0 j -> nth_error pool i = Some a -> nth_error pool j = Some c -> red C (e_comp c) = red C (e_comp a) -> j = i \/ (e_energy a / natoms C (e_comp a) < e_energy c / natoms C (e_comp c))%Q).
      { intros i j a c Ti _ Ea Ec Er. destruct (At i a Ea) as (u & Eu & Eau & Enu), (At j c Ec) as (w & Ew & Ecw & Enw). rewrite Eau, Ecw, Enu, Enw in *.
        assert (Iu : In u ts).
        { destruct Ti as (e & q & I & Hq & Ei). rewrite Pn in I. apply In_nth_error in I as (n & En). apply nth_combine in En as (Ee & Eq). destruct (nth_r _ _ _ Std n e Ee) as (h & Eh & Sh0). rewrite nth_error_map in Eh. destruct (nth_error (ps ++ ts) n) as [u'|] eqn:Eu'; [|discriminate]. injection Eh as <-.
          destruct Sh0 as (Su & _). cbn in Su. rewrite Ei, Eu in Su. injection Su as <-. destruct (Nat.lt_ge_cases n (length ps)) as [L|Ge].
          - exfalso. rewrite nth_error_app1 in Eq by lia. apply nth_error_In in Eq. rewrite Forall_forall in F1. specialize (F1 q Eq). lra.
          - rewrite nth_error_app2 in Eu' by exact Ge. exact (nth_error_In _ _ Eu'). }
        destruct (Hst u w) as [H0|H0]; [apply in_app_iff; right; exact Iu|apply Hl; exact (nth_error_In _ _ Ew)|exact Er| |right; exact H0]. left. subst w.
        apply (proj1 (NoDup_nth_error (listed us)) Nl); [apply nth_error_Some; rewrite Ew; discriminate|congruence]. }
      destruct (options_search C W Hbig pool H1 H2 rxns net0 H3 H4 H5 H6 Tg diagram wait Hw (diagram_for phase_diagram (with_index pool)) (kinks_for interface (with_index pool)) pair_order Hpair mwait Hmw arrange Harr argsort Harg shuffle Hsh order Hord ichunk ijobs mchunk mjobs Hic Hij Hmc Hmj cutoff ub um Sense (fun _ => tidy_here _) Shs) as (zs & Ez & Sound & _). exists zs. split; [exact Ez|].
      intros z Iz. destruct (Sound z Iz) as (P0 & (l & El & Nd0 & Ml & Low) & r & p & Nrp & Mr & T & _). pose proof (object_parts C pool z l El) as Op. split.
      - rewrite Op. rewrite <- (map_map fst e_id), map_fst_combined by (rewrite map_length; destruct P0 as (_ & L & _); rewrite L, El, map_length; reflexivity). rewrite map_map, (map_ext _ (fun i => i)), map_id; [exact Nd0|]. intros i. exact (ent_id pool H1 i).
      - exists r, p. split; [exact Mr|]. split; [exact (turns_turnover C pool H1 z l r p P0 El T Nrp)|]. split; [|rewrite Op; intros Nf; apply Low; unfold distinct in Nf; rewrite <- (map_map fst (fun e => red C (e_comp e))), map_fst_combined, map_map in Nf by (rewrite map_length; destruct P0 as (_ & L & _); rewrite L, El, map_length; reflexivity); exact Nf].
        exists (object_of C pool z). split; [reflexivity|]. rewrite (object_items C pool z l El). cbn [c_base c_entries computed_init coeffs basic_init]. split; [rewrite map_length; destruct P0 as (_ & L & _); rewrite L, El, map_length; reflexivity|].
        intros e I. apply in_map_iff in I as (i & <- & I). rewrite (ent_id pool H1 i). exact (mid_some C pool rxns net0 H3 H4 i (Ml i I)). }
    destruct Sp0 as (zs & Ez & Hz). intros q Iq.
    destruct (Bal) with (p := q) as (ms & steps & B1 & B2 & B3 & B4 & B5 & B6 & B7); [|exact Iq|].
    + intros l r El Ir. rewrite Ez in El. injection El as <-. apply in_map_iff in Ir as (z & <- & Iz). apply (Hz z Iz).
    + exists ms, steps. repeat (split; [assumption|]). split; [|exact B7]. intros a Ia. destruct (B6 a Ia) as [O|(Ef & l & r & El & Ir & Ea)]; [left; exact O|right]. split; [exact Ef|].
      rewrite Ez in El. injection El as <-. apply in_map_iff in Ir as (z & <- & Iz). destruct (Hz z Iz) as (_ & r & p & Mr & T & Of & Low). exists r, p, (RComputed (object_of C pool z)). auto.
Qed.
End Flow.
