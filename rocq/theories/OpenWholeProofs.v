(* The whole flow with an open element. *)
From Coq Require Import Lqa.
From Verif Require Import Prelude NumQ SumQ ListFacts UtilsModel UtilsSpec ReactionModel ReactionSpec ReactionBaseProofs RxnSetModel RxnSetSpec PathModel PathSpec SolverModel SolverSpec
  NetModel YenModel YenSpec FlowModel NetJobModel NetJobSpec SolveJobModel SolveJobSpec SolveJobProofs EnumModel EnumSpec EnumLinkModel LinModel LinSpec LinProofs LinBalanceProofs PinvModel PinvProofs CapSpec CapProofs
  RunModel ChainModel ChainSpec ChainProofs ChainFindSpec ChainFindProofs JoinModel JoinSpec JoinProofs WholeModel WholeProofs IntModel IntSpec CoefProofs IntProofs IntFlowSpec IntFlowProofs
  MinModel MinSpec MinJoinModel MinJoinSpec MinJoinProofs IntMinModel IntMinSpec IntMinProofs AnyWholeModel AnyWholeSpec AnyWholeProofs IntOpenModel IntOpenSpec IntOpenProofs OpenWholeModel OpenWholeSpec.
Open Scope nat_scope.

(* --- gas among the numbered entries --- *)
Section Gas.
Variable C : chem.
Variable ent : nat -> entry.
Variable listed : list nat -> list nat.
Variable us ts : list nat.
Hypothesis Nl : NoDup (listed us).
Notation lus := (listed us).
Notation pool := (numbered (fun i => e_comp (ent i)) (fun i => e_energy (ent i)) listed us).
Notation nm := (nm listed us).
Notation inside := (inside listed us).
Notation pos := (fun u => position u lus).
Variable rxns : list rxn.
Variable net0 : rxn.
Variable way : nat -> Prop.
Notation mid := (intermediate C pool rxns net0).
Hypothesis Way : forall u, way u -> In u lus.
Hypothesis MW : forall i, mid i <-> i < length lus /\ way (nm i).
Hypothesis TI : forall i, target net0 i <-> exists u, nth_error lus i = Some u /\ In u ts.
Variable gas : nat.
Notation els := (fun u => ReactionModel.elems C (e_comp (ent u))).

Lemma gas_nm i : i < length lus -> (is_gas C pool gas i <-> gaseous_phase C ent gas (nm i)).
Proof. intros L. unfold is_gas, gaseous_phase. rewrite (meet_formula C ent listed us i L). reflexivity. Qed.
Lemma gas_way i : mid i -> (is_gas C pool gas i <-> gaseous_phase C ent gas (nm i)).
Proof. intros M. apply gas_nm. apply MW in M. apply M. Qed.
Lemma pos_mid u : way u -> mid (pos u) /\ (is_gas C pool gas (pos u) <-> gaseous_phase C ent gas u).
Proof.
  intros Wu. pose proof (Way u Wu) as Iu. assert (M : mid (pos u)) by (apply MW; rewrite nm_position by exact Iu; split; [apply position_lt; exact Iu|exact Wu]).
  split; [exact M|]. rewrite (gas_way _ M), nm_position by exact Iu. reflexivity.
Qed.
Lemma solids_nm c : few_solids C pool rxns net0 gas c -> inside c /\ solid_phases C ent way gas (map nm c).
Proof.
  intros ((N & L) & H). assert (Ic : inside c) by (intros i I; apply MW, H; exact I). split; [exact Ic|]. split; [split; [apply map_nm_nodup; assumption|rewrite map_length; exact L]|].
  intros u I. apply in_map_iff in I as (i & <- & I). destruct (H i I) as (M & G). split; [apply MW; exact M|]. rewrite <- (gas_way i M). exact G.
Qed.
Lemma gases_nm c : some_gas C pool rxns net0 gas c -> inside c /\ gas_phases C ent way gas (map nm c).
Proof.
  intros (N & Ne & H). assert (Ic : inside c) by (intros i I; apply MW, H; exact I). split; [exact Ic|]. split; [apply map_nm_nodup; assumption|]. split; [destruct c; [contradiction|discriminate]|].
  intros u I. apply in_map_iff in I as (i & <- & I). destruct (H i I) as (M & G). split; [apply MW; exact M|]. rewrite <- (gas_way i M). exact G.
Qed.
Lemma added_nm r p : with_gas_added C pool rxns net0 gas r p -> inside r /\ inside p /\ plus_gas C ent way gas (map nm r) (map nm p).
Proof.
  intros (Sr & c & oc & Sc & Go & Pm). destruct (solids_nm r Sr) as (Ir & Sr'). destruct (solids_nm c Sc) as (Ic & Sc'). destruct (gases_nm oc Go) as (Io & Go'). split; [exact Ir|]. split.
  - intros i I. apply (Permutation_in _ Pm) in I. apply in_app_iff in I as [I|I]; [exact (Ic i I)|exact (Io i I)].
  - split; [exact Sr'|]. exists (map nm c), (map nm oc). split; [exact Sc'|]. split; [exact Go'|]. rewrite <- map_app. apply Permutation_map. exact Pm.
Qed.
Lemma breathes r p : gas_reacts C pool rxns net0 gas r p -> inside r /\ inside p /\ could_breathe C ent way ts gas (map nm r) (map nm p).
Proof.
  intros (Side & Di & (t & It & Tt & Gt) & l & N & L & Hl).
  assert (S : inside r /\ inside p /\ (plus_gas C ent way gas (map nm r) (map nm p) \/ plus_gas C ent way gas (map nm p) (map nm r))).
  { destruct Side as [S|S]; destruct (added_nm _ _ S) as (I1 & I2 & S'); auto. }
  destruct S as (Ir & Ip & S). split; [exact Ir|]. split; [exact Ip|]. split; [exact S|]. split; [|split].
  - intros u I J. apply in_map_iff in I as (i & <- & I). apply (in_map_nm listed us Nl i p Ip (Ir i I)) in J. exact (Di i I J).
  - exists (nm t). split; [apply in_map; exact It|]. split; [apply TI in Tt as (u & Eu & Iu); rewrite (nm_some listed us t u Eu); exact Iu|]. rewrite <- (gas_nm t (Ip t It)). exact Gt.
  - exists l. split; [exact N|]. split; [exact L|]. intros el. rewrite Hl. split.
    + intros (i & H & O). assert (Li : i < length lus) by (destruct H as [I|(M & _)]; [exact (Ir i I)|apply MW; exact M]). exists (nm i). split; [|apply (meet_occurs C ent listed us i el Li); exact O].
      destruct H as [I|(M & G)]; [left; apply in_map; exact I|right]. split; [apply MW; exact M|apply (gas_way i M); exact G].
    + intros (u & H & O). destruct H as [I|(Wu & G)].
      * apply in_map_iff in I as (i & <- & I). exists i. split; [left; exact I|]. apply (meet_occurs C ent listed us i el (Ir i I)). exact O.
      * pose proof (Way u Wu) as Iu. destruct (pos_mid u Wu) as (M & Gu). exists (pos u). split; [right; split; [exact M|apply Gu; exact G]|]. apply (meet_occurs C ent listed us _ el (position_lt listed us u Iu)). rewrite nm_position by exact Iu. exact O.
Qed.

Lemma nodup_pos l : NoDup l -> (forall u, In u l -> In u lus) -> NoDup (map pos l).
Proof. intros N H. apply NoDup_map_inv with (f := nm). rewrite map_nm_position by exact H. exact N. Qed.
Lemma solids_pos c : solid_phases C ent way gas c -> (forall u, In u c -> In u lus) /\ few_solids C pool rxns net0 gas (map pos c).
Proof.
  intros ((N & L) & H). assert (Ic : forall u, In u c -> In u lus) by (intros u I; apply Way, H; exact I). split; [exact Ic|]. split; [split; [apply nodup_pos; assumption|rewrite map_length; exact L]|].
  intros i I. apply in_map_iff in I as (u & <- & I). destruct (H u I) as (M & G). destruct (pos_mid u M) as (M' & G'). split; [exact M'|]. rewrite G'. exact G.
Qed.
Lemma gases_pos c : gas_phases C ent way gas c -> (forall u, In u c -> In u lus) /\ some_gas C pool rxns net0 gas (map pos c).
Proof.
  intros (N & Ne & H). assert (Ic : forall u, In u c -> In u lus) by (intros u I; apply Way, H; exact I). split; [exact Ic|]. split; [apply nodup_pos; assumption|]. split; [destruct c; [contradiction|discriminate]|].
  intros i I. apply in_map_iff in I as (u & <- & I). destruct (H u I) as (M & G). destruct (pos_mid u M) as (M' & G'). split; [exact M'|]. rewrite G'. exact G.
Qed.
Lemma added_pos r p : plus_gas C ent way gas r p -> (forall u, In u r -> In u lus) /\ (forall u, In u p -> In u lus) /\ with_gas_added C pool rxns net0 gas (map pos r) (map pos p).
Proof.
  intros (Sr & c & oc & Sc & Go & Pm). destruct (solids_pos r Sr) as (Ir & Sr'). destruct (solids_pos c Sc) as (Ic & Sc'). destruct (gases_pos oc Go) as (Io & Go'). split; [exact Ir|]. split.
  - intros i I. apply (Permutation_in _ Pm) in I. apply in_app_iff in I as [I|I]; [exact (Ic i I)|exact (Io i I)].
  - split; [exact Sr'|]. exists (map pos c), (map pos oc). split; [exact Sc'|]. split; [exact Go'|]. rewrite <- map_app. apply Permutation_map. exact Pm.
Qed.
Lemma breathes_back r p : could_breathe C ent way ts gas r p -> (forall u, In u (r ++ p) -> In u lus) /\ gas_reacts C pool rxns net0 gas (map pos r) (map pos p).
Proof.
  intros (Side & Di & (t & It & Tt & Gt) & l & N & L & Hl).
  assert (S : (forall u, In u r -> In u lus) /\ (forall u, In u p -> In u lus) /\ (with_gas_added C pool rxns net0 gas (map pos r) (map pos p) \/ with_gas_added C pool rxns net0 gas (map pos p) (map pos r))).
  { destruct Side as [S|S]; destruct (added_pos _ _ S) as (I1 & I2 & S'); auto. }
  destruct S as (Ir & Ip & S). split; [intros u I; apply in_app_iff in I as [I|I]; [exact (Ir u I)|exact (Ip u I)]|]. split; [exact S|]. split; [|split].
  - intros i I J. apply in_map_iff in I as (u & <- & I). apply in_map_iff in J as (w & E & J). apply (Di u I). apply (f_equal nm) in E. rewrite !nm_position in E by auto. subst w. exact J.
  - exists (pos t). split; [apply (in_map pos); exact It|]. split; [apply TI; exists t; split; [apply position_nth, Ip; exact It|exact Tt]|]. rewrite (gas_nm _ (position_lt listed us t (Ip t It))), nm_position by (apply Ip; exact It). exact Gt.
  - exists l. split; [exact N|]. split; [exact L|]. intros el. rewrite Hl. split.
    + intros (u & H & O). assert (Iu : In u lus) by (destruct H as [I|(Wu & _)]; [exact (Ir u I)|exact (Way u Wu)]). exists (pos u). split; [|apply (meet_occurs C ent listed us _ el (position_lt listed us u Iu)); rewrite nm_position by exact Iu; exact O].
      destruct H as [I|(Wu & G)]; [left; apply (in_map pos); exact I|right]. destruct (pos_mid u Wu) as (M & Gu). split; [exact M|apply Gu; exact G].
    + intros (i & H & O). destruct H as [I|(M & G)].
      * apply in_map_iff in I as (u & <- & I). exists u. split; [left; exact I|]. apply (meet_occurs C ent listed us _ el (position_lt listed us u (Ir u I))) in O. rewrite nm_position in O by (apply Ir; exact I). exact O.
      * exists (nm i). assert (Li : i < length lus) by (apply MW; exact M). split; [right; split; [apply MW; exact M|apply (gas_way i M); exact G]|]. apply (meet_occurs C ent listed us i el Li). exact O.
Qed.

(* --- the energies --- *)
Lemma relabel_grand_low el mu l v cutoff : inside l -> (grand_low C el mu cutoff (combine (map (with_index pool) l) v) <-> grand_low C el mu cutoff (combine (map ent (map nm l)) v)).
Proof.
  intros H. assert (Eh : (grand_heat C el mu (combine (map (with_index pool) l) v) == grand_heat C el mu (combine (map ent (map nm l)) v))%Q).
  { unfold grand_heat. rewrite map_map, !combine_map_l, !sumQ_map. apply sumQ_ext. intros [i k] I. cbn [fst snd]. rewrite (pool_at ent listed us i (H i (in_combine_l _ _ _ _ I))). reflexivity. }
  assert (Ea : (others_made C el (combine (map (with_index pool) l) v) == others_made C el (combine (map ent (map nm l)) v))%Q).
  { unfold others_made. rewrite map_map, !combine_map_l, !sumQ_map. apply sumQ_ext. intros [i k] I. cbn [fst snd]. rewrite (pool_at ent listed us i (H i (in_combine_l _ _ _ _ I))). reflexivity. }
  unfold grand_low. rewrite Eh, Ea. reflexivity.
Qed.
End Gas.

Lemma breathes_filled C ents rxns net0 gas r p : gas_reacts C ents rxns net0 gas r p -> r <> [].
Proof.
  intros ([(((_ & L) & _) & _)|(_ & c & oc & ((_ & L) & _) & _ & Pm)] & _) ->; [cbn in L; lia|]. apply Permutation_nil, app_eq_nil in Pm as (-> & _). cbn in L. lia.
Qed.

(* --- the flow --- *)
Section Flow.
Variable C : chem.
Hypothesis W : wf_chem C.
Hypothesis Hbig : forall c e, In e (ReactionModel.elems C c) -> (1 # 100 < amt C (red C c) e)%Q.
Variable ent : nat -> entry.
Hypothesis Hid : forall i, e_id (ent i) = i.
Context {D PD : Type}.
Variable diagram : list nat -> D.
Variable wait : nat -> list (list (list (list nat * list nat) * D)) -> list (list (list (list nat * list nat) * D)) * list (list (list (list nat * list nat) * D)).
Hypothesis Hw : valid_schedule wait.
Variable owait : nat -> list (list (list (list nat * list nat) * D)) -> list (list (list (list nat * list nat) * D)) * list (list (list (list nat * list nat) * D)).
Hypothesis Hwo : valid_schedule owait.
Variable phase_diagram : list (nat * Q) -> result PD.
Variable interface : PD -> nat -> nat -> result (list (list nat * list nat)).
Hypothesis Htidy : forall pd a b ks kink, interface pd a b = Ok ks -> In kink ks -> NoDup (fst kink) /\ NoDup (snd kink) /\ (disjoint (fst kink) (snd kink) \/ exists f, kink = ([f], [f])).
Variable pair_order : list nat -> list nat.
Hypothesis Hpair : forall l, Permutation (pair_order l) l.
Variable mwait : nat -> list (list (list (list nat * list nat) * option (list nat * PD))) ->
  list (list (list (list nat * list nat) * option (list nat * PD))) * list (list (list (list nat * list nat) * option (list nat * PD))).
Hypothesis Hmw : valid_schedule mwait.
Variable entries : list nat.
Hypothesis Hn : NoDup entries.
Hypothesis Hne : entries <> [].
Hypothesis Hel : forall e, In e entries -> ReactionModel.elems C (e_comp (ent e)) <> [].
Notation build := (diagram_for phase_diagram ent).
Notation kinks := (kinks_for interface ent).
Hypothesis Hgood : good_interfaces (fun i => ReactionModel.elems C (e_comp (ent i))) (fun i => red C (e_comp (ent i))) build kinks entries [].
Variable arrange : list sentry -> list sentry.
Hypothesis Harr : arranges arrange.
Variable argsort : list Q -> list nat.
Hypothesis Harg : forall l, Permutation (argsort l) (seq 0 (length l)).
Variable shuffle : list nat -> list nat.
Hypothesis Hsh : forall l, Permutation (shuffle l) l.
Variable listed members : list nat -> list nat.
Hypothesis Hlisted : forall us, NoDup us -> Permutation (listed us) us.
Hypothesis Hmembers : forall us, Permutation (members us) (seq 0 (length us)).
Variable cpus : nat.
Hypothesis Hcpus : 2 <= cpus.
Variable nwait : nat -> list (nat * list (option (list nat)) * result (list nat)) ->
  list (nat * list (option (list nat)) * result (list nat)) * list (nat * list (option (list nat)) * result (list nat)).
Hypothesis Hnw : valid_schedule nwait.
Variable xcost : srxn -> Q.
Hypothesis Hcost : forall r, (0 <= xcost r)%Q.
Variable sp : (payload -> Q) -> list (nat * nat * payload) -> nat -> nat -> option (list nat).
Hypothesis Hsp : forall weight, shortest weight (sp weight).
Variable xeq : srxn -> srxn -> bool.
Hypothesis Hxeq : forall r, xeq r r = true.
Variable req : rxn -> rxn -> bool.
Variable waits1 waits2 : nat -> nat -> list nat -> list nat * list nat.
Variable uniq : list (path rxn) -> list (path rxn).
Variable clean : list rxn -> list rxn.
Variable cost : rxn -> Q.
Variable chunk : nat.
Hypothesis Hw1 : forall k, valid_schedule (waits1 k).
Hypothesis Hw2 : forall k, valid_schedule (waits2 k).
Variable rhash : rxn -> nat.
Hypothesis Hreq : forall r, req r r = true.
Hypothesis Huniq : set_members req rhash uniq.
Hypothesis Hnone : uniq [] = [].
Hypothesis Hclean : keeps_all req clean.
Hypothesis Hchunk : 1 <= chunk.
Variable order : list nat -> list nat.
Hypothesis Hord : forall l, Permutation (order l) l.
Variable ichunk ijobs : nat.
Hypothesis Hic : 1 <= ichunk.
Hypothesis Hij : 1 <= ijobs.
Variable mchunk mjobs : nat.
Hypothesis Hmc : 1 <= mchunk.
Hypothesis Hmj : 1 <= mjobs.
Variables ub um : bool.
Variable cutoff : Q.
Variable gas_of : nat -> nat.
Variable grand : nat -> Q -> list entry -> list nat -> list nat -> result rset.
Notation solve := (entry_solve C ent).
Notation rank := (entry_rank C ent).
Notation here := (in_set C ent).
Notation form0 := (fun i => red C (e_comp (ent i))).
Notation inter0 := (search_between C diagram phase_diagram interface pair_order arrange argsort shuffle wait owait mwait (exact_solve C) (exact_rank C) order ichunk ijobs mchunk mjobs cutoff ub um gas_of grand).
Notation epa0 := (fun u => e_energy (ent u) / natoms C (e_comp (ent u)))%Q.
Notation on_path rs per := (on_pathways xcost rs (concat per)).

Notation outs_of := (any_enumerated C ent solve rank diagram build kinks pair_order epa0 wait mwait entries).
Notation looks := (any_looks C ent build kinks epa0 entries).
Notation finds := (any_finds C ent build kinks epa0 entries).
Notation reacts0 := (any_reacts C ent build kinks epa0 entries).
Lemma tidy_open of : tidy_kinks (kinks_for interface of).
Proof. intros pd a b ks kink E I. exact (Htidy pd _ _ ks kink E I). Qed.
Lemma each_one a : any_usable a -> exists xs, outs_of a = Ok xs
  /\ (forall x, In x xs -> plain (set_rxn C x) /\ (forall e, In e (x_entries (set_rxn C x)) -> exists i, In i entries /\ e = here i) /\ exists r p, looks a r p /\ turns C ent r p (set_rxn C x))
  /\ forall r p, finds a r p -> exists x, In x xs /\ turns C ent r p (set_rxn C x).
Proof. exact (any_spec C W Hbig ent Hid build kinks pair_order Hpair epa0 mwait Hmw entries Hn Hel Hgood (tidy_open ent) diagram wait Hw a). Qed.
Lemma looks_filled a r p : looks a r p -> r <> [].
Proof.
  destruct a as [en|m]; cbn [any_looks]; [intros L; exact (proj1 (looks_some C ent entries en r p L))|].
  intros ((c & s & pd & a & b & ks & kink & (Cb & _ & k & Hk & Hs & Eb) & En & Ek & Ik & F1 & _) & _). destruct (Hgood c k s Cb Hk Hs) as (pd' & Eb' & H). rewrite Eb in Eb'. injection Eb' as <-.
  assert (Iab : In a c /\ In b c) by (destruct En as [[-> ->]|[->| ->]]; cbn; auto). destruct (H a b (proj1 Iab) (proj2 Iab)) as (ks' & Ek' & Hk'). rewrite Ek in Ek'. injection Ek' as <-. destruct (Hk' kink Ik) as (N & _). intros ->. inversion F1. congruence.
Qed.

Definition nearly_met (ens : list any_enumerator) (more : list (list srxn)) : Prop :=
  forall outs, Forall2 (fun en xs => outs_of en = Ok xs) ens outs -> sharp (map (set_rxn C) (concat outs) ++ concat more).

(* What the enumeration and the further sets hand on. *)
Lemma both_handed_on ens more ps ts : ens <> [] -> (forall en, In en ens -> any_usable en) -> nearly_met ens more -> (forall x, In x (concat more) -> among C ent entries x) ->
  incl (ps ++ ts) entries -> most_stable C ent epa0 entries (ps ++ ts) -> (forall i, In i (ps ++ ts) -> (exists r p, reacts0 ens r p /\ In i (r ++ p)) \/ exists y, In y (concat more) /\ In (here i) (x_entries y)) ->
  exists s out, any_enumeration C ent solve rank diagram build kinks pair_order epa0 arrange argsort shuffle wait mwait ens entries = Ok (Some s) /\ get_rxns s = Ok out
  /\ let given := concat (out :: more) in
     (forall x, In x given -> among C ent entries x)
  /\ (forall x, In x given -> (exists en r p, In en ens /\ looks en r p /\ turns C ent r p x) \/ In x (concat more))
  /\ (forall r p, reacts0 ens r p -> exists x, In x given /\ turns C ent r p x)
  /\ sharp given
  /\ (forall x y, In x (all_entries given) -> In y (all_entries given) -> uid x = uid y -> x = y)
  /\ (forall r e, In r given -> In e (x_entries r) -> comp e = e_comp (ent (uid e)) /\ form e = red C (comp e))
  /\ (forall f, In f (map form0 ps ++ map form0 ts) -> exists r e, In r given /\ In e (x_entries r) /\ form e = f)
  /\ (forall l l', incl l (ps ++ ts) -> Forall2 (lowest epa0 given) (map form0 l) l' -> l' = map here l).
Proof.
  intros Hens Us Sh Hmore Hincl Hform Hin.
  destruct (general_enumeration_from C ent Hid entries Hn Hne arrange Harr argsort Harg shuffle Hsh outs_of any_duplicates any_usable looks finds each_one ens Hens Us) as (s & out & E & G & _ & Good & Comp & _ & _ & _ & outs & Fo & Io).
  { intros outs Fo. apply (sharp_incl _ _ (incl_appl (concat more) (incl_refl (map (set_rxn C) (concat outs))))). exact (Sh outs Fo). }
  exists s, out. split; [exact E|]. split; [exact G|]. cbn zeta. cbn [concat]. set (given := out ++ concat more).
  assert (Am : forall x, In x given -> among C ent entries x).
  { intros x Ix. apply in_app_iff in Ix as [Ix|Ix]; [|exact (Hmore x Ix)]. destruct (Good x Ix) as (en & _ & P & He & r & p & L & T). split; [exact P|]. split; [exact He|]. exists r, p. split; [exact (looks_filled en r p L)|exact T]. }
  assert (Hent : forall x e, In x given -> In e (x_entries x) -> exists i, In i entries /\ e = here i) by (intros x e Ix; apply (Am x Ix)).
  assert (Comp' : forall r p, reacts0 ens r p -> exists x, In x given /\ turns C ent r p x).
  { intros r p (en & Ie & L). destruct (Comp en r p Ie L) as (x & Ix & T). exists x. split; [apply in_app_iff; left; exact Ix|exact T]. }
  assert (Has : forall i, In i (ps ++ ts) -> exists x, In x given /\ In (here i) (x_entries x)).
  { intros i Ii. destruct (Hin i Ii) as [(r & p & Fd & Irp)|(y & Iy & Ie)]; [|exists y; split; [apply in_app_iff; right; exact Iy|exact Ie]]. destruct (Comp' r p Fd) as (x & Ix & T). exists x. split; [exact Ix|exact (JoinProofs.turns_entries C ent r p x i T Irp)]. }
  split; [exact Am|]. split; [|split; [exact Comp'|split; [|split; [|split; [|split]]]]].
  - intros x Ix. apply in_app_iff in Ix as [Ix|Ix]; [left|right; exact Ix]. destruct (Good x Ix) as (en & Ie & _ & _ & r & p & L & T). exists en, r, p. auto.
  - apply (sharp_incl (map (set_rxn C) (concat outs) ++ concat more)); [|exact (Sh outs Fo)]. intros x Ix. apply in_app_iff in Ix as [Ix|Ix]; apply in_app_iff; [left; exact (Io x Ix)|right; exact Ix].
  - intros x y Ix Iy. apply in_flat_map in Ix as (a & Ia & Ix), Iy as (b & Ib & Iy). destruct (Hent a x Ia Ix) as (i & _ & ->). destruct (Hent b y Ib Iy) as (j & _ & ->). cbn. intros ->. reflexivity.
  - intros x e Ix Ie. destruct (Hent x e Ix Ie) as (i & _ & ->). split; reflexivity.
  - intros f If. rewrite <- map_app in If. apply in_map_iff in If as (i & <- & Ii). destruct (Has i Ii) as (x & Ix & Ie). exists x, (here i). split; [exact Ix|]. split; [exact Ie|reflexivity].
  - induction l as [|i l IH]; intros l' Hl F; cbn [map] in F; inversion F as [|f e fs l0 L F0]; subst; [reflexivity|]. rewrite (IH l0) by (try exact F0; intros j Hj; apply Hl; right; exact Hj). cbn [map]. f_equal.
    destruct L as (Lf & (x & Ix & Ie) & Lw). destruct (Hent x e Ix Ie) as (j & Hj & ->). f_equal.
    cbn [form in_set] in Lf. pose proof (Hl i (or_introl eq_refl)) as Ii. destruct (Hform i j Ii Hj Lf) as [Ej|Lt]; [exact Ej|]. exfalso.
    destruct (Has i Ii) as (y & Iy & Iey). specialize (Lw y (here i) Iy Iey eq_refl). cbn [uid in_set] in Lw. cbv beta in Lt, Lw. lra.
Qed.

Lemma families_known given m rs ens more : families m given rs -> (forall x, In x given -> among C ent entries x) -> (forall x, In x given -> (exists en r p, In en ens /\ looks en r p /\ turns C ent r p x) \/ In x (concat more)) ->
  forall x, In x rs -> plain x /\ ((exists en r p, In en ens /\ looks en r p /\ turns C ent r p x) \/ exists y, In y (concat more) /\ x = with_mu m y).
Proof.
  intros (_ & Fb & _) Am Kn x Ix. destruct (Fb x Ix) as (y & Iy & ->). split; [exact (proj1 (Am y Iy))|]. destruct (Kn y Iy) as [H|H]; [left; exact H|right; exists y; auto].
Qed.

Theorem open_flow_finds ens further more nmk smk max fi ps ts k el : ens <> [] -> (forall en, In en ens -> any_usable en) ->
  Forall2 (fun s l => get_rxns s = Ok l) further more -> (forall x, In x (concat more) -> among C ent entries x) ->
  (forall outs, Forall2 (fun en xs => outs_of en = Ok xs) ens outs -> sharp (map (set_rxn C) (concat outs) ++ concat more)) -> incl (ps ++ ts) entries -> most_stable C ent epa0 entries (ps ++ ts) -> determined C form0 ps ts ->
  (forall i, In i (ps ++ ts) -> (exists r p, reacts0 ens r p /\ In i (r ++ p)) \/ exists y, In y (concat more) /\ In (here i) (x_entries y)) ->
  (forall i, In i ts -> exists x, In x (ReactionModel.elems C (e_comp (ent i))) /\ x <> el) ->
  nm_precursors nmk = Some (map form0 ps) -> ps <> [] -> nm_targets nmk = Some (map form0 ts) -> ts <> [] -> nm_k nmk = Some k -> 0 < k ->
  sm_precursors smk = map form0 ps -> sm_targets smk = map form0 ts -> sm_open smk = Some el ->
  exists us rs per net0 es ks v t, NoDup us /\ incl us entries
  /\ (forall x, In x rs -> plain x /\ ((exists en r p, In en ens /\ looks en r p /\ turns C ent r p x) \/ exists y, In y (concat more) /\ x = with_mu (x_mu x) y))
  /\ (forall e, nm_open nmk = Some e -> forall x, In x rs -> x_mu x = Some [(e, nm_chempot nmk)])
  /\ (forall r p, reacts0 ens r p -> exists x, In x rs /\ turns C ent r p x) /\ (forall y, In y (concat more) -> exists x, In x rs /\ multiples y x)
  /\ Forall2 (fun t pathways => pathways_to xcost rs (map here ps) (here t) k pathways) ts per
  /\ Forall2 (stands_for us) (map here (ps ++ ts)) es /\ only_combination C (map form0 (ps ++ ts)) v /\ (0 < t)%Q /\ multiple t v ks /\ parts net0 = combine es ks
  /\ exists (objects : srxn -> rxn) pool rxns, (forall x, In x rs -> amounts_of us x (turnover (objects x)))
  /\ lists_entries (fun i => e_comp (ent i)) (fun i => e_energy (ent i)) us pool /\ (forall r, In r rxns -> exists x, on_path rs per x /\ r = objects x)
  /\ ((forall x y, In x rs -> In y rs -> xeq x y = true -> like x y) ->
      (forall x y, In x rs -> In y rs -> req (objects x) (objects y) = true -> like x y) ->
      (forall targets mids xb xo xm, targets_of net0 = Ok targets -> intermediates C order pool rxns targets = Ok mids ->
         (if ub then basic_objects C (exact_solve C) (exact_rank C) diagram wait ichunk ijobs pool mids (map e_id targets) else Ok []) = Ok xb ->
         (if ub then gas_objects C (exact_solve C) (exact_rank C) diagram owait ichunk ijobs (gas_of el) pool mids (map e_id targets) else Ok []) = Ok xo ->
         (if um then min_objects C (exact_solve C) (exact_rank C) (diagram_for phase_diagram (with_index pool)) (kinks_for interface (with_index pool)) pair_order mwait mchunk mjobs pool mids (map e_id targets) else Ok []) = Ok xm -> sharp (map (set_rxn C) (xb ++ xo ++ xm))) ->
      (um = true -> forall targets mids, targets_of net0 = Ok targets -> intermediates C order pool rxns targets = Ok mids ->
         exists s, grand el (sm_chempot smk) pool mids (map e_id targets) = Ok s /\ well_formed s /\ r_entries s = arrange (map (in_set C (with_index pool)) mids)) ->
      let way := on_the_way C ent us ts (on_path rs per) in (um = true -> interfaces_work C ent phase_diagram interface way) ->
      exists ys, (forall y, In y ys -> plain y /\ x_mu y = Some [(el, sm_chempot smk)] /\ (forall e, In e (x_entries y) -> exists u, way u /\ e = here u) /\ (NoDup (map form (x_entries y)) -> grand_low C el (sm_chempot smk) cutoff (combine (map (fun e => ent (uid e)) (x_entries y)) (x_coeffs y)))
                    /\ exists r p, ((ub = true /\ (could_react C ent way ts r p \/ could_breathe C ent way ts (gas_of el) r p)) \/ (um = true /\ could_meet C ent phase_diagram interface way ts r p)) /\ turns C ent r p y)
      /\ (forall r p w, ((ub = true /\ (could_react C ent way ts r p \/ could_breathe C ent way ts (gas_of el) r p)) \/ (um = true /\ sure_to_meet C ent phase_diagram interface way ts r p)) -> NoDup (map form0 (r ++ p)) -> only_combination C (map form0 (r ++ p)) w -> LinSpec.sides (length r) w -> grand_low C el (sm_chempot smk) cutoff (combine (map ent (r ++ p)) w) ->
            exists y q, In y ys /\ (0 < q)%Q /\ (forall j u a, nth_error (r ++ p) j = Some u -> nth_error w j = Some a -> (amount y u == q * a)%Q) /\ forall u, ~ In u (r ++ p) -> (amount y u == 0)%Q)
      /\ ((forall x y, In x (rs ++ ys) -> In y (rs ++ ys) -> req (objects x) (objects y) = true -> like x y) ->
          (forall x y, In x (rs ++ ys) -> In y ys -> multiples x y \/ multiples y x -> req (objects x) (objects y) = true /\ req (objects y) (objects x) = true) ->
          (forall x, In x (rs ++ ys) -> req (objects x) net0 = true -> amounts_of us x (turnover net0)) ->
          (forall x r, In x (rs ++ ys) -> environment (Some el) (sm_chempot smk) r -> amounts_of us x (turnover r) -> req (objects x) r = true) ->
          let allowed := fun x => (on_path rs per x \/ In x ys) /\ ~ amounts_of us x (turnover net0) in
          forall ds, length ds = max -> (forall i j x y, i < j -> nth_error ds i = Some x -> nth_error ds j = Some y -> ~ like x y) -> (forall x, In x ds -> allowed x) ->
          forall xs ms, 1 <= length xs <= max -> (forall x, In x xs -> allowed x) -> unrelated xs ->
          (fi = true -> ~ circle (takes C (fun i => e_comp (ent i))) (gives C (fun i => e_comp (ent i))) (map (fun i => e_comp (ent i)) ps) xs) ->
          length ms = length xs -> Forall (fun q => (1 # 1000000 <= q)%Q) ms ->
          (forall i u, nth_error us i = Some u -> (together ms xs u == turnover net0 i)%Q) ->
          exists paths q ms' ms0 xs0, open_whole_flow C ent solve rank diagram phase_diagram interface pair_order arrange argsort shuffle wait owait mwait listed members cpus nwait xcost sp xeq (exact_solve C) (exact_rank C) req path_pinv waits1 waits2 uniq clean cost chunk order ichunk ijobs mchunk mjobs cutoff ub um gas_of grand ens entries further nmk smk max true fi = Ok (net0, paths)
          /\ In q paths /\ p_coeffs q = Some ms' /\ Forall2 Qeq ms' ms0 /\ length ms0 = length xs0 /\ Permutation (combine ms xs) (combine ms0 xs0)
          /\ Forall2 (fun x r => exists r', amounts_of us x (turnover r') /\ environment (Some el) (sm_chempot smk) r' /\ req r' r = true) xs0 (p_rxns q))).
Proof.
  intros Hens Us Hm Hmore Sh Hincl Hst (Nd & v & Ov & Sv) Hin Hot Ep Hps Et Hts Ek Hk Sp St Eso.
  destruct (both_handed_on ens more ps ts Hens Us Sh Hmore Hincl Hst Hin) as (s & out & E & G & Am0 & Kn & Comp & Sho & Hu & Hf & Hre & Hlow).
  destruct (chain_finds C W (fun i => e_comp (ent i)) (fun i => e_energy (ent i)) listed members Hlisted Hmembers arrange Harr argsort Harg shuffle Hsh cpus Hcpus nwait Hnw xcost Hcost sp Hsp xeq Hxeq req
    waits1 waits2 uniq clean cost (inter0 smk) chunk rhash Hw1 Hw2 Hreq Huniq Hnone Hclean Hchunk nmk smk max true fi (s :: further) (out :: more) (map form0 ps) (map form0 ts) k v) as (us & rs & m & pe & te & per & net0 & gs & es & ks & t & rxns & Nus & Ius & Fam & Hm0 & Lp & Lt & Path & L1 & Std & Tp & M & Pn & Env & R1 & R2 & Find);
    try assumption.
  1: { constructor; assumption. }
  1: { intros x Ix. apply (Am0 x Ix). }
  1: { intros x Ix En0. destruct (Am0 x Ix) as (_ & _ & r & p & Nr & (U & _)). destruct r as [|i r]; [contradiction|]. destruct (proj2 (U (here i)) (ex_intro _ i (conj (or_introl eq_refl) eq_refl))) as (c & T & _). apply in_combine_l in T. rewrite En0 in T. destruct T. }
  1: { intros x c Ix Ic. destruct (Am0 x Ix) as ((_ & Lc & _) & _ & r & p & _ & (_ & _ & B & _)). destruct (in_combined_r (x_entries x) (x_coeffs x) c Lc Ic) as (e & Ie). specialize (B e c Ie). lra. }
  1: { destruct ps; [contradiction|discriminate]. }
  1: { destruct ts; [contradiction|discriminate]. }
  1: { rewrite <- map_app. exact Nd. }
  1: { intros f If. rewrite <- map_app in If. apply in_map_iff in If as (i & <- & _). apply (wf_red_red C W). }
  1: { rewrite <- map_app. exact Ov. }
  1: { rewrite map_length. exact Sv. }
  set (given := concat (out :: more)) in *. rewrite <- map_app in L1.
  assert (Ips : incl ps (ps ++ ts)) by (intros i I; apply in_app_iff; left; exact I). assert (Its : incl ts (ps ++ ts)) by (intros i I; apply in_app_iff; right; exact I).
  apply Hlow in Lp as ->; [|exact Ips]. apply Hlow in Lt as ->; [|exact Its]. apply Hlow in L1 as ->; [|apply incl_refl].
  pose proof (families_known given m rs ens more Fam Am0 Kn) as Rs0. destruct Fam as (Fa & Fb & Fc).
  assert (Rs : forall x, In x rs -> among C ent entries x) by (intros x Ix; destruct (Fb x Ix) as (y & Iy & ->); exact (Am0 y Iy)).
  assert (Mum : forall x, In x rs -> x_mu x = m) by (intros x Ix; destruct (Fb x Ix) as (y & Iy & ->); reflexivity).
  set (pool := numbered (fun i => e_comp (ent i)) (fun i => e_energy (ent i)) listed us) in *.
  set (obj := rxn_of C (fun i => e_comp (ent i)) (fun i => e_energy (ent i)) listed us) in *. set (mu := sm_chempot smk) in *.
  assert (Nl : NoDup (listed us)) by exact (Permutation_NoDup (Permutation_sym (Hlisted us Nus)) Nus).
  assert (Hl : forall u, In u (listed us) <-> In u us) by (intros u; split; apply Permutation_in; [|apply Permutation_sym]; apply Hlisted; exact Nus).
  assert (Iue : forall u, In u us -> In u entries /\ In (here u) (all_entries given)).
  { intros u Iu. apply Ius in Iu as (e & Ie & <-). pose proof Ie as J. apply in_flat_map in J as (x & Ix & J). destruct (proj1 (proj2 (Am0 x Ix)) e J) as (i & Ii & ->). split; [exact Ii|exact Ie]. }
  exists (listed us), rs, per, net0, es, ks, v, t. split; [exact Nl|]. split; [intros u Iu; apply Iue, Hl; exact Iu|]. split.
  { intros x Ix. rewrite (Mum x Ix). exact (Rs0 x Ix). }
  split; [intros e Eo x Ix; rewrite (Mum x Ix); exact (proj1 Hm0 e Eo)|]. split.
  { intros r p Fd. destruct (Comp r p Fd) as (x & Ix & T). destruct (Fa x Ix) as (x' & Ix' & M'). exists x'. split; [exact Ix'|]. destruct (Rs x' Ix') as (_ & _ & r' & p' & _ & T'). exact (turns_sided C ent r p r' p' x x' T T' (multiples_sides _ _ M')). }
  split; [intros y Iy; apply Fa; unfold given; cbn [concat]; apply in_app_iff; right; exact Iy|]. split.
  { clear -Path. revert per Path. induction ts as [|t l IH]; intros per Path; cbn [map] in Path; inversion Path; subst; constructor; [assumption|apply IH; assumption]. }
  split; [exact Std|]. split; [exact Ov|]. split; [exact Tp|]. split; [exact M|]. split; [exact Pn|].
  assert (Am : forall x, In x rs -> amounts_of (listed us) x (turnover (obj x))).
  { intros x Ix. apply (rxn_turnover C (fun i => e_comp (ent i)) (fun i => e_energy (ent i)) listed Hlisted us Nus). intros e Ie. apply Ius. exists e. split; [|reflexivity]. destruct (Fb x Ix) as (y & Iy & ->). apply in_flat_map. exists y. split; [exact Iy|exact Ie]. }
  exists obj, pool, rxns. split; [exact Am|]. split.
  { split; [|intros i e Ee; exact (pool_id ent listed us Nl i e Ee)]. unfold pool, numbered. clear. induction (listed us) as [|u l IH]; cbn [map]; constructor; [split; reflexivity|exact IH]. }
  split; [exact R1|]. intros T1 T2 Shs Gr way Wk. set (walked := on_path rs per) in *.
  assert (Hw0 : forall x, walked x -> In x rs).
  { intros x (p & xs & _ & Gx & I). clear - Gx I. revert I. induction Gx as [|pc y p xs ((n & _ & E) & _) _ IH]; intros I; [destruct I|]. destruct I as [<-|I]; [exact (nth_error_In _ _ E)|exact (IH I)]. }
  assert (Hplain : forall x, walked x -> plain x) by (intros x Wx; apply (Rs x (Hw0 x Wx))).
  assert (Hent : forall x e, walked x -> In e (x_entries x) -> exists u, In u us /\ e = here u).
  { intros x e Wx I. destruct (proj1 (proj2 (Rs x (Hw0 x Wx))) e I) as (u & _ & ->). exists u. split; [|reflexivity]. apply Ius. exists (here u). split; [|reflexivity]. destruct (Fb x (Hw0 x Wx)) as (y & Iy & ->). apply in_flat_map. exists y. split; [exact Iy|exact I]. }
  assert (R2' : forall x, walked x -> exists x' x'', walked x'' /\ like x' x /\ In (obj x'') rxns /\ like x' x'').
  { intros x Wx. destruct (R2 x Wx) as (x' & r & Wx' & Ex & Ir & Er). destruct (R1 r Ir) as (x'' & Wx'' & ->). exists x', x''. split; [exact Wx''|]. split; [apply T1; [apply Hw0; exact Wx'|apply Hw0; exact Wx|exact Ex]|]. split; [exact Ir|]. apply T2; [apply Hw0; exact Wx'|apply Hw0; exact Wx''|exact Er]. }
  assert (Lv : length v = length (ps ++ ts)) by (destruct Ov as ((L & _) & _); rewrite map_length in L; exact L).
  pose proof (mid_way C ent listed us ts ps Nl Hl walked Hplain Hent rxns R1 R2' net0 es ks v t Std Sv Lv Tp M Pn) as MW.
  pose proof (might_could C ent listed us ts ps Nl Hl walked Hplain Hent rxns R1 R2' net0 es ks v t Std Sv Lv Tp M Pn) as MC.
  pose proof (could_might C ent listed us ts ps Nl Hl walked Hplain Hent rxns R1 R2' net0 es ks v t Std Sv Lv Tp M Pn) as CM.
  pose proof (some_target C ent listed us ts ps Nl net0 es ks v t Std Sv Lv Tp M Pn Hts) as ST.
  pose proof (way_in C ent listed us ts ps Hl walked Hplain Hent es Std) as WI.
  pose proof (target_iff C ent listed us ts ps Nl net0 es ks v t Std Sv Lv Tp M Pn) as TI.
  rewrite Eso in Env. assert (Onet : exists o, net0 = ROpen o) by (destruct net0; cbn in Env; try contradiction; eexists; reflexivity).
  assert (NN : names_entries pool net0).
  { split; [destruct Onet as (o & ->); discriminate|]. intros e q I. rewrite Pn in I. apply in_combine_l in I. destruct (Forall2_In_r _ _ _ e Std I) as (h & Ih & (H1 & H2)). apply in_map_iff in Ih as (u & <- & _). cbn [uid in_set comp] in H1, H2.
    exists (entry_of (fun i => e_comp (ent i)) (fun i => e_energy (ent i)) listed us u). split; [unfold pool; rewrite pool_nth, H1; reflexivity|]. cbn [e_comp entry_of]. symmetry. exact H2. }
  assert (RN : forall r, In r rxns -> names_entries pool r).
  { intros r Ir. destruct (R1 r Ir) as (x & Wx & ->). split; [unfold obj, rxn_of; destruct (x_mu x); discriminate|]. intros e q I. destruct (walked_parts C ent listed us x e q I) as (e0 & I0 & ->). destruct (Hent x e0 Wx I0) as (u & Iu & ->). apply Hl in Iu.
    exists (entry_of (fun i => e_comp (ent i)) (fun i => e_energy (ent i)) listed us u). split; [|reflexivity]. cbn [e_id entry_of uid in_set]. unfold pool. rewrite pool_nth, (position_nth u (listed us) Iu). reflexivity. }
  assert (RF : forall r, In r rxns -> each_with_amount r).
  { intros r Ir c Hc. destruct (R1 _ Ir) as (x & Wx & ->). assert (Ec : c = computed_init C (map (fun e => entry_of (fun i => e_comp (ent i)) (fun i => e_energy (ent i)) listed us (uid e)) (x_entries x)) (x_coeffs x) None).
    { unfold obj, rxn_of in Hc. destruct (x_mu x); destruct Hc as [Ec|(mus & Ec)]; try discriminate; injection Ec; intros; subst; reflexivity. }
    rewrite Ec. cbn. rewrite map_length. apply (Hplain x Wx). }
  assert (Sense : um = true -> kinks_make_sense C pool rxns net0 (diagram_for phase_diagram (with_index pool)) (kinks_for interface (with_index pool))) by (intros Hum; apply (work_sense C ent listed us Nl rxns net0 way WI MW); apply Wk; exact Hum).
  destruct (open_search C W Hbig pool) with (rxns := rxns) (net0 := net0) (el := el) (gas := gas_of el) (mu := mu) (diagram := diagram) (wait := wait) (owait := owait) (arrange := arrange) (argsort := argsort) (shuffle := shuffle) (order := order) (chunk := ichunk) (jobs := ijobs) (cutoff := cutoff)
    (build := diagram_for phase_diagram (with_index pool)) (kinks := kinks_for interface (with_index pool)) (pair_order := pair_order) (mwait := mwait) (mchunk := mchunk) (mjobs := mjobs) (grand := grand el mu pool) (ub := ub) (um := um)
    as (zs & Ez & Sound & Cmp & _); try assumption; try (intros _; apply tidy_open).
  { intros i e Ee. exact (pool_id ent listed us Nl i e Ee). }
  { intros i e Ee. apply (pool_some ent listed us) in Ee as (L & ->). cbn [e_comp entry_of]. apply Hel, Iue, Hl, nm_mem. exact L. }
  { intros i j a c Ti _ Ea Ec Er. apply (pool_some ent listed us) in Ea as (L1 & ->), Ec as (L2 & ->). cbn [e_comp e_energy entry_of] in *.
    apply TI in Ti as (u & Eu & Iu). assert (u = nm listed us i) as -> by (symmetry; apply nm_some; exact Eu).
    destruct (Hst (nm listed us i) (nm listed us j)) as [H|H]; [apply in_app_iff; right; exact Iu|apply Iue, Hl, nm_mem; exact L2|exact Er| |right; exact H]. left. apply (nm_inj listed us Nl j i L2 L1). exact H. }
  { intros i Ti. apply TI in Ti as (u & Eu & Iu). destruct (Hot u Iu) as (x & Ix & Nx). exists x. split; [|exact Nx]. assert (Li : i < length (listed us)) by (apply nth_error_Some; rewrite Eu; discriminate). apply (meet_occurs C ent listed us i x Li). rewrite (nm_some listed us i u Eu). exact Ix. }
  assert (Ins : forall l, (forall i, In i l -> intermediate C pool rxns net0 i) -> inside listed us l) by (intros l H i I; apply MW, H; exact I).
  set (renamed := fun x => with_mu (Some [(el, mu)]) (relabel C ent listed us x)).
  exists (map renamed zs). split; [|split].
  - intros y Iy. apply in_map_iff in Iy as (x & <- & Ix). destruct (Sound x Ix) as (P0 & (l & El & Nd0 & Ml & Low) & r & p & Nrp0 & Mr & T & _). pose proof (Ins l Ml) as Il.
    split; [exact (relabel_plain C ent listed us Nl x l El Il P0)|]. split; [reflexivity|]. split; [|split].
    + intros e Ie. change (x_entries (renamed x)) with (x_entries (relabel C ent listed us x)) in Ie. rewrite (relabel_entries C ent listed us x l El), map_map in Ie. apply in_map_iff in Ie as (i & <- & Ii). exists (nm listed us i). split; [apply MW, Ml; exact Ii|reflexivity].
    + change (x_entries (renamed x)) with (x_entries (relabel C ent listed us x)). change (x_coeffs (renamed x)) with (x_coeffs x). rewrite (relabel_entries C ent listed us x l El). rewrite !(map_map here). cbn [uid in_set form]. intros Nf. apply (relabel_grand_low C ent listed us el mu l (x_coeffs x) cutoff Il), Low.
      pose proof (relabel_forms C ent listed us l Il) as Fm. fold pool in Fm. rewrite Fm. exact Nf.
    + assert (Mr' : inside listed us r /\ inside listed us p /\ ((ub = true /\ (could_react C ent way ts (map (nm listed us) r) (map (nm listed us) p) \/ could_breathe C ent way ts (gas_of el) (map (nm listed us) r) (map (nm listed us) p))) \/ (um = true /\ could_meet C ent phase_diagram interface way ts (map (nm listed us) r) (map (nm listed us) p)))).
      { destruct Mr as [(Hub & [Mr|Mr])|(Hum & Mr)]; [destruct (MC r p Mr) as (Ir & Ip & Cr)|destruct (breathes C ent listed us ts Nl rxns net0 way WI MW TI (gas_of el) r p Mr) as (Ir & Ip & Cr)|destruct (between_meets C ent listed us ts Nl rxns net0 way WI MW TI phase_diagram interface r p Mr) as (Ir & Ip & Cr)]; auto 6. }
      destruct Mr' as (Ir & Ip & Cr). exists (map (nm listed us) r), (map (nm listed us) p). split; [exact Cr|]. exact (relabel_turns C ent listed us Nl x l r p El Il Ir Ip T).
  - intros r p w Cr Nf Ow Sw Lw. set (pos := fun u => position u (listed us)) in *.
    assert (Mr' : (forall u, In u (r ++ p) -> In u (listed us)) /\ ((ub = true /\ (might_react C pool rxns net0 (map pos r) (map pos p) \/ gas_reacts C pool rxns net0 (gas_of el) (map pos r) (map pos p))) \/ (um = true /\ sure_kink C pool rxns net0 (diagram_for phase_diagram (with_index pool)) (kinks_for interface (with_index pool)) (map pos r) (map pos p)))).
    { destruct Cr as [(Hub & [Cr|Cr])|(Hum & Cr)]; [destruct (CM r p Cr) as (Irp & Mr)|destruct (breathes_back C ent listed us ts rxns net0 way WI MW TI (gas_of el) r p Cr) as (Irp & Mr)|destruct (meets_between C ent listed us ts Nl rxns net0 way WI MW TI phase_diagram interface r p Cr) as (Irp & Mr)]; auto 6. }
    destruct Mr' as (Irp & Mr).
    assert (Back : map (nm listed us) (map pos r ++ map pos p) = r ++ p) by (rewrite <- map_app; apply map_nm_position; exact Irp).
    assert (Il : inside listed us (map pos r ++ map pos p)) by (rewrite <- map_app; intros i I; apply in_map_iff in I as (u & <- & I); apply position_lt, Irp; exact I).
    destruct (Cmp (map pos r) (map pos p) w Mr) as (z & q & Iz & Pq & Az).
    + pose proof (relabel_forms C ent listed us _ Il) as Fm. rewrite Back in Fm. fold pool in Fm. rewrite Fm. exact Nf.
    + pose proof (relabel_forms C ent listed us _ Il) as Fm. rewrite Back in Fm. fold pool in Fm. rewrite Fm. exact Ow.
    + rewrite map_length. exact Sw.
    + apply (relabel_grand_low C ent listed us el mu _ w cutoff Il). rewrite Back. exact Lw.
    + exists (renamed z), q. split; [apply in_map; exact Iz|]. split; [exact Pq|]. destruct (Sound z Iz) as (P0 & (l & El & Nd0 & Ml & _) & _). pose proof (Ins l Ml) as Ilz.
      assert (Nrp : NoDup (map pos r ++ map pos p)).
      { apply NoDup_map_inv with (f := nm listed us). rewrite Back. exact (NoDup_map_inv _ _ Nf). }
      assert (Lw0 : length w = length (map pos r ++ map pos p)) by (destruct Ow as ((L & _) & _); rewrite map_length in L; rewrite <- map_app, map_length; exact L).
      change (amount (renamed z)) with (amount (relabel C ent listed us z)).
      assert (Az' : forall u, In u (listed us) -> (amount (relabel C ent listed us z) u == q * coef (map pos r ++ map pos p) w (pos u))%Q).
      { intros u Iu. pose proof (relabel_amount C ent listed us Nl z l (pos u) El Ilz (position_lt listed us u Iu)) as Ra. unfold pos in Ra at 1. rewrite (nm_position listed us u Iu) in Ra. rewrite Ra. apply Az. }
      split.
      * intros j u a Eu Ea. assert (Iu : In u (listed us)) by (apply Irp; exact (nth_error_In _ _ Eu)). rewrite (Az' u Iu). rewrite (coef_nth _ _ j (pos u) a Nrp Lw0); [reflexivity| |exact Ea]. rewrite <- map_app, nth_error_map, Eu. reflexivity.
      * intros u Nu. destruct (in_dec Nat.eq_dec u (listed us)) as [Iu|Niu].
        -- rewrite (Az' u Iu), coef_none; [ring|]. rewrite <- map_app. intros I. apply in_map_iff in I as (u' & Eu & I). apply (f_equal (nm listed us)) in Eu. unfold pos in Eu. rewrite !nm_position in Eu by auto. subst u'. exact (Nu I).
        -- apply amount_none. intros e Ie Eu. rewrite (relabel_entries C ent listed us z l El), map_map in Ie. apply in_map_iff in Ie as (i & <- & Ii). cbn in Eu. apply Niu. rewrite <- Eu. apply nm_mem, Ilz. exact Ii.
  - intros T2' T5 T3 T4 allowed ds Lds Ads Ods xs ms Lxs Oxs Uxs Hci Lms Mms Sum.
    unfold open_whole_flow. change (diagram_of phase_diagram ent) with build. change (kinks_of interface ent) with kinks. rewrite E. cbn [bind]. rewrite Eso in Find. refine (Find (map renamed zs) _ ltac:(discriminate) _ T1 T2' T5 T3 T4 ds Lds Ads Ods xs ms Lxs Oxs Uxs _ Lms Mms Sum).
    + intros _. unfold search_between. rewrite Eso. etransitivity; [exact Ez|]. f_equal. rewrite map_map. apply map_ext_in. intros x Ix. destruct (Sound x Ix) as (_ & (l & El & _ & Ml & _) & _). pose proof (relabel_object C ent listed us x l El (Ins l Ml)) as Ro.
      unfold rxn_of in Ro. cbn [relabel x_mu] in Ro. apply (f_equal (fun r => match r with RComputed c => c | _ => object_of C pool x end)) in Ro. cbv beta iota in Ro. unfold obj, rxn_of, renamed. cbn [with_mu x_mu x_entries x_coeffs]. f_equal. f_equal. symmetry. exact Ro.
    + intros y Iy. apply in_map_iff in Iy as (x & <- & Ix). destruct (Sound x Ix) as (P0 & (l & El & Nd0 & Ml & Low) & r & p & Nrp0 & Mr & T & _). pose proof (Ins l Ml) as Il. split; [exact (relabel_plain C ent listed us Nl x l El Il P0)|].
      change (x_entries (renamed x)) with (x_entries (relabel C ent listed us x)). change (x_coeffs (renamed x)) with (x_coeffs x). split; [|split].
      * rewrite (relabel_entries C ent listed us x l El). intros E0. apply map_eq_nil, map_eq_nil in E0. subst l. assert (Nr : r <> []).
        { destruct Mr as [(_ & [((_ & Lr) & _)|Mr])|(Hum & Mr)]; [intros ->; cbn in Lr; lia|exact (breathes_filled C _ rxns net0 (gas_of el) r p Mr)|exact (kink_not_empty _ _ _ _ _ _ r p (Sense Hum) Mr)]. }
        destruct r as [|i r]; [contradiction|].
        destruct (proj2 (proj1 T (in_set C (with_index pool) i)) (ex_intro _ i (conj (or_introl eq_refl) eq_refl))) as (c & Tc & _). apply in_combine_l in Tc. rewrite El in Tc. destruct Tc.
      * intros e Ie. rewrite (relabel_entries C ent listed us x l El), map_map in Ie. apply in_map_iff in Ie as (i & <- & Ii). apply Iue, Hl, nm_mem, Il. exact Ii.
      * intros c Ic. destruct (in_combined_r (x_entries x) (x_coeffs x) c (proj1 (proj2 P0)) Ic) as (e & Ie). destruct T as (_ & _ & B & _). specialize (B e c Ie). lra.
    + intros F. rewrite map_length, map_app, firstn_app, !map_length, Nat.sub_diag, app_nil_r. rewrite firstn_all2 by (rewrite map_length; lia). rewrite map_map. exact (Hci F).
Qed.

Theorem open_flow_sound pinv ens further more nmk smk max find fi ps ts k el b net0 paths :
  (forall M v, length (pinv M v) = length M) -> (forall l p, In p (uniq l) -> In p l) ->
  ens <> [] -> (forall en, In en ens -> any_usable en) ->
  Forall2 (fun s l => get_rxns s = Ok l) further more -> (forall x, In x (concat more) -> among C ent entries x) ->
  (forall outs, Forall2 (fun en xs => outs_of en = Ok xs) ens outs -> sharp (map (set_rxn C) (concat outs) ++ concat more)) -> incl (ps ++ ts) entries -> most_stable C ent epa0 entries (ps ++ ts) -> NoDup (ps ++ ts) ->
  (forall i, In i (ps ++ ts) -> (exists r p, reacts0 ens r p /\ In i (r ++ p)) \/ exists y, In y (concat more) /\ In (here i) (x_entries y)) ->
  (forall i, In i ts -> exists x, In x (ReactionModel.elems C (e_comp (ent i))) /\ x <> el) ->
  nm_precursors nmk = Some (map form0 ps) -> ps <> [] -> nm_targets nmk = Some (map form0 ts) -> ts <> [] -> nm_k nmk = Some k -> 0 < k ->
  sm_precursors smk = map form0 ps -> sm_targets smk = map form0 ts -> sm_open smk = Some el ->
  post_init C (exact_solve C) (exact_rank C) smk = Ok b -> num_errors b = Some 0 ->
  open_whole_flow C ent solve rank diagram phase_diagram interface pair_order arrange argsort shuffle wait owait mwait listed members cpus nwait xcost sp xeq (exact_solve C) (exact_rank C) req pinv waits1 waits2 uniq clean cost chunk order ichunk ijobs mchunk mjobs cutoff ub um gas_of grand ens entries further nmk smk max find fi = Ok (net0, paths) ->
  exists us rs per es ks kp pool rxns, NoDup us /\ incl us entries
  /\ (forall x, In x rs -> plain x /\ ((exists en r p, In en ens /\ looks en r p /\ turns C ent r p x) \/ exists y, In y (concat more) /\ x = with_mu (x_mu x) y))
  /\ (forall e, nm_open nmk = Some e -> forall x, In x rs -> x_mu x = Some [(e, nm_chempot nmk)])
  /\ Forall2 (fun t pathways => pathways_to xcost rs (map here ps) (here t) k pathways) ts per
  /\ Forall2 (stands_for us) (map here (ps ++ ts)) es /\ length ks = length ps /\ length kp = length ts /\ parts net0 = combine es (ks ++ kp) /\ environment (Some el) (sm_chempot smk) net0
  /\ Forall (fun q => (q <= -(1 # 1000000))%Q) ks /\ Forall (fun q => (1 # 1000000 <= q)%Q) kp
  /\ (forall e, (Qabs (ReactionSpec.net C (combine (map form0 (ps ++ ts)) (ks ++ kp)) e) <= 1 # 100000000)%Q)
  /\ lists_entries (fun i => e_comp (ent i)) (fun i => e_energy (ent i)) us pool /\ (forall r, In r rxns -> exists x, on_path rs per x /\ amounts_of us x (turnover r))
  /\ ((forall targets mids xb xo xm, targets_of net0 = Ok targets -> intermediates C order pool rxns targets = Ok mids ->
         (if ub then basic_objects C (exact_solve C) (exact_rank C) diagram wait ichunk ijobs pool mids (map e_id targets) else Ok []) = Ok xb ->
         (if ub then gas_objects C (exact_solve C) (exact_rank C) diagram owait ichunk ijobs (gas_of el) pool mids (map e_id targets) else Ok []) = Ok xo ->
         (if um then min_objects C (exact_solve C) (exact_rank C) (diagram_for phase_diagram (with_index pool)) (kinks_for interface (with_index pool)) pair_order mwait mchunk mjobs pool mids (map e_id targets) else Ok []) = Ok xm -> sharp (map (set_rxn C) (xb ++ xo ++ xm))) ->
      (um = true -> forall targets mids, targets_of net0 = Ok targets -> intermediates C order pool rxns targets = Ok mids ->
         exists s, grand el (sm_chempot smk) pool mids (map e_id targets) = Ok s /\ well_formed s /\ r_entries s = arrange (map (in_set C (with_index pool)) mids)) ->
      (um = true -> kinks_make_sense C pool rxns net0 (diagram_for phase_diagram (with_index pool)) (kinks_for interface (with_index pool))) ->
      forall q, In q paths -> exists ms steps, p_coeffs q = Some ms /\ length ms = length steps /\ 1 <= length steps <= max /\ Forall (fun m => (1 # 1000000 <= m)%Q) ms
      /\ Forall2 makes_amounts (p_rxns q) steps
      /\ (forall a, In a steps -> (exists x, on_path rs per x /\ amounts_of us x a)
            \/ find = true /\ exists r p y, ((ub = true /\ (might_react C pool rxns net0 r p \/ gas_reacts C pool rxns net0 (gas_of el) r p)) \/ (um = true /\ kink_between C pool rxns net0 (diagram_for phase_diagram (with_index pool)) (kinks_for interface (with_index pool)) r p)) /\ turns_into C r p y /\ open_of_entries pool el (sm_chempot smk) y /\ (distinct C (parts y) -> grand_low C el (sm_chempot smk) cutoff (parts y)) /\ forall i, (a i == turnover y i)%Q)
      /\ forall i, (Qabs (total ms steps i - turnover net0 i) <= (1 # 100000000) + (1 # 100000) * Qabs (turnover net0 i))%Q).
Proof.
  intros Hpinv Hun Hens Us Hm Hmore Sh Hincl Hst Nd Hin Hot Ep Hps Et Hts Ek Hk Sp St Eso Pi Ze H.
  destruct (both_handed_on ens more ps ts Hens Us Sh Hmore Hincl Hst Hin) as (s & out & E & G & Am0 & Kn & Comp & Sho & Hu & Hf & Hre & Hlow).
  unfold open_whole_flow in H. change (diagram_of phase_diagram ent) with build in H. change (kinks_of interface ent) with kinks in H. rewrite E in H. cbn [bind] in H.
  destruct (chain_sound_with C W (fun i => e_comp (ent i)) (fun i => e_energy (ent i)) listed members Hlisted Hmembers arrange Harr argsort Harg shuffle Hsh cpus Hcpus nwait Hnw xcost Hcost sp Hsp xeq Hxeq (exact_solve C) (exact_rank C) (LinProofs.exact_solve_length C) req pinv
    waits1 waits2 uniq clean cost (inter0 smk) chunk Hw1 Hw2 Hpinv Hun nmk smk max find fi (s :: further) (out :: more) (map form0 ps) (map form0 ts) k b net0 paths) as (us & rs & m & pe & te & per & pool & rxns & Nus & Ius & Fam & Hm0 & Lp & Lt & Path & (gs & gt & es & ks & kp & L1 & L2 & Std & K1 & K2 & Pn & F1 & F2 & Cons) & Env & Lst & Only & Rx & Bal);
    try assumption.
  1: { constructor; assumption. }
  1: { intros x Ix. apply (Am0 x Ix). }
  1: { destruct ps; [contradiction|discriminate]. }
  1: { destruct ts; [contradiction|discriminate]. }
  1: { rewrite <- map_app. exact (form_once C ent entries (ps ++ ts) Hincl Hst Nd). }
  1: { intros f If. rewrite <- map_app in If. apply in_map_iff in If as (i & <- & _). apply (wf_red_red C W). }
  set (given := concat (out :: more)) in *. rewrite map_length in K1, K2. rewrite <- map_app in Cons. rewrite Eso in Env. set (mu := sm_chempot smk) in *.
  assert (Ips : incl ps (ps ++ ts)) by (intros i I; apply in_app_iff; left; exact I). assert (Its : incl ts (ps ++ ts)) by (intros i I; apply in_app_iff; right; exact I).
  apply Hlow in Lp as ->; [|exact Ips]. apply Hlow in Lt as ->; [|exact Its]. apply Hlow in L1 as ->; [|exact Ips]. apply Hlow in L2 as ->; [|exact Its]. rewrite <- map_app in Std.
  assert (Nl : NoDup (listed us)) by exact (Permutation_NoDup (Permutation_sym (Hlisted us Nus)) Nus).
  assert (Hl : forall u, In u (listed us) -> In u entries).
  { intros u Iu. apply (Permutation_in _ (Hlisted us Nus)), Ius in Iu as (e & Ie & <-). apply in_flat_map in Ie as (x & Ix & Ie). destruct (proj1 (proj2 (Am0 x Ix)) e Ie) as (i & Ii & ->). exact Ii. }
  pose proof (families_known given m rs ens more Fam Am0 Kn) as Rs0.
  assert (Rs : forall x, In x rs -> plain x /\ x_mu x = m) by (intros x Ix; destruct (proj1 (proj2 Fam) x Ix) as (y & Iy & ->); split; [apply (Am0 y Iy)|reflexivity]).
  assert (Hw0 : forall x, on_path rs per x -> In x rs).
  { intros x (p & xs & _ & Gt & I). clear - Gt I. revert I. induction Gt as [|pc y p xs ((n & _ & E) & _) _ IH]; intros I; [destruct I|]. destruct I as [<-|I]; [exact (nth_error_In _ _ E)|exact (IH I)]. }
  exists (listed us), rs, per, es, ks, kp, pool, rxns. split; [exact Nl|]. split; [exact Hl|]. split.
  { intros x Ix. rewrite (proj2 (Rs x Ix)). exact (Rs0 x Ix). }
  split; [intros e Eo x Ix; rewrite (proj2 (Rs x Ix)); exact (proj1 Hm0 e Eo)|]. split.
  { clear -Path. revert per Path. induction ts as [|t l IH]; intros per Path; cbn [map] in Path; inversion Path; subst; constructor; [assumption|apply IH; assumption]. }
  split; [exact Std|]. split; [exact K1|]. split; [exact K2|]. split; [exact Pn|]. split; [exact Env|]. split; [exact F1|]. split; [exact F2|]. split; [exact Cons|]. split; [exact Lst|]. split; [intros r Ir; destruct (Rx r Ir) as (x & Ox & Ax & _); exists x; auto|]. intros Shs Gr Sense.
  assert (At : forall i e, nth_error pool i = Some e -> exists u, nth_error (listed us) i = Some u /\ e_comp e = e_comp (ent u) /\ e_energy e = e_energy (ent u)).
  { intros i e Ee. destruct (nth_r _ _ _ (proj1 Lst) i e Ee) as (u & Eu & (Ec & En)). exists u. auto. }
  assert (Nm : forall r, (forall b0, r <> RBasic b0) -> only_entries pool r -> names_entries pool r).
  { intros r Nb O. split; [exact Nb|]. intros e q I. pose proof (O _ I) as Ie. cbn [fst] in Ie. apply In_nth_error in Ie as (i & Ei). exists e. split; [|reflexivity]. rewrite (proj2 Lst i e Ei). exact Ei. }
  assert (Tt : forall i, target net0 i -> exists u, nth_error (listed us) i = Some u /\ In u ts).
  { intros i (e & q & I & Hq & Ei). rewrite Pn in I. apply In_nth_error in I as (n & En). apply nth_combine in En as (Ee & Eq). destruct (nth_r _ _ _ Std n e Ee) as (h & Eh & Sh0). rewrite nth_error_map in Eh. destruct (nth_error (ps ++ ts) n) as [u'|] eqn:Eu'; [|discriminate]. injection Eh as <-.
    destruct Sh0 as (Su & _). cbn in Su. rewrite Ei in Su. exists u'. split; [exact Su|]. destruct (Nat.lt_ge_cases n (length ps)) as [L|Ge].
    - exfalso. rewrite nth_error_app1 in Eq by lia. apply nth_error_In in Eq. rewrite Forall_forall in F1. specialize (F1 q Eq). lra.
    - rewrite nth_error_app2 in Eu' by exact Ge. exact (nth_error_In _ _ Eu'). }
  assert (Tg : exists i, target net0 i).
  { assert (Lts : 0 < length ts) by (clear -Hts; destruct ts; [contradiction|cbn; lia]). destruct (nth_error (ks ++ kp) (length ps)) as [q|] eqn:Eq; [|apply nth_error_None in Eq; rewrite app_length in Eq; lia].
    pose proof (Forall2_length _ _ _ Std) as Les. rewrite map_length, app_length in Les. destruct (nth_error es (length ps)) as [e|] eqn:Ee; [|apply nth_error_None in Ee; lia]. exists (e_id e), e, q. split; [|split; [|reflexivity]].
    - rewrite Pn. apply (nth_error_In _ (length ps)), nth_combine. auto.
    - rewrite nth_error_app2 in Eq by lia. apply nth_error_In in Eq. rewrite Forall_forall in F2. specialize (F2 q Eq). lra. }
  assert (Sp0 : exists zs, inter0 smk pool rxns net0 = Ok (map (fun z => ROpen {| o_base := object_of C pool z; chempots := [(el, sm_chempot smk)] |}) zs)
    /\ forall z, In z zs -> NoDup (map (fun ek => e_id (fst ek)) (parts (ROpen {| o_base := object_of C pool z; chempots := [(el, sm_chempot smk)] |}))) /\ exists r p, ((ub = true /\ (might_react C pool rxns net0 r p \/ gas_reacts C pool rxns net0 (gas_of el) r p)) \/ (um = true /\ kink_between C pool rxns net0 (diagram_for phase_diagram (with_index pool)) (kinks_for interface (with_index pool)) r p)) /\ turns_into C r p (ROpen {| o_base := object_of C pool z; chempots := [(el, sm_chempot smk)] |}) /\ open_of_entries pool el mu (ROpen {| o_base := object_of C pool z; chempots := [(el, sm_chempot smk)] |}) /\ (distinct C (parts (ROpen {| o_base := object_of C pool z; chempots := [(el, sm_chempot smk)] |})) -> grand_low C el mu cutoff (parts (ROpen {| o_base := object_of C pool z; chempots := [(el, sm_chempot smk)] |})))).
  { assert (H1 : forall i e, nth_error pool i = Some e -> e_id e = i) by exact (proj2 Lst).
    assert (H2 : forall i e, nth_error pool i = Some e -> ReactionModel.elems C (e_comp e) <> []) by (intros i e Ee; destruct (At i e Ee) as (u & Eu & -> & _); apply Hel, Hl; exact (nth_error_In _ _ Eu)).
    assert (H3 : names_entries pool net0) by (apply Nm; [intros b0 ->; destruct Env|apply Only; left; reflexivity]).
    assert (H4 : forall r, In r rxns -> names_entries pool r) by (intros r Ir; apply Nm; [intros b0 Eb; destruct (Rx r Ir) as (x & _ & _ & Er); unfold rxn_of in Er; destruct (x_mu x); congruence|apply Only; right; exact Ir]).
    assert (H5 : forall r, In r rxns -> each_with_amount r).
    { intros r Ir c Hc. destruct (Rx r Ir) as (x & Ox & _ & ->). assert (Ec : c = computed_init C (map (fun e => entry_of (fun i => e_comp (ent i)) (fun i => e_energy (ent i)) listed us (uid e)) (x_entries x)) (x_coeffs x) None).
      { unfold rxn_of in Hc. destruct (x_mu x); destruct Hc as [Ec|(mus & Ec)]; try discriminate; injection Ec; intros; subst; reflexivity. }
      rewrite Ec. cbn. rewrite map_length. apply (Rs x (Hw0 x Ox)). }
    assert (H6 : forall i j a c, target net0 i -> intermediate C pool rxns net0 j -> nth_error pool i = Some a -> nth_error pool j = Some c -> red C (e_comp c) = red C (e_comp a) -> j = i \/ (e_energy a / natoms C (e_comp a) < e_energy c / natoms C (e_comp c))%Q).
    { intros i j a c Ti _ Ea Ec Er. destruct (Tt i Ti) as (u' & Eu' & Iu). destruct (At i a Ea) as (u & Eu & Eau & Enu), (At j c Ec) as (w & Ew & Ecw & Enw). rewrite Eau, Ecw, Enu, Enw in *. assert (u' = u) as -> by congruence.
      destruct (Hst u w) as [H0|H0]; [apply in_app_iff; right; exact Iu|apply Hl; exact (nth_error_In _ _ Ew)|exact Er| |right; exact H0]. left. subst w.
      apply (proj1 (NoDup_nth_error (listed us)) Nl); [apply nth_error_Some; rewrite Ew; discriminate|congruence]. }
    assert (H7 : forall i, target net0 i -> exists x, occurs C pool i x /\ x <> el).
    { intros i Ti. destruct (Tt i Ti) as (u & Eu & Iu). destruct (Hot u Iu) as (x & Ix & Nx). exists x. split; [|exact Nx]. destruct (nth_l _ _ _ (proj1 Lst) i u Eu) as (e & Ee & (Ec & _)). exists e. split; [exact Ee|rewrite Ec; exact Ix]. }
    destruct (open_search C W Hbig pool H1 H2 rxns net0 H3 H4 H5 H6 Tg el (gas_of el) mu H7 diagram wait Hw owait Hwo (diagram_for phase_diagram (with_index pool)) (kinks_for interface (with_index pool)) pair_order Hpair mwait Hmw arrange Harr argsort Harg shuffle Hsh order Hord ichunk ijobs mchunk mjobs Hic Hij Hmc Hmj (grand el mu pool) cutoff ub um Sense (fun _ => tidy_open _) Gr Shs) as (zs & Ez & Sound & _). exists zs.
    split; [unfold search_between; rewrite Eso; exact Ez|].
    intros z Iz. destruct (Sound z Iz) as (P0 & (l & El & Nd0 & Ml & Low) & r & p & Nrp & Mr & T & _). pose proof (object_parts C pool z l El) as Op. change (parts (ROpen {| o_base := object_of C pool z; chempots := [(el, sm_chempot smk)] |})) with (parts (RComputed (object_of C pool z))). split.
    - rewrite Op. rewrite <- (map_map fst e_id), map_fst_combined by (rewrite map_length; destruct P0 as (_ & L & _); rewrite L, El, map_length; reflexivity). rewrite map_map, (map_ext _ (fun i => i)), map_id; [exact Nd0|]. intros i. exact (ent_id pool H1 i).
    - exists r, p. split; [exact Mr|]. split; [exact (turns_turnover C pool H1 z l r p P0 El T Nrp)|]. split; [|rewrite Op; intros Nf; apply Low; unfold distinct in Nf; rewrite <- (map_map fst (fun e => red C (e_comp e))), map_fst_combined, map_map in Nf by (rewrite map_length; destruct P0 as (_ & L & _); rewrite L, El, map_length; reflexivity); exact Nf].
      exists (object_of C pool z). split; [reflexivity|]. rewrite (object_items C pool z l El). cbn [c_base c_entries computed_init coeffs basic_init]. split; [rewrite map_length; destruct P0 as (_ & L & _); rewrite L, El, map_length; reflexivity|].
      intros e I. apply in_map_iff in I as (i & <- & I). rewrite (ent_id pool H1 i). exact (mid_some C pool rxns net0 H3 H4 i (Ml i I)). }
  destruct Sp0 as (zs & Ez & Hz). intros q Iq.
  destruct (Bal) with (p := q) as (ms & steps & B1 & B2 & B3 & B4 & B5 & B6 & B7); [|exact Iq|].
  - intros l r El Ir. rewrite Ez in El. apply (f_equal (fun x => match x with Ok l => l | Err _ => [] end)) in El. cbv beta iota in El. subst l. apply in_map_iff in Ir as (z & <- & Iz). apply (Hz z Iz).
  - exists ms, steps. repeat (split; [assumption|]). split; [|exact B7]. intros a Ia. destruct (B6 a Ia) as [O|(Ef & l & r & El & Ir & Ea)]; [left; exact O|right]. split; [exact Ef|].
    rewrite Ez in El. apply (f_equal (fun x => match x with Ok l => l | Err _ => [] end)) in El. cbv beta iota in El. subst l. apply in_map_iff in Ir as (z & <- & Iz). destruct (Hz z Iz) as (_ & r & p & Mr & T & Of & Low). exists r, p, (ROpen {| o_base := object_of C pool z; chempots := [(el, sm_chempot smk)] |}). auto.
Qed.
End Flow.
