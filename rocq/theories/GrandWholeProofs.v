(* The whole flow for an open element, its own enumeration included: C153. *)
From Coq Require Import Lqa.
From Verif Require Import Prelude NumQ SumQ ListFacts UtilsModel UtilsSpec ReactionModel ReactionSpec ReactionBaseProofs RxnSetModel RxnSetSpec PathModel PathSpec SolverModel SolverSpec
  NetModel YenModel YenSpec FlowModel NetJobModel NetJobSpec SolveJobModel SolveJobSpec SolveJobProofs EnumModel EnumSpec EnumLinkModel LinModel LinSpec LinProofs LinBalanceProofs PinvModel PinvProofs CapSpec CapProofs
  RunModel ChainModel ChainSpec ChainProofs ChainFindSpec ChainFindProofs JoinModel JoinSpec JoinProofs WholeModel WholeProofs IntModel IntSpec CoefProofs IntProofs IntFlowSpec IntFlowProofs
  MinModel MinSpec MinJoinModel MinJoinSpec MinJoinProofs IntMinModel IntMinSpec IntMinProofs AnyWholeModel AnyWholeSpec AnyWholeProofs IntOpenModel IntOpenSpec IntOpenProofs OpenWholeModel OpenWholeSpec OpenWholeProofs GrandJoinModel GrandJoinSpec GrandJoinProofs.
Open Scope nat_scope.

Section GrandFlow.
Variable C : chem.
Hypothesis W : wf_chem C.
Hypothesis Hbig : forall c e, In e (ReactionModel.elems C c) -> (1 # 100 < amt C (red C c) e)%Q.
Variable ent : nat -> entry.
Hypothesis Hid : forall i, e_id (ent i) = i.
Context {D PD G : Type}.
Variable diagram : list nat -> D.
Variable wait : nat -> list (list (list (list nat * list nat) * D)) -> list (list (list (list nat * list nat) * D)) * list (list (list (list nat * list nat) * D)).
Hypothesis Hw : valid_schedule wait.
Variable owait : nat -> list (list (list (list nat * list nat) * D)) -> list (list (list (list nat * list nat) * D)) * list (list (list (list nat * list nat) * D)).
Hypothesis Hwo : valid_schedule owait.
Variable phase_diagram : list (nat * Q) -> result PD.
Variable interface : PD -> nat -> nat -> result (list (list nat * list nat)).
Hypothesis Htidy : forall pd a b ks kink, interface pd a b = Ok ks -> In kink ks -> NoDup (fst kink) /\ NoDup (snd kink) /\ (disjoint (fst kink) (snd kink) \/ exists f, kink = ([f], [f])).
Variable pair_order : list nat -> list nat.
Hypothesis Hpair : forall l, Permutation (pair_order l) l.
Variable mwait : nat -> list (list (list (list nat * list nat) * option (list nat * PD))) ->
  list (list (list (list nat * list nat) * option (list nat * PD))) * list (list (list (list nat * list nat) * option (list nat * PD))).
Hypothesis Hmw : valid_schedule mwait.
Variable grand_diagram : nat -> Q -> list (nat * Q) -> result G.
Variable grand_interface : G -> nat -> nat -> result (list (list nat * list nat)).
Hypothesis Hgtidy : forall pd a b ks kink, grand_interface pd a b = Ok ks -> In kink ks -> NoDup (fst kink) /\ NoDup (snd kink) /\ (disjoint (fst kink) (snd kink) \/ exists f, kink = ([f], [f])).
Variable gwait : nat -> list (list (list (list nat * list nat) * option (list nat * G))) ->
  list (list (list (list nat * list nat) * option (list nat * G))) * list (list (list (list nat * list nat) * option (list nat * G))).
Hypothesis Hgw : valid_schedule gwait.
Variable entries : list nat.
Hypothesis Hn : NoDup entries.
Hypothesis Hne : entries <> [].
Hypothesis Hel : forall e, In e entries -> ReactionModel.elems C (e_comp (ent e)) <> [].
Notation build := (diagram_for phase_diagram ent).
Notation kinks := (kinks_for interface ent).
Hypothesis Hgood : good_interfaces (fun i => ReactionModel.elems C (e_comp (ent i))) (fun i => red C (e_comp (ent i))) build kinks entries [].
Variable arrange : list sentry -> list sentry.
Hypothesis Harr : arranges arrange.
Variable argsort : list Q -> list nat.
Hypothesis Harg : forall l, Permutation (argsort l) (seq 0 (length l)).
Variable shuffle : list nat -> list nat.
Hypothesis Hsh : forall l, Permutation (shuffle l) l.
Variable listed members : list nat -> list nat.
Hypothesis Hlisted : forall us, NoDup us -> Permutation (listed us) us.
Hypothesis Hmembers : forall us, Permutation (members us) (seq 0 (length us)).
Variable cpus : nat.
Hypothesis Hcpus : 2 <= cpus.
Variable nwait : nat -> list (nat * list (option (list nat)) * result (list nat)) ->
  list (nat * list (option (list nat)) * result (list nat)) * list (nat * list (option (list nat)) * result (list nat)).
Hypothesis Hnw : valid_schedule nwait.
Variable xcost : srxn -> Q.
Hypothesis Hcost : forall r, (0 <= xcost r)%Q.
Variable sp : (payload -> Q) -> list (nat * nat * payload) -> nat -> nat -> option (list nat).
Hypothesis Hsp : forall weight, shortest weight (sp weight).
Variable xeq : srxn -> srxn -> bool.
Hypothesis Hxeq : forall r, xeq r r = true.
Variable req : rxn -> rxn -> bool.
Variable waits1 waits2 : nat -> nat -> list nat -> list nat * list nat.
Variable uniq : list (path rxn) -> list (path rxn).
Variable clean : list rxn -> list rxn.
Variable cost : rxn -> Q.
Variable chunk : nat.
Hypothesis Hw1 : forall k, valid_schedule (waits1 k).
Hypothesis Hw2 : forall k, valid_schedule (waits2 k).
Variable rhash : rxn -> nat.
Hypothesis Hreq : forall r, req r r = true.
Hypothesis Huniq : set_members req rhash uniq.
Hypothesis Hnone : uniq [] = [].
Hypothesis Hclean : keeps_all req clean.
Hypothesis Hchunk : 1 <= chunk.
Variable order : list nat -> list nat.
Hypothesis Hord : forall l, Permutation (order l) l.
Variable ichunk ijobs : nat.
Hypothesis Hic : 1 <= ichunk.
Hypothesis Hij : 1 <= ijobs.
Variable mchunk mjobs : nat.
Hypothesis Hmc : 1 <= mchunk.
Hypothesis Hmj : 1 <= mjobs.
Variables ub um : bool.
Variable cutoff : Q.
Variable gas_of : nat -> nat.
Variable el : nat.
Variable mu : Q.
Hypothesis Hoe : forall e, In e entries -> ReactionModel.elems C (e_comp (ent e)) = [el] -> red C (e_comp (ent e)) = gas_of el.
Notation gbuild := (diagram_for (grand_diagram el mu) ent).
Notation gkinks := (kinks_for grand_interface ent).
Hypothesis Hggood : good_interfaces (fun i => ReactionModel.elems C (e_comp (ent i))) (fun i => red C (e_comp (ent i))) gbuild gkinks entries (gases_in C ent entries (gas_of el)).
Variable grand : nat -> Q -> list entry -> list nat -> list nat -> result rset.
Notation solve := (entry_solve C ent).
Notation rank := (entry_rank C ent).
Notation here := (in_set C ent).
Notation form0 := (fun i => red C (e_comp (ent i))).
Notation inter0 := (search_between C diagram phase_diagram interface pair_order arrange argsort shuffle wait owait mwait (exact_solve C) (exact_rank C) order ichunk ijobs mchunk mjobs cutoff ub um gas_of grand).
Notation epa0 := (fun u => e_energy (ent u) / natoms C (e_comp (ent u)))%Q.
Notation on_path rs per := (on_pathways xcost rs (concat per)).

Notation outs_of := (any_enumerated C ent solve rank diagram build kinks pair_order epa0 wait mwait entries).
Notation looks := (any_looks C ent build kinks epa0 entries).
Notation finds := (any_finds C ent build kinks epa0 entries).
Notation reacts0 := (any_reacts C ent build kinks epa0 entries).
Notation glooks m := (at_open_kink C ent gbuild gkinks epa0 entries (gas_of el) m).
Notation gfinds m := (surely_at_open_kink C ent gbuild gkinks epa0 entries (gas_of el) m).
Notation gfound m := (grand_enumerated C ent solve rank grand_diagram grand_interface pair_order gwait gas_of el mu entries m).

Lemma grand_handed m : minimizer_usable m -> (forall xs, gfound m = Ok xs -> sharp (map (open_set_rxn C el mu) xs)) ->
  exists s out, grand_enumeration C ent solve rank grand_diagram grand_interface pair_order arrange argsort shuffle gwait gas_of el mu entries m = Ok (Some s) /\ get_rxns s = Ok out
  /\ (forall x, In x out -> plain x /\ (forall e, In e (x_entries x) -> exists i, In i entries /\ e = here i) /\ exists r p, r <> [] /\ glooks m r p /\ turns C ent r p x)
  /\ (forall r p, gfinds m r p /\ determined C form0 r p -> exists x, In x out /\ turns C ent r p x)
  /\ forall xs, gfound m = Ok xs -> incl out (map (open_set_rxn C el mu) xs).
Proof. exact (grand_enumeration_spec C W Hbig ent Hid grand_diagram grand_interface Hgtidy pair_order Hpair gwait Hgw gas_of el mu entries Hn Hel Hoe Hggood Hne arrange Harr argsort Harg shuffle Hsh m). Qed.
Lemma grand_seen m : minimizer_usable m -> exists xs, gfound m = Ok xs.
Proof. intros Us. destruct (grand_made C W Hbig ent Hid grand_diagram grand_interface Hgtidy pair_order Hpair gwait Hgw gas_of el mu entries Hn Hel Hoe Hggood m Us) as (xs & E & _). exists xs. exact E. Qed.
Lemma base_seen ens : (forall en, In en ens -> any_usable en) -> exists outs, Forall2 (fun en xs => outs_of en = Ok xs) ens outs.
Proof.
  induction ens as [|en ens IH]; intros H; [exists []; constructor|]. destruct IH as (outs & F); [intros e I; apply H; right; exact I|].
  destruct (any_spec C W Hbig ent Hid build kinks pair_order Hpair epa0 mwait Hmw entries Hn Hel Hgood (tidy_open interface Htidy ent) diagram wait Hw en (H en (or_introl eq_refl))) as (xs & E & _). exists (xs :: outs). constructor; assumption.
Qed.

(* What the open enumeration of a usable enumerator brings to the flow. *)
Lemma grand_brings ens m : (forall en, In en ens -> any_usable en) -> minimizer_usable m ->
  (forall outs gs, Forall2 (fun en xs => outs_of en = Ok xs) ens outs -> gfound m = Ok gs -> sharp (map (set_rxn C) (concat outs) ++ map (open_set_rxn C el mu) gs)) ->
  exists s out, grand_enumeration C ent solve rank grand_diagram grand_interface pair_order arrange argsort shuffle gwait gas_of el mu entries m = Ok (Some s)
  /\ Forall2 (fun s l => get_rxns s = Ok l) [s] [out] /\ (forall x, In x (concat [out]) -> among C ent entries x)
  /\ (forall outs, Forall2 (fun en xs => outs_of en = Ok xs) ens outs -> sharp (map (set_rxn C) (concat outs) ++ concat [out]))
  /\ (forall y, In y (concat [out]) -> exists r p, glooks m r p /\ turns C ent r p y)
  /\ (forall r p, gfinds m r p /\ determined C form0 r p -> exists x, In x (concat [out]) /\ turns C ent r p x).
Proof.
  intros Us Um Sh. destruct (grand_seen m Um) as (gs & Eg). destruct (base_seen ens Us) as (outs0 & F0).
  destruct (grand_handed m Um) as (s & out & E & Gt & Hk & Hf & Hi).
  { intros xs Ex. apply (sharp_incl _ _ (incl_appr _ (incl_refl _)) (Sh outs0 xs F0 Ex)). }
  exists s, out. cbn [concat]. rewrite app_nil_r. split; [exact E|]. split; [constructor; [exact Gt|constructor]|]. split.
  { intros x I. destruct (Hk x I) as (P0 & H0 & r & p & Nr & _ & T). split; [exact P0|]. split; [exact H0|]. exists r, p. split; assumption. }
  split; [|split; [|exact Hf]].
  - intros outs F. refine (sharp_incl _ _ _ (Sh outs gs F Eg)). apply incl_app; [apply incl_appl, incl_refl|]. intros x I. apply in_app_iff. right. exact (Hi gs Eg x I).
  - intros y I. destruct (Hk y I) as (_ & _ & r & p & _ & L & T). exists r, p. split; assumption.
Qed.
Lemma turns_mem r p x i : turns C ent r p x -> In i (r ++ p) -> In (here i) (x_entries x).
Proof.
  intros (U & M & _) I. apply in_app_iff in I as [I|I].
  - destruct (proj2 (U (here i)) (ex_intro _ i (conj I eq_refl))) as (c & T & _). exact (in_combine_l _ _ _ _ T).
  - destruct (proj2 (M (here i)) (ex_intro _ i (conj I eq_refl))) as (c & T & _). exact (in_combine_l _ _ _ _ T).
Qed.
Lemma brought ens m out ps ts : (forall r p, gfinds m r p /\ determined C form0 r p -> exists x, In x (concat [out]) /\ turns C ent r p x) ->
  (forall i : nat, In i (ps ++ ts) -> (exists r p, reacts0 ens r p /\ In i (r ++ p)) \/ exists r p, gfinds m r p /\ determined C form0 r p /\ In i (r ++ p)) ->
  forall i, In i (ps ++ ts) -> (exists r p, reacts0 ens r p /\ In i (r ++ p)) \/ exists y, In y (concat [out]) /\ In (here i) (x_entries y).
Proof.
  intros Hf H i I. destruct (H i I) as [B|(r & p & F & Dt & J)]; [left; exact B|right]. destruct (Hf r p (conj F Dt)) as (x & Ix & T). exists x. split; [exact Ix|exact (turns_mem r p x i T J)].
Qed.

Theorem chempot_flow_finds ens m nmk smk max fi ps ts k : ens <> [] -> (forall en, In en ens -> any_usable en) ->
  minimizer_usable m ->
  (forall outs gs, Forall2 (fun en xs => outs_of en = Ok xs) ens outs -> gfound m = Ok gs -> sharp (map (set_rxn C) (concat outs) ++ map (open_set_rxn C el mu) gs)) -> incl (ps ++ ts) entries -> most_stable C ent epa0 entries (ps ++ ts) -> determined C form0 ps ts ->
  (forall i, In i (ps ++ ts) -> (exists r p, reacts0 ens r p /\ In i (r ++ p)) \/ exists r p, gfinds m r p /\ determined C form0 r p /\ In i (r ++ p)) ->
  (forall i, In i ts -> exists x, In x (ReactionModel.elems C (e_comp (ent i))) /\ x <> el) ->
  nm_precursors nmk = Some (map form0 ps) -> ps <> [] -> nm_targets nmk = Some (map form0 ts) -> ts <> [] -> nm_k nmk = Some k -> 0 < k ->
  sm_precursors smk = map form0 ps -> sm_targets smk = map form0 ts ->
  exists us rs per net0 es ks v t, NoDup us /\ incl us entries
  /\ (forall x, In x rs -> plain x /\ ((exists en r p, In en ens /\ looks en r p /\ turns C ent r p x) \/ exists r p, glooks m r p /\ turns C ent r p x))
  /\ (forall x, In x rs -> x_mu x = Some [(el, mu)])
  /\ (forall r p, reacts0 ens r p -> exists x, In x rs /\ turns C ent r p x) /\ (forall r p, gfinds m r p /\ determined C form0 r p -> exists x, In x rs /\ turns C ent r p x)
  /\ Forall2 (fun t pathways => pathways_to xcost rs (map here ps) (here t) k pathways) ts per
  /\ Forall2 (stands_for us) (map here (ps ++ ts)) es /\ only_combination C (map form0 (ps ++ ts)) v /\ (0 < t)%Q /\ multiple t v ks /\ parts net0 = combine es ks
  /\ exists (objects : srxn -> rxn) pool rxns, (forall x, In x rs -> amounts_of us x (turnover (objects x)))
  /\ lists_entries (fun i => e_comp (ent i)) (fun i => e_energy (ent i)) us pool /\ (forall r, In r rxns -> exists x, on_path rs per x /\ r = objects x)
  /\ ((forall x y, In x rs -> In y rs -> xeq x y = true -> like x y) ->
      (forall x y, In x rs -> In y rs -> req (objects x) (objects y) = true -> like x y) ->
      (forall targets mids xb xo xm, targets_of net0 = Ok targets -> intermediates C order pool rxns targets = Ok mids ->
         (if ub then basic_objects C (exact_solve C) (exact_rank C) diagram wait ichunk ijobs pool mids (map e_id targets) else Ok []) = Ok xb ->
         (if ub then gas_objects C (exact_solve C) (exact_rank C) diagram owait ichunk ijobs (gas_of el) pool mids (map e_id targets) else Ok []) = Ok xo ->
         (if um then min_objects C (exact_solve C) (exact_rank C) (diagram_for phase_diagram (with_index pool)) (kinks_for interface (with_index pool)) pair_order mwait mchunk mjobs pool mids (map e_id targets) else Ok []) = Ok xm -> sharp (map (set_rxn C) (xb ++ xo ++ xm))) ->
      (um = true -> forall targets mids, targets_of net0 = Ok targets -> intermediates C order pool rxns targets = Ok mids ->
         exists s, grand el mu pool mids (map e_id targets) = Ok s /\ well_formed s /\ r_entries s = arrange (map (in_set C (with_index pool)) mids)) ->
      let way := on_the_way C ent us ts (on_path rs per) in (um = true -> interfaces_work C ent phase_diagram interface way) ->
      exists ys, (forall y, In y ys -> plain y /\ x_mu y = Some [(el, mu)] /\ (forall e, In e (x_entries y) -> exists u, way u /\ e = here u) /\ (NoDup (map form (x_entries y)) -> grand_low C el mu cutoff (combine (map (fun e => ent (uid e)) (x_entries y)) (x_coeffs y)))
                    /\ exists r p, ((ub = true /\ (could_react C ent way ts r p \/ could_breathe C ent way ts (gas_of el) r p)) \/ (um = true /\ could_meet C ent phase_diagram interface way ts r p)) /\ turns C ent r p y)
      /\ (forall r p w, ((ub = true /\ (could_react C ent way ts r p \/ could_breathe C ent way ts (gas_of el) r p)) \/ (um = true /\ sure_to_meet C ent phase_diagram interface way ts r p)) -> NoDup (map form0 (r ++ p)) -> only_combination C (map form0 (r ++ p)) w -> LinSpec.sides (length r) w -> grand_low C el mu cutoff (combine (map ent (r ++ p)) w) ->
            exists y q, In y ys /\ (0 < q)%Q /\ (forall j u a, nth_error (r ++ p) j = Some u -> nth_error w j = Some a -> (amount y u == q * a)%Q) /\ forall u, ~ In u (r ++ p) -> (amount y u == 0)%Q)
      /\ ((forall x y, In x (rs ++ ys) -> In y (rs ++ ys) -> req (objects x) (objects y) = true -> like x y) ->
          (forall x y, In x (rs ++ ys) -> In y ys -> multiples x y \/ multiples y x -> req (objects x) (objects y) = true /\ req (objects y) (objects x) = true) ->
          (forall x, In x (rs ++ ys) -> req (objects x) net0 = true -> amounts_of us x (turnover net0)) ->
          (forall x r, In x (rs ++ ys) -> environment (Some el) mu r -> amounts_of us x (turnover r) -> req (objects x) r = true) ->
          let allowed := fun x => (on_path rs per x \/ In x ys) /\ ~ amounts_of us x (turnover net0) in
          forall ds, length ds = max -> (forall i j x y, i < j -> nth_error ds i = Some x -> nth_error ds j = Some y -> ~ like x y) -> (forall x, In x ds -> allowed x) ->
          forall xs ms, 1 <= length xs <= max -> (forall x, In x xs -> allowed x) -> unrelated xs ->
          (fi = true -> ~ circle (takes C (fun i => e_comp (ent i))) (gives C (fun i => e_comp (ent i))) (map (fun i => e_comp (ent i)) ps) xs) ->
          length ms = length xs -> Forall (fun q => (1 # 1000000 <= q)%Q) ms ->
          (forall i u, nth_error us i = Some u -> (together ms xs u == turnover net0 i)%Q) ->
          exists paths q ms' ms0 xs0, chempot_flow C ent solve rank diagram phase_diagram interface grand_diagram grand_interface pair_order arrange argsort shuffle wait owait mwait gwait listed members cpus nwait xcost sp xeq (exact_solve C) (exact_rank C) req path_pinv waits1 waits2 uniq clean cost chunk order ichunk ijobs mchunk mjobs cutoff ub um gas_of grand ens m el mu entries nmk smk max true fi = Ok (net0, paths)
          /\ In q paths /\ p_coeffs q = Some ms' /\ Forall2 Qeq ms' ms0 /\ length ms0 = length xs0 /\ Permutation (combine ms xs) (combine ms0 xs0)
          /\ Forall2 (fun x r => exists r', amounts_of us x (turnover r') /\ environment (Some el) mu r' /\ req r' r = true) xs0 (p_rxns q))).
Proof.
  intros Hens Us Um Sh Hincl Hst Dt Hin Hot Ep Hps Et Hts Ek Hk Sp St.
  destruct (grand_brings ens m Us Um Sh) as (s & out & E & Hg & Am & Sh' & Lk & Fd).
  unfold chempot_flow. rewrite E. cbn [bind].
  destruct (open_flow_finds C W Hbig ent Hid diagram wait Hw owait Hwo phase_diagram interface Htidy pair_order Hpair mwait Hmw entries Hn Hne Hel Hgood arrange Harr argsort Harg shuffle Hsh listed members Hlisted Hmembers cpus Hcpus nwait Hnw xcost Hcost sp Hsp xeq Hxeq req waits1 waits2 uniq clean cost chunk Hw1 Hw2 rhash Hreq Huniq Hnone Hclean Hchunk order Hord ichunk ijobs Hic Hij mchunk mjobs Hmc Hmj ub um cutoff gas_of grand
    ens [s] [out] (network_at el mu nmk) (solver_at el mu smk) max fi ps ts k el Hens Us Hg Am Sh' Hincl Hst Dt (brought ens m out ps ts Fd Hin) Hot Ep Hps Et Hts Ek Hk Sp St eq_refl)
    as (us & rs & per & net0 & es & ks & v & t & H1 & H2 & H3 & H4 & H5 & H6 & Rest).
  exists us, rs, per, net0, es, ks, v, t. split; [exact H1|]. split; [exact H2|]. split.
  { intros x Ix. destruct (H3 x Ix) as (P0 & [L|(y & Iy & Ey)]); (split; [exact P0|]); [left; exact L|right]. destruct (Lk y Iy) as (r & p & L & T). exists r, p. split; [exact L|]. rewrite Ey. exact T. }
  split; [exact (H4 el eq_refl)|]. split; [exact H5|]. split; [|exact Rest].
  intros r p L. destruct (Fd r p L) as (y & Iy & T). destruct (H6 y Iy) as (x & Ix & M). exists x. split; [exact Ix|].
  assert (T' : exists r' p', turns C ent r' p' x).
  { destruct (H3 x Ix) as (_ & [(en & r' & p' & _ & _ & T')|(z & Iz & Ez)]); [exists r', p'; exact T'|]. destruct (Lk z Iz) as (r' & p' & _ & T'). exists r', p'. rewrite Ez. exact T'. }
  destruct T' as (r' & p' & T'). exact (turns_sided C ent r p r' p' y x T T' (multiples_sides _ _ M)).
Qed.

Theorem chempot_flow_sound pinv ens m nmk smk max find fi ps ts k b net0 paths :
  (forall M v, length (pinv M v) = length M) -> (forall l p, In p (uniq l) -> In p l) ->
  ens <> [] -> (forall en, In en ens -> any_usable en) ->
  minimizer_usable m ->
  (forall outs gs, Forall2 (fun en xs => outs_of en = Ok xs) ens outs -> gfound m = Ok gs -> sharp (map (set_rxn C) (concat outs) ++ map (open_set_rxn C el mu) gs)) -> incl (ps ++ ts) entries -> most_stable C ent epa0 entries (ps ++ ts) -> NoDup (ps ++ ts) ->
  (forall i, In i (ps ++ ts) -> (exists r p, reacts0 ens r p /\ In i (r ++ p)) \/ exists r p, gfinds m r p /\ determined C form0 r p /\ In i (r ++ p)) ->
  (forall i, In i ts -> exists x, In x (ReactionModel.elems C (e_comp (ent i))) /\ x <> el) ->
  nm_precursors nmk = Some (map form0 ps) -> ps <> [] -> nm_targets nmk = Some (map form0 ts) -> ts <> [] -> nm_k nmk = Some k -> 0 < k ->
  sm_precursors smk = map form0 ps -> sm_targets smk = map form0 ts ->
  post_init C (exact_solve C) (exact_rank C) (solver_at el mu smk) = Ok b -> num_errors b = Some 0 ->
  chempot_flow C ent solve rank diagram phase_diagram interface grand_diagram grand_interface pair_order arrange argsort shuffle wait owait mwait gwait listed members cpus nwait xcost sp xeq (exact_solve C) (exact_rank C) req pinv waits1 waits2 uniq clean cost chunk order ichunk ijobs mchunk mjobs cutoff ub um gas_of grand ens m el mu entries nmk smk max find fi = Ok (net0, paths) ->
  exists us rs per es ks kp pool rxns, NoDup us /\ incl us entries
  /\ (forall x, In x rs -> plain x /\ ((exists en r p, In en ens /\ looks en r p /\ turns C ent r p x) \/ exists r p, glooks m r p /\ turns C ent r p x))
  /\ (forall x, In x rs -> x_mu x = Some [(el, mu)])
  /\ Forall2 (fun t pathways => pathways_to xcost rs (map here ps) (here t) k pathways) ts per
  /\ Forall2 (stands_for us) (map here (ps ++ ts)) es /\ length ks = length ps /\ length kp = length ts /\ parts net0 = combine es (ks ++ kp) /\ environment (Some el) mu net0
  /\ Forall (fun q => (q <= -(1 # 1000000))%Q) ks /\ Forall (fun q => (1 # 1000000 <= q)%Q) kp
  /\ (forall e, (Qabs (ReactionSpec.net C (combine (map form0 (ps ++ ts)) (ks ++ kp)) e) <= 1 # 100000000)%Q)
  /\ lists_entries (fun i => e_comp (ent i)) (fun i => e_energy (ent i)) us pool /\ (forall r, In r rxns -> exists x, on_path rs per x /\ amounts_of us x (turnover r))
  /\ ((forall targets mids xb xo xm, targets_of net0 = Ok targets -> intermediates C order pool rxns targets = Ok mids ->
         (if ub then basic_objects C (exact_solve C) (exact_rank C) diagram wait ichunk ijobs pool mids (map e_id targets) else Ok []) = Ok xb ->
         (if ub then gas_objects C (exact_solve C) (exact_rank C) diagram owait ichunk ijobs (gas_of el) pool mids (map e_id targets) else Ok []) = Ok xo ->
         (if um then min_objects C (exact_solve C) (exact_rank C) (diagram_for phase_diagram (with_index pool)) (kinks_for interface (with_index pool)) pair_order mwait mchunk mjobs pool mids (map e_id targets) else Ok []) = Ok xm -> sharp (map (set_rxn C) (xb ++ xo ++ xm))) ->
      (um = true -> forall targets mids, targets_of net0 = Ok targets -> intermediates C order pool rxns targets = Ok mids ->
         exists s, grand el mu pool mids (map e_id targets) = Ok s /\ well_formed s /\ r_entries s = arrange (map (in_set C (with_index pool)) mids)) ->
      (um = true -> kinks_make_sense C pool rxns net0 (diagram_for phase_diagram (with_index pool)) (kinks_for interface (with_index pool))) ->
      forall q, In q paths -> exists ms steps, p_coeffs q = Some ms /\ length ms = length steps /\ 1 <= length steps <= max /\ Forall (fun m => (1 # 1000000 <= m)%Q) ms
      /\ Forall2 makes_amounts (p_rxns q) steps
      /\ (forall a, In a steps -> (exists x, on_path rs per x /\ amounts_of us x a)
            \/ find = true /\ exists r p y, ((ub = true /\ (might_react C pool rxns net0 r p \/ gas_reacts C pool rxns net0 (gas_of el) r p)) \/ (um = true /\ kink_between C pool rxns net0 (diagram_for phase_diagram (with_index pool)) (kinks_for interface (with_index pool)) r p)) /\ turns_into C r p y /\ open_of_entries pool el mu y /\ (distinct C (parts y) -> grand_low C el mu cutoff (parts y)) /\ forall i, (a i == turnover y i)%Q)
      /\ forall i, (Qabs (total ms steps i - turnover net0 i) <= (1 # 100000000) + (1 # 100000) * Qabs (turnover net0 i))%Q).
Proof.
  intros Hpinv Hun Hens Us Um Sh Hincl Hst Nd Hin Hot Ep Hps Et Hts Ek Hk Sp St Pi Ze H.
  destruct (grand_brings ens m Us Um Sh) as (s & out & E & Hg & Am & Sh' & Lk & Fd).
  unfold chempot_flow in H. rewrite E in H. cbn [bind] in H.
  destruct (open_flow_sound C W Hbig ent Hid diagram wait Hw owait Hwo phase_diagram interface Htidy pair_order Hpair mwait Hmw entries Hn Hne Hel Hgood arrange Harr argsort Harg shuffle Hsh listed members Hlisted Hmembers cpus Hcpus nwait Hnw xcost Hcost sp Hsp xeq Hxeq req waits1 waits2 uniq clean cost chunk Hw1 Hw2 Hchunk order Hord ichunk ijobs Hic Hij mchunk mjobs Hmc Hmj ub um cutoff gas_of grand
    pinv ens [s] [out] (network_at el mu nmk) (solver_at el mu smk) max find fi ps ts k el b net0 paths Hpinv Hun Hens Us Hg Am Sh' Hincl Hst Nd (brought ens m out ps ts Fd Hin) Hot Ep Hps Et Hts Ek Hk Sp St eq_refl Pi Ze H)
    as (us & rs & per & es & ks & kp & pool & rxns & H1 & H2 & H3 & H4 & Rest).
  exists us, rs, per, es, ks, kp, pool, rxns. split; [exact H1|]. split; [exact H2|]. split.
  { intros x Ix. destruct (H3 x Ix) as (P0 & [L|(y & Iy & Ey)]); (split; [exact P0|]); [left; exact L|right]. destruct (Lk y Iy) as (r & p & L & T). exists r, p. split; [exact L|]. rewrite Ey. exact T. }
  split; [exact (H4 el eq_refl)|exact Rest].
Qed.
End GrandFlow.
