(* From entries to balanced pathways. *)
From Coq Require Import Lqa.
From Verif Require Import Prelude NumQ SumQ ListFacts UtilsModel UtilsSpec ReactionModel ReactionSpec ReactionBaseProofs RxnSetModel RxnSetSpec PathModel PathSpec SolverModel SolverSpec
  NetModel YenModel YenSpec FlowModel NetJobModel NetJobSpec SolveJobModel SolveJobSpec SolveJobProofs EnumModel EnumSpec EnumLinkModel LinModel LinSpec LinProofs LinBalanceProofs PinvModel PinvProofs CapSpec CapProofs
  RunModel ChainModel ChainSpec ChainProofs ChainFindSpec ChainFindProofs JoinModel JoinSpec JoinProofs WholeModel.
Open Scope nat_scope.

Section Whole.
Variable C : chem.
Hypothesis W : wf_chem C.
Hypothesis Hbig : forall c e, In e (ReactionModel.elems C c) -> (1 # 100 < amt C (red C c) e)%Q.
Variable ent : nat -> entry.
Hypothesis Hid : forall i, e_id (ent i) = i.
Context {D : Type}.
Variable diagram : list nat -> D.
Variable wait : nat -> list (list (list (list nat * list nat) * D)) -> list (list (list (list nat * list nat) * D)) * list (list (list (list nat * list nat) * D)).
Hypothesis Hw : valid_schedule wait.
Variable entries : list nat.
Hypothesis Hn : NoDup entries.
Hypothesis Hne : entries <> [].
Hypothesis Hel : forall e, In e entries -> ReactionModel.elems C (e_comp (ent e)) <> [].
Variable arrange : list sentry -> list sentry.
Hypothesis Harr : arranges arrange.
Variable argsort : list Q -> list nat.
Hypothesis Harg : forall l, Permutation (argsort l) (seq 0 (length l)).
Variable shuffle : list nat -> list nat.
Hypothesis Hsh : forall l, Permutation (shuffle l) l.
Variable listed members : list nat -> list nat.
Hypothesis Hlisted : forall us, NoDup us -> Permutation (listed us) us.
Hypothesis Hmembers : forall us, Permutation (members us) (seq 0 (length us)).
Variable cpus : nat.
Hypothesis Hcpus : 2 <= cpus.
Variable nwait : nat -> list (nat * list (option (list nat)) * result (list nat)) ->
  list (nat * list (option (list nat)) * result (list nat)) * list (nat * list (option (list nat)) * result (list nat)).
Hypothesis Hnw : valid_schedule nwait.
Variable xcost : srxn -> Q.
Hypothesis Hcost : forall r, (0 <= xcost r)%Q.
Variable sp : (payload -> Q) -> list (nat * nat * payload) -> nat -> nat -> option (list nat).
Hypothesis Hsp : forall weight, shortest weight (sp weight).
Variable xeq : srxn -> srxn -> bool.
Hypothesis Hxeq : forall r, xeq r r = true.
Notation solve := (entry_solve C ent).
Notation rank := (entry_rank C ent).
Notation here := (in_set C ent).
Notation form0 := (fun i => red C (e_comp (ent i))).
Notation epa := (fun u => e_energy (ent u) / natoms C (e_comp (ent u)))%Q.

Definition sharp_outputs (ens : list enumerator) : Prop :=
  forall outs, Forall2 (fun en xs => enumerated C ent solve rank diagram wait entries en = Ok xs) ens outs -> sharp (map (set_rxn C) (concat outs)).

(* What the enumeration hands on. *)
Lemma handed_on ens ps ts : ens <> [] -> (forall en, In en ens -> usable en) -> sharp_outputs ens ->
  incl (ps ++ ts) entries -> most_stable C ent epa entries (ps ++ ts) -> (forall i, In i (ps ++ ts) -> exists r p, reacts C ent entries ens r p /\ In i (r ++ p)) ->
  exists s out, enumeration_job C ent solve rank diagram arrange argsort shuffle wait ens entries = Ok (Some s) /\ get_rxns s = Ok out
  /\ (forall x, In x out -> plain x /\ (forall e, In e (x_entries x) -> exists i, In i entries /\ e = here i) /\ exists en r p, In en ens /\ looks_at C ent entries en r p /\ turns C ent r p x)
  /\ (forall r p, reacts C ent entries ens r p -> exists x, In x out /\ turns C ent r p x)
  /\ (sharp out /\ forall x, In x out -> x_mu x = None)
  /\ (forall x y, In x (all_entries out) -> In y (all_entries out) -> uid x = uid y -> x = y)
  /\ (forall r e, In r out -> In e (x_entries r) -> comp e = e_comp (ent (uid e)) /\ form e = red C (comp e))
  /\ (forall f, In f (map form0 ps ++ map form0 ts) -> exists r e, In r out /\ In e (x_entries r) /\ form e = f)
  /\ (forall l l', incl l (ps ++ ts) -> Forall2 (lowest epa out) (map form0 l) l' -> l' = map here l).
Proof.
  intros Hens Us Sh Hincl Hform Hin.
  destruct (enumeration_spec C W Hbig ent Hid diagram wait Hw entries Hn Hne Hel arrange Harr argsort Harg shuffle Hsh ens Hens Us Sh) as (s & out & E & G & _ & Good & Comp & _ & Sho).
  assert (Hent : forall x e, In x out -> In e (x_entries x) -> exists i, In i entries /\ e = here i).
  { intros x e Ix Ie. destruct (Good x Ix) as (en & _ & _ & H & _). exact (H e Ie). }
  assert (Comp' : forall r p, reacts C ent entries ens r p -> exists x, In x out /\ turns C ent r p x).
  { intros r p ((en & Ie & L) & Dt). exact (Comp en r p Ie L Dt). }
  exists s, out. split; [exact E|]. split; [exact G|]. split.
  { intros x Ix. destruct (Good x Ix) as (en & Ie & P & He & r & p & L & T). split; [exact P|]. split; [exact He|]. exists en, r, p. auto. }
  split; [exact Comp'|]. split; [exact Sho|]. split; [|split; [|split]].
  - intros x y Ix Iy. apply in_flat_map in Ix as (a & Ia & Ix), Iy as (b & Ib & Iy). destruct (Hent a x Ia Ix) as (i & _ & ->). destruct (Hent b y Ib Iy) as (j & _ & ->). cbn. intros ->. reflexivity.
  - intros x e Ix Ie. destruct (Hent x e Ix Ie) as (i & _ & ->). split; reflexivity.
  - intros f If. rewrite <- map_app in If. apply in_map_iff in If as (i & <- & Ii). destruct (Hin i Ii) as (r & p & Fd & Irp). destruct (Comp' r p Fd) as (x & Ix & (U & M & _)).
    exists x, (here i). split; [exact Ix|]. split; [|reflexivity]. apply in_app_iff in Irp as [I|I].
    + destruct (proj2 (U (here i)) (ex_intro _ i (conj I eq_refl))) as (c & T & _). exact (in_combine_l _ _ _ _ T).
    + destruct (proj2 (M (here i)) (ex_intro _ i (conj I eq_refl))) as (c & T & _). exact (in_combine_l _ _ _ _ T).
  - induction l as [|i l IH]; intros l' Hl F; cbn [map] in F; inversion F as [|f e fs l0 L F0]; subst; [reflexivity|]. rewrite (IH l0) by (try exact F0; intros j Hj; apply Hl; right; exact Hj). cbn [map]. f_equal.
    destruct L as (Lf & (x & Ix & Ie) & Lw). destruct (Hent x e Ix Ie) as (j & Hj & ->). f_equal.
    cbn [form in_set] in Lf. pose proof (Hl i (or_introl eq_refl)) as Ii. destruct (Hform i j Ii Hj Lf) as [Ej|Lt]; [exact Ej|]. exfalso.
    destruct (Hin i Ii) as (r & p & Fd & Irp). destruct (Comp' r p Fd) as (y & Iy & T). specialize (Lw y (here i) Iy (turns_entries C ent r p y i T Irp) eq_refl). cbn [uid in_set] in Lw. cbv beta in Lt, Lw. lra.
Qed.

Lemma only_set (out : list srxn) : concat [out] = out.
Proof. cbn [concat]. apply app_nil_r. Qed.

(* Of each step the reaction it stands for *)
Lemma steps_of_reactions us (P : srxn -> Prop) (steps : list (nat -> Q)) : (forall a, In a steps -> exists x, P x /\ amounts_of us x a) ->
  exists xs, Forall2 (fun a x => P x /\ amounts_of us x a) steps xs.
Proof.
  induction steps as [|a l IH]; intros H; [exists []; constructor|]. destruct IH as (xs & F); [intros b I; apply H; right; exact I|]. destruct (H a (or_introl eq_refl)) as (x & Hx). exists (x :: xs). constructor; assumption.
Qed.
Lemma steps_total us (P : srxn -> Prop) steps xs : Forall2 (fun a x => P x /\ amounts_of us x a) steps xs ->
  forall ms i u, nth_error us i = Some u -> (total ms steps i == together ms xs u)%Q.
Proof.
  unfold total, together. induction 1 as [|a x steps xs (_ & A) _ IH]; intros [|m ms] i u E; cbn [combine sumQ fst snd]; try reflexivity. pose proof (A i) as H2. rewrite E in H2. apply Qplus_comp; [apply Qmult_comp; [reflexivity|exact H2]|exact (IH ms i u E)].
Qed.

(* A pair of phases the enumeration looks at stays with the reaction when the environment is set. *)
Lemma rs_turn out m rs ens : families m out rs -> (forall x, In x out -> plain x /\ (forall e, In e (x_entries x) -> exists i, In i entries /\ e = here i) /\ exists en r p, In en ens /\ looks_at C ent entries en r p /\ turns C ent r p x) ->
  forall x, In x rs -> plain x /\ exists en r p, In en ens /\ looks_at C ent entries en r p /\ turns C ent r p x.
Proof. intros (_ & Fb & _) Good x Ix. destruct (Fb x Ix) as (y & Iy & ->). destruct (Good y Iy) as (P & _ & en & r & p & Ie & L & T). split; [exact P|]. exists en, r, p. split; [exact Ie|]. split; [exact L|exact T]. Qed.

Variable req : rxn -> rxn -> bool.
Variable waits1 waits2 : nat -> nat -> list nat -> list nat * list nat.
Variable uniq : list (path rxn) -> list (path rxn).
Variable clean : list rxn -> list rxn.
Variable cost : rxn -> Q.
Variable inter : list entry -> list rxn -> rxn -> result (list rxn).
Variable chunk : nat.
Hypothesis Hw1 : forall k, valid_schedule (waits1 k).
Hypothesis Hw2 : forall k, valid_schedule (waits2 k).

Lemma nonempty_map (l : list nat) : l <> [] -> map form0 l <> [].
Proof. destruct l; [contradiction|discriminate]. Qed.
Lemma form_once l : incl l entries -> most_stable C ent epa entries l -> NoDup l -> NoDup (map form0 l).
Proof.
  intros I S N. apply nodup_map_on; [exact N|]. intros x y Hx Hy E. destruct (S y x Hy (I x Hx) E) as [G|G]; [exact G|]. destruct (S x y Hx (I y Hy) (eq_sym E)) as [G'|G']; [congruence|]. lra.
Qed.

Theorem whole_sound (lsq : list nat -> list nat -> list nat -> list Q) lrank pinv ens nmk smk max fi ps ts k b net0 paths :
  (forall r p c, length (lsq r p c) = length r + length p) -> (forall M v, length (pinv M v) = length M) -> (forall l p, In p (uniq l) -> In p l) ->
  ens <> [] -> (forall en, In en ens -> usable en) -> sharp_outputs ens -> incl (ps ++ ts) entries -> most_stable C ent epa entries (ps ++ ts) -> NoDup (ps ++ ts) ->
  (forall i, In i (ps ++ ts) -> exists r p, reacts C ent entries ens r p /\ In i (r ++ p)) ->
  nm_precursors nmk = Some (map form0 ps) -> ps <> [] -> nm_targets nmk = Some (map form0 ts) -> ts <> [] -> nm_k nmk = Some k -> 0 < k ->
  sm_precursors smk = map form0 ps -> sm_targets smk = map form0 ts ->
  post_init C lsq lrank smk = Ok b -> num_errors b = Some 0 ->
  whole_flow C ent solve rank diagram arrange argsort shuffle wait listed members cpus nwait xcost sp xeq lsq lrank req pinv waits1 waits2 uniq clean cost inter chunk ens entries nmk smk max false fi = Ok (net0, paths) ->
  exists us rs per es ks kp, NoDup us /\ incl us entries
  /\ (forall x, In x rs -> plain x /\ exists en r p, In en ens /\ looks_at C ent entries en r p /\ turns C ent r p x)
  /\ Forall2 (fun t pathways => pathways_to xcost rs (map here ps) (here t) k pathways) ts per
  /\ Forall2 (stands_for us) (map here (ps ++ ts)) es /\ length ks = length ps /\ length kp = length ts /\ parts net0 = combine es (ks ++ kp)
  /\ Forall (fun q => (q <= -(1 # 1000000))%Q) ks /\ Forall (fun q => (1 # 1000000 <= q)%Q) kp
  /\ (forall el, (Qabs (ReactionSpec.net C (combine (map form0 (ps ++ ts)) (ks ++ kp)) el) <= 1 # 100000000)%Q)
  /\ forall q, In q paths -> exists ms xs, p_coeffs q = Some ms /\ length ms = length xs /\ 1 <= length xs <= max /\ Forall (fun m => (1 # 1000000 <= m)%Q) ms
     /\ (forall x, In x xs -> on_pathways xcost rs (concat per) x) /\ Forall2 (fun r x => exists a, makes_amounts r a /\ amounts_of us x a) (p_rxns q) xs
     /\ forall i u, nth_error us i = Some u -> (Qabs (together ms xs u - turnover net0 i) <= (1 # 100000000) + (1 # 100000) * Qabs (turnover net0 i))%Q.
Proof.
  intros Hlsq Hpinv Huniq Hens Us Sh Hincl Hform Nd Hin Ep Hps Et Hts Ek Hk Sp St Pi Ze H.
  destruct (handed_on ens ps ts Hens Us Sh Hincl Hform Hin) as (s & out & E & G & Good & Comp & (Sho & Hmu) & Hu & Hf & Hre & Hlow).
  unfold whole_flow in H. rewrite E in H. cbn [bind] in H.
  destruct (chain_sound C W (fun i => e_comp (ent i)) (fun i => e_energy (ent i)) listed members Hlisted Hmembers arrange Harr argsort Harg shuffle Hsh cpus Hcpus nwait Hnw xcost Hcost sp Hsp xeq Hxeq lsq lrank Hlsq req pinv
    waits1 waits2 uniq clean cost (fun _ _ _ => Ok []) chunk Hw1 Hw2 Hpinv Huniq nmk smk max false fi [s] [out] (map form0 ps) (map form0 ts) k b net0 paths) as (us & rs & m & pe & te & per & Nus & Ius & Fam & _ & Lp & Lt & Path & (gs & gt & es & ks & kp & L1 & L2 & Std & K1 & K2 & Pn & F1 & F2 & Cons) & Bal);
    rewrite ?only_set; try assumption.
  - constructor; [exact G|constructor].
  - intros x Ix. apply (Good x Ix).
  - apply nonempty_map. exact Hps.
  - apply nonempty_map. exact Hts.
  - rewrite <- map_app. apply form_once; assumption.
  - intros f If. rewrite <- map_app in If. apply in_map_iff in If as (i & <- & _). apply (wf_red_red C W).
  - intros es' rx l r _ _ [= <-] [].
  - rewrite only_set in Ius, Fam, Lp, Lt, L1, L2. rewrite map_length in K1, K2. rewrite <- map_app in Cons.
    assert (Ips : incl ps (ps ++ ts)) by (intros i I; apply in_app_iff; left; exact I). assert (Its : incl ts (ps ++ ts)) by (intros i I; apply in_app_iff; right; exact I).
    apply Hlow in Lp as ->; [|exact Ips]. apply Hlow in Lt as ->; [|exact Its]. apply Hlow in L1 as ->; [|exact Ips]. apply Hlow in L2 as ->; [|exact Its]. rewrite <- map_app in Std.
    exists us, rs, per, es, ks, kp. split; [exact Nus|]. split.
    { intros u Iu. apply Ius in Iu as (e & Ie & <-). apply in_flat_map in Ie as (x & Ix & Ie). destruct (Good x Ix) as (_ & He & _). destruct (He e Ie) as (i & Ii & ->). exact Ii. }
    split; [exact (rs_turn out m rs ens Fam Good)|]. split.
    { clear -Path. revert per Path. induction ts as [|t l IH]; intros per Path; cbn [map] in Path; inversion Path; subst; constructor; [assumption|apply IH; assumption]. }
    repeat (split; [assumption|]). intros q Iq. destruct (Bal q Iq) as (ms & steps & B1 & B2 & B3 & B4 & B5 & B6 & B7).
    destruct (steps_of_reactions us (on_pathways xcost rs (concat per)) steps) as (xs & Fx).
    { intros a Ia. destruct (B6 a Ia) as [(x & O & A)|(Ff & _)]; [exists x; auto|discriminate]. }
    pose proof (Forall2_length _ _ _ Fx) as Lx. exists ms, xs. split; [exact B1|]. split; [congruence|]. split; [rewrite <- Lx; exact B3|]. split; [exact B4|]. split; [|split].
    + intros x Ix. destruct (Forall2_In_r _ _ _ _ Fx Ix) as (a & _ & (O & _)). exact O.
    + clear -B5 Fx. revert xs Fx. induction B5 as [|r a l steps Ma _ IH]; intros xs Fx; inversion Fx as [|? x ? xs0 (_ & A) F]; subst; constructor; [exists a; auto|apply IH; exact F].
    + intros i u Eu. rewrite <- (steps_total us _ steps xs Fx ms i u Eu). apply B7.
Qed.

Variable rhash : rxn -> nat.
Hypothesis Hreq : forall r, req r r = true.
Hypothesis Huniq : set_members req rhash uniq.
Hypothesis Hnone : uniq [] = [].
Hypothesis Hclean : keeps_all req clean.
Hypothesis Hchunk : 1 <= chunk.
Notation obj us := (rxn_of C (fun i => e_comp (ent i)) (fun i => e_energy (ent i)) listed us).

Lemma multiples_entries x y : length (x_coeffs x) = length (x_entries x) -> multiples x y -> forall e, In e (x_entries x) -> In e (x_entries y).
Proof.
  intros L (k & l & _ & (P1 & P2) & _) e Ie. destruct (path_item (x_entries x) (x_coeffs x) e (eq_sym L) Ie) as (c & Ic). apply (Permutation_in _ (Permutation_sym P1)) in Ic. apply in_map_iff in Ic as ([[e0 a] b] & Ee & Il).
  injection Ee as -> ->. apply (in_combine_l _ (x_coeffs y) e b). apply (Permutation_in _ P2). apply in_map_iff. exists (e, c, b). split; [reflexivity|exact Il].
Qed.
Lemma whole_finds_with ens nmk smk max find fi ps ts k : ens <> [] -> (forall en, In en ens -> usable en) -> sharp_outputs ens -> incl (ps ++ ts) entries -> most_stable C ent epa entries (ps ++ ts) -> determined C form0 ps ts ->
  (forall i, In i (ps ++ ts) -> exists r p, reacts C ent entries ens r p /\ In i (r ++ p)) ->
  nm_precursors nmk = Some (map form0 ps) -> ps <> [] -> nm_targets nmk = Some (map form0 ts) -> ts <> [] -> nm_k nmk = Some k -> 0 < k ->
  sm_precursors smk = map form0 ps -> sm_targets smk = map form0 ts ->
  exists us rs per net0 es ks v t rxns, NoDup us /\ incl us entries /\ (forall u, In u us <-> exists x, In x rs /\ In (here u) (x_entries x))
  /\ (forall x, In x rs -> plain x /\ exists en r p, In en ens /\ looks_at C ent entries en r p /\ turns C ent r p x)
  /\ (forall r p, reacts C ent entries ens r p -> exists x, In x rs /\ turns C ent r p x)
  /\ (forall i j x y, nth_error rs i = Some x -> nth_error rs j = Some y -> multiples x y -> i = j)
  /\ Forall2 (fun t pathways => pathways_to xcost rs (map here ps) (here t) k pathways) ts per
  /\ Forall2 (stands_for (listed us)) (map here (ps ++ ts)) es /\ only_combination C (map form0 (ps ++ ts)) v /\ LinSpec.sides (length ps) v /\ (0 < t)%Q /\ multiple t v ks /\ parts net0 = combine es ks
  /\ environment (sm_open smk) (sm_chempot smk) net0
  /\ (forall r, In r rxns -> exists x, on_pathways xcost rs (concat per) x /\ r = obj us x)
  /\ (forall x, on_pathways xcost rs (concat per) x -> exists x' r, on_pathways xcost rs (concat per) x' /\ xeq x' x = true /\ In r rxns /\ req (obj us x') r = true)
  /\ (nm_open nmk = None -> forall x, In x rs -> x_mu x = None) /\ (forall x, In x rs -> amounts_of (listed us) x (turnover (obj us x)))
  /\ forall ys, (find = true -> inter (numbered (fun i => e_comp (ent i)) (fun i => e_energy (ent i)) listed us) rxns net0 = Ok (map (obj us) ys)) -> (find = false -> ys = []) ->
     (forall y, In y ys -> plain y /\ x_entries y <> [] /\ (forall e, In e (x_entries y) -> exists u, In u us /\ e = here u) /\ forall c, In c (x_coeffs y) -> (1 # 100000000 < Qabs c)%Q) ->
     (forall x y, In x rs -> In y rs -> xeq x y = true -> like x y) ->
     (forall x y, In x (rs ++ ys) -> In y (rs ++ ys) -> req (obj us x) (obj us y) = true -> like x y) ->
     (forall x y, In x (rs ++ ys) -> In y ys -> multiples x y \/ multiples y x -> req (obj us x) (obj us y) = true /\ req (obj us y) (obj us x) = true) ->
     (forall x, In x (rs ++ ys) -> req (obj us x) net0 = true -> amounts_of (listed us) x (turnover net0)) ->
     (forall x r, In x (rs ++ ys) -> environment (sm_open smk) (sm_chempot smk) r -> amounts_of (listed us) x (turnover r) -> req (obj us x) r = true) ->
     let allowed := fun x => (on_pathways xcost rs (concat per) x \/ In x ys) /\ ~ amounts_of (listed us) x (turnover net0) in
     forall ds, length ds = max -> (forall i j x y, i < j -> nth_error ds i = Some x -> nth_error ds j = Some y -> ~ like x y) -> (forall x, In x ds -> allowed x) ->
     forall xs ms, 1 <= length xs <= max -> (forall x, In x xs -> allowed x) -> unrelated xs ->
     (fi = true -> ~ circle (takes C (fun i => e_comp (ent i))) (gives C (fun i => e_comp (ent i))) (map (fun i => e_comp (ent i)) ps) xs) ->
     length ms = length xs -> Forall (fun q => (1 # 1000000 <= q)%Q) ms ->
     (forall i u, nth_error (listed us) i = Some u -> (together ms xs u == turnover net0 i)%Q) ->
     exists paths q ms' ms0 xs0, whole_flow C ent solve rank diagram arrange argsort shuffle wait listed members cpus nwait xcost sp xeq (exact_solve C) (exact_rank C) req path_pinv waits1 waits2 uniq clean cost inter chunk ens entries nmk smk max find fi = Ok (net0, paths)
     /\ In q paths /\ p_coeffs q = Some ms' /\ Forall2 Qeq ms' ms0 /\ length ms0 = length xs0 /\ Permutation (combine ms xs) (combine ms0 xs0)
     /\ Forall2 (fun x r => exists r', amounts_of (listed us) x (turnover r') /\ environment (sm_open smk) (sm_chempot smk) r' /\ req r' r = true) xs0 (p_rxns q).
Proof.
  intros Hens Us Sh Hincl Hform (Nd & v & Ov & Sv) Hin Ep Hps Et Hts Ek Hk Sp St.
  destruct (handed_on ens ps ts Hens Us Sh Hincl Hform Hin) as (s & out & E & G & Good & Comp & (Sho & Hmu) & Hu & Hf & Hre & Hlow).
  destruct (chain_finds C W (fun i => e_comp (ent i)) (fun i => e_energy (ent i)) listed members Hlisted Hmembers arrange Harr argsort Harg shuffle Hsh cpus Hcpus nwait Hnw xcost Hcost sp Hsp xeq Hxeq req
    waits1 waits2 uniq clean cost inter chunk rhash Hw1 Hw2 Hreq Huniq Hnone Hclean Hchunk nmk smk max find fi [s] [out] (map form0 ps) (map form0 ts) k v) as (us & rs & m & pe & te & per & net0 & gs & es & ks & t & rxns & Nus & Ius & Fam & Hm0 & Lp & Lt & Path & L1 & Std & Tp & M & Pn & Env & Rx1 & Rx2 & Find);
    rewrite ?only_set; try assumption.
  - constructor; [exact G|constructor].
  - intros x Ix. apply (Good x Ix).
  - intros x Ix En0. destruct (Good x Ix) as (_ & _ & en & r & p & _ & Lk & (U & _)). apply looks_some in Lk as [Lc _]. destruct r as [|i r]; [contradiction|].
    destruct (proj2 (U (here i)) (ex_intro _ i (conj (or_introl eq_refl) eq_refl))) as (c & T & _). apply in_combine_l in T. rewrite En0 in T. destruct T.
  - intros x c Ix Ic. destruct (Good x Ix) as ((_ & Lc & _) & _ & en & r & p & _ & _ & (_ & _ & B & _)).
    assert (Te : exists e, takes_part x e c).
    { revert Lc Ic. clear. unfold takes_part. generalize (x_entries x). induction (x_coeffs x) as [|c0 l IH]; intros [|e es] Lc Ic; try discriminate; [destruct Ic|]. destruct Ic as [->|Ic]; [exists e; left; reflexivity|].
      destruct (IH es ltac:(cbn in Lc; lia) Ic) as (e' & I). exists e'. right. exact I. }
    destruct Te as (e & Te). specialize (B e c Te). lra.
  - apply nonempty_map. exact Hps.
  - apply nonempty_map. exact Hts.
  - rewrite <- map_app. exact Nd.
  - intros f If. rewrite <- map_app in If. apply in_map_iff in If as (i & <- & _). apply (wf_red_red C W).
  - rewrite <- map_app. exact Ov.
  - rewrite map_length. exact Sv.
  - rewrite only_set in Ius, Fam, Lp, Lt, L1. rewrite <- map_app in L1.
    assert (Ips : incl ps (ps ++ ts)) by (intros i I; apply in_app_iff; left; exact I). assert (Its : incl ts (ps ++ ts)) by (intros i I; apply in_app_iff; right; exact I).
    apply Hlow in Lp as ->; [|exact Ips]. apply Hlow in Lt as ->; [|exact Its]. apply Hlow in L1 as ->; [|apply incl_refl].
    pose proof (rs_turn out m rs ens Fam Good) as Rs.
    exists us, rs, per, net0, es, ks, v, t, rxns. split; [exact Nus|]. split.
    { intros u Iu. apply Ius in Iu as (e & Ie & <-). apply in_flat_map in Ie as (x & Ix & Ie). destruct (Good x Ix) as (_ & He & _). destruct (He e Ie) as (i & Ii & ->). exact Ii. }
    split.
    { intros u. split.
      - intros Iu. apply Ius in Iu as (e & Ie & <-). apply in_flat_map in Ie as (x & Ix & Ie). destruct (Good x Ix) as (_ & He & _). destruct (He e Ie) as (i & Ii & ->).
        destruct (proj1 Fam x Ix) as (x' & Ix' & M'). exists x'. split; [exact Ix'|]. exact (multiples_entries _ _ (proj1 (proj2 (proj1 (Good x Ix)))) M' _ Ie).
      - intros (x & Ix & Ie). destruct (proj1 (proj2 Fam) x Ix) as (y & Iy & ->). apply Ius. exists (here u). split; [apply in_flat_map; exists y; split; [exact Iy|exact Ie]|reflexivity]. }
    split; [exact Rs|]. split.
    { intros r p Fd. destruct (Comp r p Fd) as (x & Ix & T). destruct (proj1 Fam x Ix) as (x' & Ix' & M'). exists x'. split; [exact Ix'|].
      destruct (Rs x' Ix') as (_ & en' & r' & p' & _ & _ & T'). exact (turns_sided C ent r p r' p' x x' T T' (multiples_sides _ _ M')). }
    split; [exact (proj2 (proj2 Fam))|]. split.
    { clear -Path. revert per Path. induction ts as [|t l IH]; intros per Path; cbn [map] in Path; inversion Path; subst; constructor; [assumption|apply IH; assumption]. }
    repeat (split; [assumption|]). split.
    { intros Eo x Ix. rewrite only_set in Hm0. destruct (proj1 (proj2 Fam) x Ix) as (y & _ & ->). exact (proj2 Hm0 Eo Hmu). }
    split.
    { intros x Ix. apply (rxn_turnover C (fun i => e_comp (ent i)) (fun i => e_energy (ent i)) listed Hlisted us Nus). intros e Ie. apply Ius. exists e. split; [|reflexivity].
      destruct (proj1 (proj2 Fam) x Ix) as (y & Iy & ->). apply in_flat_map. exists y. split; [exact Iy|exact Ie]. }
    intros ys Y1 Y2 Y3 T1 T2 T5 T3 T4 allowed ds Lds Ads Ods xs ms Lxs Oxs Uxs Hci Lms Mms Sum.
    unfold whole_flow. rewrite E. cbn [bind]. refine (Find ys Y1 Y2 _ T1 T2 T5 T3 T4 ds Lds Ads Ods xs ms Lxs Oxs Uxs _ Lms Mms Sum).
    + intros y Iy. destruct (Y3 y Iy) as (P & Ne & He & B). split; [exact P|]. split; [exact Ne|]. split; [|exact B]. intros e Ie. destruct (He e Ie) as (u & Iu & ->). rewrite only_set.
      apply Ius in Iu as (e' & Ie' & <-). pose proof Ie' as J. apply in_flat_map in J as (x & Ix & Iex). destruct (Good x Ix) as (_ & He' & _). destruct (He' e' Iex) as (i & _ & ->). exact Ie'.
    + intros F. rewrite map_length, map_app, firstn_app, !map_length, Nat.sub_diag, app_nil_r. rewrite firstn_all2 by (rewrite map_length; lia). rewrite map_map. exact (Hci F).
Qed.

Theorem whole_finds ens nmk smk max fi ps ts k : ens <> [] -> (forall en, In en ens -> usable en) -> sharp_outputs ens -> incl (ps ++ ts) entries -> most_stable C ent epa entries (ps ++ ts) -> determined C form0 ps ts ->
  (forall i, In i (ps ++ ts) -> exists r p, reacts C ent entries ens r p /\ In i (r ++ p)) ->
  nm_precursors nmk = Some (map form0 ps) -> ps <> [] -> nm_targets nmk = Some (map form0 ts) -> ts <> [] -> nm_k nmk = Some k -> 0 < k ->
  sm_precursors smk = map form0 ps -> sm_targets smk = map form0 ts ->
  exists us rs per net0 es ks v t, NoDup us /\ incl us entries
  /\ (forall x, In x rs -> plain x /\ exists en r p, In en ens /\ looks_at C ent entries en r p /\ turns C ent r p x)
  /\ (forall r p, reacts C ent entries ens r p -> exists x, In x rs /\ turns C ent r p x)
  /\ Forall2 (fun t pathways => pathways_to xcost rs (map here ps) (here t) k pathways) ts per
  /\ Forall2 (stands_for us) (map here (ps ++ ts)) es /\ only_combination C (map form0 (ps ++ ts)) v /\ (0 < t)%Q /\ multiple t v ks /\ parts net0 = combine es ks
  /\ environment (sm_open smk) (sm_chempot smk) net0
  /\ exists objects : srxn -> rxn, (forall x, In x rs -> amounts_of us x (turnover (objects x)))
  /\ ((forall x y, In x rs -> In y rs -> xeq x y = true -> like x y) ->
      (forall x y, In x rs -> In y rs -> req (objects x) (objects y) = true -> like x y) ->
      (forall x, In x rs -> req (objects x) net0 = true -> amounts_of us x (turnover net0)) ->
      (forall x r, In x rs -> environment (sm_open smk) (sm_chempot smk) r -> amounts_of us x (turnover r) -> req (objects x) r = true) ->
      forall ds, length ds = max -> (forall i j x y, i < j -> nth_error ds i = Some x -> nth_error ds j = Some y -> ~ like x y) ->
      (forall x, In x ds -> on_pathways xcost rs (concat per) x /\ ~ amounts_of us x (turnover net0)) ->
      forall xs ms, 1 <= length xs <= max -> (forall x, In x xs -> on_pathways xcost rs (concat per) x /\ ~ amounts_of us x (turnover net0)) -> unrelated xs ->
      (fi = true -> ~ circle (takes C (fun i => e_comp (ent i))) (gives C (fun i => e_comp (ent i))) (map (fun i => e_comp (ent i)) ps) xs) ->
      length ms = length xs -> Forall (fun q => (1 # 1000000 <= q)%Q) ms ->
      (forall i u, nth_error us i = Some u -> (together ms xs u == turnover net0 i)%Q) ->
      exists paths q ms' ms0 xs0, whole_flow C ent solve rank diagram arrange argsort shuffle wait listed members cpus nwait xcost sp xeq (exact_solve C) (exact_rank C) req path_pinv waits1 waits2 uniq clean cost inter chunk ens entries nmk smk max false fi = Ok (net0, paths)
      /\ In q paths /\ p_coeffs q = Some ms' /\ Forall2 Qeq ms' ms0 /\ length ms0 = length xs0 /\ Permutation (combine ms xs) (combine ms0 xs0)
      /\ Forall2 (fun x r => exists r', amounts_of us x (turnover r') /\ environment (sm_open smk) (sm_chempot smk) r' /\ req r' r = true) xs0 (p_rxns q)).
Proof.
  intros Hens Us Sh Hincl Hform Dt Hin Ep Hps Et Hts Ek Hk Sp St.
  destruct (whole_finds_with ens nmk smk max false fi ps ts k Hens Us Sh Hincl Hform Dt Hin Ep Hps Et Hts Ek Hk Sp St) as (us & rs & per & net0 & es & ks & v & t & rxns & Nus & Ius & _ & Rs & Comp & _ & Path & Std & Ov & _ & Tp & M & Pn & Env & _ & _ & _ & Am & Find).
  exists (listed us), rs, per, net0, es, ks, v, t. split; [exact (Permutation_NoDup (Permutation_sym (Hlisted us Nus)) Nus)|]. split; [intros u Iu; apply Ius; exact (Permutation_in _ (Hlisted us Nus) Iu)|].
  repeat (split; [assumption|]). exists (obj us). split; [exact Am|]. intros T1 T2 T3 T4 ds Lds Ads Ods xs ms Lxs Oxs Uxs Hci Lms Mms Sum.
  specialize (Find []). rewrite app_nil_r in Find. apply (Find ltac:(discriminate) ltac:(reflexivity) ltac:(intros y []) T1 T2 ltac:(intros x y _ []) T3 T4 ds Lds Ads); try assumption.
  - intros x Ix. destruct (Ods x Ix) as (O & A). split; [left; exact O|exact A].
  - intros x Ix. destruct (Oxs x Ix) as (O & A). split; [left; exact O|exact A].
Qed.
End Whole.
