(* C152: from entries to balanced pathways for an open element: with a further set of reactions, and with a search between intermediates
   that lets the element take part. *)
From Verif Require Import Prelude NumQ SumQ UtilsModel UtilsSpec ReactionModel ReactionSpec EnumModel EnumSpec EnumLinkModel EnumCheck RxnSetModel RxnSetSpec PathModel SolverModel SolverSpec SolverCheck NetModel YenModel YenSpec ShortestPath FlowModel NetJobModel NetJobSpec
  SolveJobModel SolveJobSpec SolveJobCheck LinModel LinSpec LinProofs LinBalanceProofs LinCheck PinvModel CapSpec CapCheck ChainModel ChainSpec ChainCheck ChainFindSpec ChainFindCheck RunModel JoinModel JoinSpec JoinCheck WholeModel WholeProofs WholeCheck
  IntModel IntSpec IntCheck IntFlowSpec IntFlowProofs IntFlowCheck MinModel MinSpec MinJoinModel MinJoinSpec MinJoinCheck IntMinModel IntMinSpec AnyWholeModel AnyWholeSpec AnyWholeCheck IntOpenModel IntOpenSpec OpenWholeModel OpenWholeSpec OpenWholeProofs OpenWholeCheck.
From Verif Require RxnSetCheck NetJobCheck.
Open Scope list_scope.
Open Scope nat_scope.

(* What comes out. The enumerators of the flow are as in C150; the reactions of the further sets (those of a
   MinimizeGrandPotentialEnumerator) are any between the entries. Every reaction of the network is of an enumerator or of a further set
   and, if the network is given an element, at its chemical potential. The pathways add up to the net reaction, which is at the
   potential of the solver; each of their steps is on a network pathway, or joins intermediates with the element open: one or two to
   one or two others, with the gas on one side as well, or at a kink. Missing: one CPU, how the further sets come about, precursors and
   targets that are not the most stable phase of their formula, targets of the open element alone, the energies of reactions with two
   phases of one formula, and kinks that pymatgen fails on. *)
Theorem C152_sound_partial :
  forall C, wf_chem C -> (forall c e, In e (ReactionModel.elems C c) -> (1 # 100 < amt C (red C c) e)%Q) ->
  forall ent, (forall i, e_id (ent i) = i) -> forall D PD (diagram : list nat -> D) wait, valid_schedule wait -> forall owait, valid_schedule owait ->
  forall (phase_diagram : list (nat * Q) -> result PD) interface,
  (forall pd a b ks kink, interface pd a b = Ok ks -> In kink ks -> NoDup (fst kink) /\ NoDup (snd kink) /\ (disjoint (fst kink) (snd kink) \/ exists f, kink = ([f], [f]))) ->
  forall pair_order, (forall l, Permutation (pair_order l) l) -> forall mwait, valid_schedule mwait ->
  forall entries, NoDup entries -> entries <> [] -> (forall e, In e entries -> ReactionModel.elems C (e_comp (ent e)) <> []) ->
  good_interfaces (fun i => ReactionModel.elems C (e_comp (ent i))) (fun i => red C (e_comp (ent i))) (diagram_for phase_diagram ent) (kinks_for interface ent) entries [] ->
  forall arrange, arranges arrange -> forall argsort, (forall l, Permutation (argsort l) (seq 0 (length l))) -> forall shuffle, (forall l, Permutation (shuffle l) l) ->
  forall listed members, (forall us, NoDup us -> Permutation (listed us) us) -> (forall us, Permutation (members us) (seq 0 (length us))) ->
  forall cpus, 2 <= cpus -> forall nwait, valid_schedule nwait -> forall xcost, (forall r, (0 <= xcost r)%Q) -> forall sp, (forall weight, shortest weight (sp weight)) ->
  forall xeq, (forall r, xeq r r = true) ->
  forall req waits1 waits2 uniq clean cost chunk, (forall k, valid_schedule (waits1 k)) -> (forall k, valid_schedule (waits2 k)) ->
  1 <= chunk ->
  forall order, (forall l, Permutation (order l) l) -> forall ichunk ijobs, 1 <= ichunk -> 1 <= ijobs -> forall mchunk mjobs, 1 <= mchunk -> 1 <= mjobs -> forall (ub um : bool) cutoff gas_of grand,
  forall pinv ens further more nmk smk max find fi ps ts k el b net0 paths,
  (forall M v, length (pinv M v) = length M) -> (forall l p, In p (uniq l) -> In p l) ->
  ens <> [] -> (forall en, In en ens -> any_usable en) ->
  Forall2 (fun s l => get_rxns s = Ok l) further more -> (forall x, In x (concat more) -> among C ent entries x) ->
  (forall outs, Forall2 (fun en xs => any_enumerated C ent (entry_solve C ent) (entry_rank C ent) diagram (diagram_for phase_diagram ent) (kinks_for interface ent) pair_order (fun u => e_energy (ent u) / natoms C (e_comp (ent u)))%Q wait mwait entries en = Ok xs) ens outs -> sharp (map (set_rxn C) (concat outs) ++ concat more)) -> incl (ps ++ ts) entries -> most_stable C ent (fun u => e_energy (ent u) / natoms C (e_comp (ent u)))%Q entries (ps ++ ts) -> NoDup (ps ++ ts) ->
  (forall i, In i (ps ++ ts) -> (exists r p, any_reacts C ent (diagram_for phase_diagram ent) (kinks_for interface ent) (fun u => e_energy (ent u) / natoms C (e_comp (ent u)))%Q entries ens r p /\ In i (r ++ p)) \/ exists y, In y (concat more) /\ In ((in_set C ent) i) (x_entries y)) ->
  (forall i, In i ts -> exists x, In x (ReactionModel.elems C (e_comp (ent i))) /\ x <> el) ->
  nm_precursors nmk = Some (map (fun i => red C (e_comp (ent i))) ps) -> ps <> [] -> nm_targets nmk = Some (map (fun i => red C (e_comp (ent i))) ts) -> ts <> [] -> nm_k nmk = Some k -> 0 < k ->
  sm_precursors smk = map (fun i => red C (e_comp (ent i))) ps -> sm_targets smk = map (fun i => red C (e_comp (ent i))) ts -> sm_open smk = Some el ->
  post_init C (exact_solve C) (exact_rank C) smk = Ok b -> num_errors b = Some 0 ->
  open_whole_flow C ent (entry_solve C ent) (entry_rank C ent) diagram phase_diagram interface pair_order arrange argsort shuffle wait owait mwait listed members cpus nwait xcost sp xeq (exact_solve C) (exact_rank C) req pinv waits1 waits2 uniq clean cost chunk order ichunk ijobs mchunk mjobs cutoff ub um gas_of grand ens entries further nmk smk max find fi = Ok (net0, paths) ->
  exists us rs per es ks kp pool rxns, NoDup us /\ incl us entries
  /\ (forall x, In x rs -> plain x /\ ((exists en r p, In en ens /\ any_looks C ent (diagram_for phase_diagram ent) (kinks_for interface ent) (fun u => e_energy (ent u) / natoms C (e_comp (ent u)))%Q entries en r p /\ turns C ent r p x) \/ exists y, In y (concat more) /\ x = with_mu (x_mu x) y))
  /\ (forall e, nm_open nmk = Some e -> forall x, In x rs -> x_mu x = Some [(e, nm_chempot nmk)])
  /\ Forall2 (fun t pathways => pathways_to xcost rs (map (in_set C ent) ps) ((in_set C ent) t) k pathways) ts per
  /\ Forall2 (stands_for us) (map (in_set C ent) (ps ++ ts)) es /\ length ks = length ps /\ length kp = length ts /\ parts net0 = combine es (ks ++ kp) /\ environment (Some el) (sm_chempot smk) net0
  /\ Forall (fun q => (q <= -(1 # 1000000))%Q) ks /\ Forall (fun q => (1 # 1000000 <= q)%Q) kp
  /\ (forall e, (Qabs (ReactionSpec.net C (combine (map (fun i => red C (e_comp (ent i))) (ps ++ ts)) (ks ++ kp)) e) <= 1 # 100000000)%Q)
  /\ lists_entries (fun i => e_comp (ent i)) (fun i => e_energy (ent i)) us pool /\ (forall r, In r rxns -> exists x, on_pathways xcost rs (concat per) x /\ amounts_of us x (turnover r))
  /\ ((forall targets mids xb xo xm, targets_of net0 = Ok targets -> intermediates C order pool rxns targets = Ok mids ->
         (if ub then basic_objects C (exact_solve C) (exact_rank C) diagram wait ichunk ijobs pool mids (map e_id targets) else Ok []) = Ok xb ->
         (if ub then gas_objects C (exact_solve C) (exact_rank C) diagram owait ichunk ijobs (gas_of el) pool mids (map e_id targets) else Ok []) = Ok xo ->
         (if um then min_objects C (exact_solve C) (exact_rank C) (diagram_for phase_diagram (with_index pool)) (kinks_for interface (with_index pool)) pair_order mwait mchunk mjobs pool mids (map e_id targets) else Ok []) = Ok xm -> sharp (map (set_rxn C) (xb ++ xo ++ xm))) ->
      (um = true -> forall targets mids, targets_of net0 = Ok targets -> intermediates C order pool rxns targets = Ok mids ->
         exists s, grand el (sm_chempot smk) pool mids (map e_id targets) = Ok s /\ well_formed s /\ r_entries s = arrange (map (in_set C (with_index pool)) mids)) ->
      (um = true -> kinks_make_sense C pool rxns net0 (diagram_for phase_diagram (with_index pool)) (kinks_for interface (with_index pool))) ->
      forall q, In q paths -> exists ms steps, p_coeffs q = Some ms /\ length ms = length steps /\ 1 <= length steps <= max /\ Forall (fun m => (1 # 1000000 <= m)%Q) ms
      /\ Forall2 makes_amounts (p_rxns q) steps
      /\ (forall a, In a steps -> (exists x, on_pathways xcost rs (concat per) x /\ amounts_of us x a)
            \/ find = true /\ exists r p y, ((ub = true /\ (might_react C pool rxns net0 r p \/ gas_reacts C pool rxns net0 (gas_of el) r p)) \/ (um = true /\ kink_between C pool rxns net0 (diagram_for phase_diagram (with_index pool)) (kinks_for interface (with_index pool)) r p)) /\ turns_into C r p y /\ open_of_entries pool el (sm_chempot smk) y /\ (distinct C (parts y) -> grand_low C el (sm_chempot smk) cutoff (parts y)) /\ forall i, (a i == turnover y i)%Q)
      /\ forall i, (Qabs (total ms steps i - turnover net0 i) <= (1 # 100000000) + (1 # 100000) * Qabs (turnover net0 i))%Q).
Proof. exact open_flow_sound. Qed.
Print Assumptions C152_sound_partial.

(* What is found. Everything the enumerators should find is there, and a multiple of every reaction of the further sets. Of the
   phases on the way, all reactions of the options are there, those with gas included, if there is one way only to react and the
   energy at the chemical potential is below the cutoff; and every sum of unrelated reactions of this kind and on the pathways that
   makes the net reaction is returned. Missing as above, and kinks with a phase that is not the only stable one of its formula. *)
Theorem C152_finds_partial :
  forall C, wf_chem C -> (forall c e, In e (ReactionModel.elems C c) -> (1 # 100 < amt C (red C c) e)%Q) ->
  forall ent, (forall i, e_id (ent i) = i) -> forall D PD (diagram : list nat -> D) wait, valid_schedule wait -> forall owait, valid_schedule owait ->
  forall (phase_diagram : list (nat * Q) -> result PD) interface,
  (forall pd a b ks kink, interface pd a b = Ok ks -> In kink ks -> NoDup (fst kink) /\ NoDup (snd kink) /\ (disjoint (fst kink) (snd kink) \/ exists f, kink = ([f], [f]))) ->
  forall pair_order, (forall l, Permutation (pair_order l) l) -> forall mwait, valid_schedule mwait ->
  forall entries, NoDup entries -> entries <> [] -> (forall e, In e entries -> ReactionModel.elems C (e_comp (ent e)) <> []) ->
  good_interfaces (fun i => ReactionModel.elems C (e_comp (ent i))) (fun i => red C (e_comp (ent i))) (diagram_for phase_diagram ent) (kinks_for interface ent) entries [] ->
  forall arrange, arranges arrange -> forall argsort, (forall l, Permutation (argsort l) (seq 0 (length l))) -> forall shuffle, (forall l, Permutation (shuffle l) l) ->
  forall listed members, (forall us, NoDup us -> Permutation (listed us) us) -> (forall us, Permutation (members us) (seq 0 (length us))) ->
  forall cpus, 2 <= cpus -> forall nwait, valid_schedule nwait -> forall xcost, (forall r, (0 <= xcost r)%Q) -> forall sp, (forall weight, shortest weight (sp weight)) ->
  forall xeq, (forall r, xeq r r = true) ->
  forall req waits1 waits2 uniq clean cost chunk, (forall k, valid_schedule (waits1 k)) -> (forall k, valid_schedule (waits2 k)) ->
  forall rhash, (forall r, req r r = true) -> set_members req rhash uniq -> uniq [] = [] -> keeps_all req clean -> 1 <= chunk ->
  forall order, (forall l, Permutation (order l) l) -> forall ichunk ijobs, 1 <= ichunk -> 1 <= ijobs -> forall mchunk mjobs, 1 <= mchunk -> 1 <= mjobs -> forall (ub um : bool) cutoff gas_of grand,
  forall ens further more nmk smk max fi ps ts k el,
  ens <> [] -> (forall en, In en ens -> any_usable en) ->
  Forall2 (fun s l => get_rxns s = Ok l) further more -> (forall x, In x (concat more) -> among C ent entries x) ->
  (forall outs, Forall2 (fun en xs => any_enumerated C ent (entry_solve C ent) (entry_rank C ent) diagram (diagram_for phase_diagram ent) (kinks_for interface ent) pair_order (fun u => e_energy (ent u) / natoms C (e_comp (ent u)))%Q wait mwait entries en = Ok xs) ens outs -> sharp (map (set_rxn C) (concat outs) ++ concat more)) -> incl (ps ++ ts) entries -> most_stable C ent (fun u => e_energy (ent u) / natoms C (e_comp (ent u)))%Q entries (ps ++ ts) -> determined C (fun i => red C (e_comp (ent i))) ps ts ->
  (forall i, In i (ps ++ ts) -> (exists r p, any_reacts C ent (diagram_for phase_diagram ent) (kinks_for interface ent) (fun u => e_energy (ent u) / natoms C (e_comp (ent u)))%Q entries ens r p /\ In i (r ++ p)) \/ exists y, In y (concat more) /\ In ((in_set C ent) i) (x_entries y)) ->
  (forall i, In i ts -> exists x, In x (ReactionModel.elems C (e_comp (ent i))) /\ x <> el) ->
  nm_precursors nmk = Some (map (fun i => red C (e_comp (ent i))) ps) -> ps <> [] -> nm_targets nmk = Some (map (fun i => red C (e_comp (ent i))) ts) -> ts <> [] -> nm_k nmk = Some k -> 0 < k ->
  sm_precursors smk = map (fun i => red C (e_comp (ent i))) ps -> sm_targets smk = map (fun i => red C (e_comp (ent i))) ts -> sm_open smk = Some el ->
  exists us rs per net0 es ks v t, NoDup us /\ incl us entries
  /\ (forall x, In x rs -> plain x /\ ((exists en r p, In en ens /\ any_looks C ent (diagram_for phase_diagram ent) (kinks_for interface ent) (fun u => e_energy (ent u) / natoms C (e_comp (ent u)))%Q entries en r p /\ turns C ent r p x) \/ exists y, In y (concat more) /\ x = with_mu (x_mu x) y))
  /\ (forall e, nm_open nmk = Some e -> forall x, In x rs -> x_mu x = Some [(e, nm_chempot nmk)])
  /\ (forall r p, any_reacts C ent (diagram_for phase_diagram ent) (kinks_for interface ent) (fun u => e_energy (ent u) / natoms C (e_comp (ent u)))%Q entries ens r p -> exists x, In x rs /\ turns C ent r p x) /\ (forall y, In y (concat more) -> exists x, In x rs /\ multiples y x)
  /\ Forall2 (fun t pathways => pathways_to xcost rs (map (in_set C ent) ps) ((in_set C ent) t) k pathways) ts per
  /\ Forall2 (stands_for us) (map (in_set C ent) (ps ++ ts)) es /\ only_combination C (map (fun i => red C (e_comp (ent i))) (ps ++ ts)) v /\ (0 < t)%Q /\ multiple t v ks /\ parts net0 = combine es ks
  /\ exists (objects : srxn -> rxn) pool rxns, (forall x, In x rs -> amounts_of us x (turnover (objects x)))
  /\ lists_entries (fun i => e_comp (ent i)) (fun i => e_energy (ent i)) us pool /\ (forall r, In r rxns -> exists x, on_pathways xcost rs (concat per) x /\ r = objects x)
  /\ ((forall x y, In x rs -> In y rs -> xeq x y = true -> like x y) ->
      (forall x y, In x rs -> In y rs -> req (objects x) (objects y) = true -> like x y) ->
      (forall targets mids xb xo xm, targets_of net0 = Ok targets -> intermediates C order pool rxns targets = Ok mids ->
         (if ub then basic_objects C (exact_solve C) (exact_rank C) diagram wait ichunk ijobs pool mids (map e_id targets) else Ok []) = Ok xb ->
         (if ub then gas_objects C (exact_solve C) (exact_rank C) diagram owait ichunk ijobs (gas_of el) pool mids (map e_id targets) else Ok []) = Ok xo ->
         (if um then min_objects C (exact_solve C) (exact_rank C) (diagram_for phase_diagram (with_index pool)) (kinks_for interface (with_index pool)) pair_order mwait mchunk mjobs pool mids (map e_id targets) else Ok []) = Ok xm -> sharp (map (set_rxn C) (xb ++ xo ++ xm))) ->
      (um = true -> forall targets mids, targets_of net0 = Ok targets -> intermediates C order pool rxns targets = Ok mids ->
         exists s, grand el (sm_chempot smk) pool mids (map e_id targets) = Ok s /\ well_formed s /\ r_entries s = arrange (map (in_set C (with_index pool)) mids)) ->
      let way := on_the_way C ent us ts (on_pathways xcost rs (concat per)) in (um = true -> interfaces_work C ent phase_diagram interface way) ->
      exists ys, (forall y, In y ys -> plain y /\ x_mu y = Some [(el, sm_chempot smk)] /\ (forall e, In e (x_entries y) -> exists u, way u /\ e = (in_set C ent) u) /\ (NoDup (map form (x_entries y)) -> grand_low C el (sm_chempot smk) cutoff (combine (map (fun e => ent (uid e)) (x_entries y)) (x_coeffs y)))
                    /\ exists r p, ((ub = true /\ (could_react C ent way ts r p \/ could_breathe C ent way ts (gas_of el) r p)) \/ (um = true /\ could_meet C ent phase_diagram interface way ts r p)) /\ turns C ent r p y)
      /\ (forall r p w, ((ub = true /\ (could_react C ent way ts r p \/ could_breathe C ent way ts (gas_of el) r p)) \/ (um = true /\ sure_to_meet C ent phase_diagram interface way ts r p)) -> NoDup (map (fun i => red C (e_comp (ent i))) (r ++ p)) -> only_combination C (map (fun i => red C (e_comp (ent i))) (r ++ p)) w -> LinSpec.sides (length r) w -> grand_low C el (sm_chempot smk) cutoff (combine (map ent (r ++ p)) w) ->
            exists y q, In y ys /\ (0 < q)%Q /\ (forall j u a, nth_error (r ++ p) j = Some u -> nth_error w j = Some a -> (amount y u == q * a)%Q) /\ forall u, ~ In u (r ++ p) -> (amount y u == 0)%Q)
      /\ ((forall x y, In x (rs ++ ys) -> In y (rs ++ ys) -> req (objects x) (objects y) = true -> like x y) ->
          (forall x y, In x (rs ++ ys) -> In y ys -> multiples x y \/ multiples y x -> req (objects x) (objects y) = true /\ req (objects y) (objects x) = true) ->
          (forall x, In x (rs ++ ys) -> req (objects x) net0 = true -> amounts_of us x (turnover net0)) ->
          (forall x r, In x (rs ++ ys) -> environment (Some el) (sm_chempot smk) r -> amounts_of us x (turnover r) -> req (objects x) r = true) ->
          let allowed := fun x => (on_pathways xcost rs (concat per) x \/ In x ys) /\ ~ amounts_of us x (turnover net0) in
          forall ds, length ds = max -> (forall i j x y, i < j -> nth_error ds i = Some x -> nth_error ds j = Some y -> ~ like x y) -> (forall x, In x ds -> allowed x) ->
          forall xs ms, 1 <= length xs <= max -> (forall x, In x xs -> allowed x) -> unrelated xs ->
          (fi = true -> ~ circle (takes C (fun i => e_comp (ent i))) (gives C (fun i => e_comp (ent i))) (map (fun i => e_comp (ent i)) ps) xs) ->
          length ms = length xs -> Forall (fun q => (1 # 1000000 <= q)%Q) ms ->
          (forall i u, nth_error us i = Some u -> (together ms xs u == turnover net0 i)%Q) ->
          exists paths q ms' ms0 xs0, open_whole_flow C ent (entry_solve C ent) (entry_rank C ent) diagram phase_diagram interface pair_order arrange argsort shuffle wait owait mwait listed members cpus nwait xcost sp xeq (exact_solve C) (exact_rank C) req path_pinv waits1 waits2 uniq clean cost chunk order ichunk ijobs mchunk mjobs cutoff ub um gas_of grand ens entries further nmk smk max true fi = Ok (net0, paths)
          /\ In q paths /\ p_coeffs q = Some ms' /\ Forall2 Qeq ms' ms0 /\ length ms0 = length xs0 /\ Permutation (combine ms xs) (combine ms0 xs0)
          /\ Forall2 (fun x r => exists r', amounts_of us x (turnover r') /\ environment (Some el) (sm_chempot smk) r' /\ req r' r = true) xs0 (p_rxns q))).
Proof. exact open_flow_finds. Qed.
Print Assumptions C152_finds_partial.

(* A, B and D to A2BD where A is open; the further set has A + B + AD -> A2BD, and D + AB + A -> A2BD is between intermediates. *)
Example C152_demo : wf_chem joined /\ (forall c e, In e (ReactionModel.elems joined c) -> (1 # 100 < amt joined (red joined c) e)%Q)
  /\ (forall pd a b ks kink, joined_interface pd a b = Ok ks -> In kink ks -> NoDup (fst kink) /\ NoDup (snd kink) /\ (disjoint (fst kink) (snd kink) \/ exists f, kink = ([f], [f])))
  /\ good_interfaces (fun i => ReactionModel.elems joined (e_comp (level i))) (fun i => red joined (e_comp (level i))) (diagram_for listed_phases level) (kinks_for joined_interface level) six []
  /\ (forall en, In en both_enumerators -> any_usable en) /\ most_stable joined level (fun u => e_energy (level u) / natoms joined (e_comp (level u)))%Q six ([0; 1; 2] ++ [5])
  /\ (exists s y, further_sets = Ok [s] /\ Forall2 (fun s l => get_rxns s = Ok l) [s] [[y]] /\ among joined level six y
      /\ forall outs, Forall2 (fun en xs => any_enumerated joined level (entry_solve joined level) (entry_rank joined level) (fun k => k) (diagram_for listed_phases level) (kinks_for joined_interface level) (fun l => l) (fun u => e_energy (level u) / natoms joined (e_comp (level u)))%Q RxnSetCheck.lifo_any RxnSetCheck.lifo_any six en = Ok xs) both_enumerators outs -> sharp (map (set_rxn joined) (concat outs) ++ concat [[y]]))
  /\ determined joined (fun i => red joined (e_comp (level i))) [0; 1; 2] [5]
  /\ (forall i, In i ([0; 1; 2] ++ [5]) -> exists r p, any_reacts joined level (diagram_for listed_phases level) (kinks_for joined_interface level) (fun u => e_energy (level u) / natoms joined (e_comp (level u)))%Q six both_enumerators r p /\ In i (r ++ p))
  /\ (forall i, In i [5] -> exists x, In x (ReactionModel.elems joined (e_comp (level i))) /\ x <> 0)
  /\ (forall walked : srxn -> Prop, (forall x, walked x -> forall v, ~ (amount x v == 0)%Q -> In v six) -> interfaces_work joined level listed_phases joined_interface (on_the_way joined level six [5] walked)
      /\ ((exists x, walked x /\ ~ (amount x 3 == 0)%Q) -> could_breathe joined level (on_the_way joined level six [5] walked) [5] 0 [2; 3; 0] [5]))
  /\ only_combination joined [2; 3; 0; 5] [-1; -1; -1; 1]%Q /\ LinSpec.sides 3 [-1; -1; -1; 1]%Q /\ grand_low joined 0 (-2)%Q 0%Q (combine (map level ([2; 3; 0] ++ [5])) [-1; -1; -1; 1]%Q)
  /\ exists b, post_init joined (exact_solve joined) (exact_rank joined) (open_smaker [0; 1; 2] [5]) = Ok b /\ num_errors b = Some 0.
Proof.
  split; [exact joined_wf|]. split; [exact joined_big|]. split; [exact joined_tidy|]. split; [exact joined_good|]. split; [intros en [<-|[<-|[]]]; repeat split; cbn; lia|].
  split; [apply JoinProofs.once_stable; [repeat constructor; cbn; intuition discriminate|intros i; cbn; tauto]|].
  split; [destruct breath_among as (s & y & Es & Ey & Am & _); exists s, y; assert (F : Forall2 (fun s l => get_rxns s = Ok l) [s] [[y]]) by (constructor; [exact Ey|constructor]); split; [exact Es|]; split; [exact F|]; split; [exact Am|exact (breath_sharp s [[y]] Es F)]|].
  split; [exact joined_determined|]. split; [exact joined_any_reacts|]. split; [intros i [<-|[]]; exists 1; split; [cbn; auto|discriminate]|].
  split; [intros walked Hw; assert (Hin : forall u, on_the_way joined level six [5] walked u -> In u six) by (intros u; exact (joined_way walked u Hw)); split; [exact (joined_work _ Hin)|intros H3; exact (breath_could walked H3 Hin)]|].
  split; [exact breath_only|]. split; [exact breath_sides|]. split; [exact breath_low|]. eexists. split; vm_compute; reflexivity.
Qed.
(* The first pathway ends with the reaction between intermediates, the third with that of the further set. *)
Example C152_demo_run : rows six (breath_run true false further_sets 4 2 true true) = Ok ([-2; -1; -1; 0; 0; 1]%Q,
  [(Some [1; 1]%Q, [[-1; -1; 0; 1; 0; 0]; [-1; 0; -1; -1; 0; 1]]%Q);
   (Some [2; 1]%Q, [[-1; 0; -1; 0; 1; 0]; [0; -1; 1; 0; -2; 1]]%Q);
   (Some [1; 1]%Q, [[-1; 0; -1; 0; 1; 0]; [-1; -1; 0; 0; -1; 1]]%Q);
   (Some [2; 1]%Q, [[-1; -1; 0; 1; 0; 0]; [0; 1; -1; -2; 0; 1]]%Q)]).
Proof. exact breath_found. Qed.
(* With neither option and no further set both are gone. *)
Example C152_demo_without : rows six (breath_run false false (Ok []) 4 2 true true) = Ok ([-2; -1; -1; 0; 0; 1]%Q,
  [(Some [2; 1]%Q, [[-1; -1; 0; 1; 0; 0]; [0; 1; -1; -2; 0; 1]]%Q);
   (Some [2; 1]%Q, [[-1; 0; -1; 0; 1; 0]; [0; -1; 1; 0; -2; 1]]%Q)]).
Proof. exact breath_without. Qed.
(* With both options there are eight pathways, and all their reactions are at the chemical potential. *)
Example C152_demo_all : exists paths net0, breath_run true true further_sets 4 3 true true = Ok (net0, paths) /\ length paths = 8
  /\ forallb (fun p => forallb (fun r => match r with ROpen o => match chempots o with [(e, q)] => Nat.eqb e 0 && Qeq_bool q (-2) | _ => false end | _ => false end) (p_rxns p)) paths = true.
Proof. exact breath_all. Qed.
