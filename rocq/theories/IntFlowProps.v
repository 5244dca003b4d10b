(* C138: from entries to balanced pathways, with reactions between intermediates. *)
From Verif Require Import Prelude NumQ SumQ UtilsModel UtilsSpec ReactionModel ReactionSpec EnumModel EnumSpec EnumLinkModel EnumCheck RxnSetModel RxnSetSpec PathModel SolverModel SolverSpec SolverCheck NetModel YenModel YenSpec ShortestPath FlowModel NetJobModel NetJobSpec
  SolveJobModel SolveJobSpec SolveJobCheck LinModel LinSpec LinProofs LinBalanceProofs LinCheck PinvModel CapSpec CapCheck ChainModel ChainSpec ChainCheck ChainFindSpec ChainFindCheck RunModel JoinModel JoinSpec JoinCheck WholeModel WholeProofs WholeCheck
  IntModel IntSpec IntCheck IntFlowSpec IntFlowProofs IntFlowCheck.
From Verif Require RxnSetCheck NetJobCheck.
Open Scope list_scope.
Open Scope nat_scope.

(* What comes out, as in C135; a step that is on no pathway of the network is a reaction of intermediates to a target, below the
   energy cutoff. Missing: open phases on both sides of a reaction, one CPU, precursors and targets that are not the most stable phase
   of their formula, and the energies of reactions with two phases of one formula. *)
Theorem C138_sound_partial :
  forall C, wf_chem C -> (forall c e, In e (ReactionModel.elems C c) -> (1 # 100 < amt C (red C c) e)%Q) ->
  forall ent, (forall i, e_id (ent i) = i) -> forall D (diagram : list nat -> D) wait, valid_schedule wait ->
  forall entries, NoDup entries -> entries <> [] -> (forall e, In e entries -> ReactionModel.elems C (e_comp (ent e)) <> []) ->
  forall arrange, arranges arrange -> forall argsort, (forall l, Permutation (argsort l) (seq 0 (length l))) -> forall shuffle, (forall l, Permutation (shuffle l) l) ->
  forall listed members, (forall us, NoDup us -> Permutation (listed us) us) -> (forall us, Permutation (members us) (seq 0 (length us))) ->
  forall cpus, 2 <= cpus -> forall nwait, valid_schedule nwait -> forall xcost, (forall r, (0 <= xcost r)%Q) -> forall sp, (forall weight, shortest weight (sp weight)) ->
  forall xeq, (forall r, xeq r r = true) ->
  forall req waits1 waits2 uniq clean cost chunk, (forall k, valid_schedule (waits1 k)) -> (forall k, valid_schedule (waits2 k)) ->
  1 <= chunk ->
  forall order, (forall l, Permutation (order l) l) -> forall ichunk ijobs, 1 <= ichunk -> 1 <= ijobs -> forall cutoff,
  forall lsq lrank pinv ens nmk smk max find fi ps ts k b net0 paths,
  (forall r p c, length (lsq r p c) = length r + length p) -> (forall M v, length (pinv M v) = length M) -> (forall l p, In p (uniq l) -> In p l) ->
  ens <> [] -> (forall en, In en ens -> usable en) ->
  (forall outs, Forall2 (fun en xs => enumerated C ent (entry_solve C ent) (entry_rank C ent) diagram wait entries en = Ok xs) ens outs -> sharp (map (set_rxn C) (concat outs))) -> incl (ps ++ ts) entries -> most_stable C ent (fun u => e_energy (ent u) / natoms C (e_comp (ent u)))%Q entries (ps ++ ts) -> NoDup (ps ++ ts) ->
  (forall i, In i (ps ++ ts) -> exists r p, reacts C ent entries ens r p /\ In i (r ++ p)) ->
  nm_precursors nmk = Some (map (fun i => red C (e_comp (ent i))) ps) -> ps <> [] -> nm_targets nmk = Some (map (fun i => red C (e_comp (ent i))) ts) -> ts <> [] -> nm_k nmk = Some k -> 0 < k -> nm_open nmk = None ->
  sm_precursors smk = map (fun i => red C (e_comp (ent i))) ps -> sm_targets smk = map (fun i => red C (e_comp (ent i))) ts -> sm_open smk = None ->
  post_init C lsq lrank smk = Ok b -> num_errors b = Some 0 ->
  whole_flow C ent (entry_solve C ent) (entry_rank C ent) diagram arrange argsort shuffle wait listed members cpus nwait xcost sp xeq lsq lrank req pinv waits1 waits2 uniq clean cost (find_intermediates C (exact_solve C) (exact_rank C) diagram arrange argsort shuffle wait order ichunk ijobs cutoff) chunk ens entries nmk smk max find fi = Ok (net0, paths) ->
  exists us rs per es ks kp pool rxns, NoDup us /\ incl us entries
  /\ (forall x, In x rs -> plain x /\ exists en r p, In en ens /\ looks_at C ent entries en r p /\ turns C ent r p x)
  /\ Forall2 (fun t pathways => pathways_to xcost rs (map (in_set C ent) ps) (in_set C ent t) k pathways) ts per
  /\ Forall2 (stands_for us) (map (in_set C ent) (ps ++ ts)) es /\ length ks = length ps /\ length kp = length ts /\ parts net0 = combine es (ks ++ kp)
  /\ Forall (fun q => (q <= -(1 # 1000000))%Q) ks /\ Forall (fun q => (1 # 1000000 <= q)%Q) kp
  /\ (forall el, (Qabs (ReactionSpec.net C (combine (map (fun i => red C (e_comp (ent i))) (ps ++ ts)) (ks ++ kp)) el) <= 1 # 100000000)%Q)
  /\ lists_entries (fun i => e_comp (ent i)) (fun i => e_energy (ent i)) us pool /\ (forall r, In r rxns -> exists x, on_pathways xcost rs (concat per) x /\ amounts_of us x (turnover r))
  /\ ((forall targets mids xs, targets_of net0 = Ok targets -> intermediates C order pool rxns targets = Ok mids ->
         enumerated C (with_index pool) (entry_solve C (with_index pool)) (entry_rank C (with_index pool)) diagram wait mids
           {| en_options := default_options ichunk ijobs; en_precursors := []; en_targets := map e_id targets; en_open := None; en_duplicates := false |} = Ok xs -> sharp (map (set_rxn C) xs)) ->
      forall q, In q paths -> exists ms steps, p_coeffs q = Some ms /\ length ms = length steps /\ 1 <= length steps <= max /\ Forall (fun m => (1 # 1000000 <= m)%Q) ms
      /\ Forall2 makes_amounts (p_rxns q) steps
      /\ (forall a, In a steps -> (exists x, on_pathways xcost rs (concat per) x /\ amounts_of us x a)
            \/ find = true /\ exists r p y, might_react C pool rxns net0 r p /\ turns_into C r p y /\ of_entries pool y /\ (distinct C (parts y) -> low C cutoff (parts y)) /\ forall i, (a i == turnover y i)%Q)
      /\ forall i, (Qabs (total ms steps i - turnover net0 i) <= (1 # 100000000) + (1 # 100000) * Qabs (turnover net0 i))%Q).
Proof. exact flow_sound. Qed.
Print Assumptions C138_sound_partial.

(* What is found. Every two groups of phases on the way that react in one way only, to a target and below the cutoff, have their
   reaction; and every sum of unrelated reactions of this kind and on the pathways that makes the net reaction is returned.
   Missing as above and in C135. *)
Theorem C138_finds_partial :
  forall C, wf_chem C -> (forall c e, In e (ReactionModel.elems C c) -> (1 # 100 < amt C (red C c) e)%Q) ->
  forall ent, (forall i, e_id (ent i) = i) -> forall D (diagram : list nat -> D) wait, valid_schedule wait ->
  forall entries, NoDup entries -> entries <> [] -> (forall e, In e entries -> ReactionModel.elems C (e_comp (ent e)) <> []) ->
  forall arrange, arranges arrange -> forall argsort, (forall l, Permutation (argsort l) (seq 0 (length l))) -> forall shuffle, (forall l, Permutation (shuffle l) l) ->
  forall listed members, (forall us, NoDup us -> Permutation (listed us) us) -> (forall us, Permutation (members us) (seq 0 (length us))) ->
  forall cpus, 2 <= cpus -> forall nwait, valid_schedule nwait -> forall xcost, (forall r, (0 <= xcost r)%Q) -> forall sp, (forall weight, shortest weight (sp weight)) ->
  forall xeq, (forall r, xeq r r = true) ->
  forall req waits1 waits2 uniq clean cost chunk, (forall k, valid_schedule (waits1 k)) -> (forall k, valid_schedule (waits2 k)) ->
  forall rhash, (forall r, req r r = true) -> set_members req rhash uniq -> uniq [] = [] -> keeps_all req clean -> 1 <= chunk ->
  forall order, (forall l, Permutation (order l) l) -> forall ichunk ijobs, 1 <= ichunk -> 1 <= ijobs -> forall cutoff,
  forall ens nmk smk max fi ps ts k, ens <> [] -> (forall en, In en ens -> usable en) ->
  (forall outs, Forall2 (fun en xs => enumerated C ent (entry_solve C ent) (entry_rank C ent) diagram wait entries en = Ok xs) ens outs -> sharp (map (set_rxn C) (concat outs))) -> incl (ps ++ ts) entries -> most_stable C ent (fun u => e_energy (ent u) / natoms C (e_comp (ent u)))%Q entries (ps ++ ts) -> determined C (fun i => red C (e_comp (ent i))) ps ts ->
  (forall i, In i (ps ++ ts) -> exists r p, reacts C ent entries ens r p /\ In i (r ++ p)) ->
  nm_precursors nmk = Some (map (fun i => red C (e_comp (ent i))) ps) -> ps <> [] -> nm_targets nmk = Some (map (fun i => red C (e_comp (ent i))) ts) -> ts <> [] -> nm_k nmk = Some k -> 0 < k -> nm_open nmk = None ->
  sm_precursors smk = map (fun i => red C (e_comp (ent i))) ps -> sm_targets smk = map (fun i => red C (e_comp (ent i))) ts -> sm_open smk = None ->
  exists us rs per net0 es ks v t, NoDup us /\ incl us entries
  /\ (forall x, In x rs -> plain x /\ exists en r p, In en ens /\ looks_at C ent entries en r p /\ turns C ent r p x)
  /\ (forall r p, reacts C ent entries ens r p -> exists x, In x rs /\ turns C ent r p x)
  /\ Forall2 (fun t pathways => pathways_to xcost rs (map (in_set C ent) ps) (in_set C ent t) k pathways) ts per
  /\ Forall2 (stands_for us) (map (in_set C ent) (ps ++ ts)) es /\ only_combination C (map (fun i => red C (e_comp (ent i))) (ps ++ ts)) v /\ (0 < t)%Q /\ multiple t v ks /\ parts net0 = combine es ks
  /\ exists (objects : srxn -> rxn) pool rxns, (forall x, In x rs -> amounts_of us x (turnover (objects x)))
  /\ lists_entries (fun i => e_comp (ent i)) (fun i => e_energy (ent i)) us pool /\ (forall r, In r rxns -> exists x, on_pathways xcost rs (concat per) x /\ r = objects x)
  /\ ((forall x y, In x rs -> In y rs -> xeq x y = true -> like x y) ->
      (forall x y, In x rs -> In y rs -> req (objects x) (objects y) = true -> like x y) ->
      (forall targets mids xs, targets_of net0 = Ok targets -> intermediates C order pool rxns targets = Ok mids ->
         enumerated C (with_index pool) (entry_solve C (with_index pool)) (entry_rank C (with_index pool)) diagram wait mids
           {| en_options := default_options ichunk ijobs; en_precursors := []; en_targets := map e_id targets; en_open := None; en_duplicates := false |} = Ok xs -> sharp (map (set_rxn C) xs)) ->
      let way := on_the_way C ent us ts (on_pathways xcost rs (concat per)) in
      exists ys, (forall y, In y ys -> plain y /\ (forall e, In e (x_entries y) -> exists u, way u /\ e = in_set C ent u) /\ (NoDup (map form (x_entries y)) -> low C cutoff (combine (map (fun e => ent (uid e)) (x_entries y)) (x_coeffs y)))
                    /\ exists r p, could_react C ent way ts r p /\ turns C ent r p y)
      /\ (forall r p w, could_react C ent way ts r p -> NoDup (map (fun i => red C (e_comp (ent i))) (r ++ p)) -> only_combination C (map (fun i => red C (e_comp (ent i))) (r ++ p)) w -> LinSpec.sides (length r) w -> low C cutoff (combine (map ent (r ++ p)) w) ->
            exists y q, In y ys /\ (0 < q)%Q /\ (forall j u a, nth_error (r ++ p) j = Some u -> nth_error w j = Some a -> (amount y u == q * a)%Q) /\ forall u, ~ In u (r ++ p) -> (amount y u == 0)%Q)
      /\ ((forall x y, In x (rs ++ ys) -> In y (rs ++ ys) -> req (objects x) (objects y) = true -> like x y) ->
          (forall x y, In x (rs ++ ys) -> In y ys -> multiples x y \/ multiples y x -> req (objects x) (objects y) = true /\ req (objects y) (objects x) = true) ->
          (forall x, In x (rs ++ ys) -> req (objects x) net0 = true -> amounts_of us x (turnover net0)) ->
          (forall x r, In x (rs ++ ys) -> environment None (sm_chempot smk) r -> amounts_of us x (turnover r) -> req (objects x) r = true) ->
          let allowed := fun x => (on_pathways xcost rs (concat per) x \/ In x ys) /\ ~ amounts_of us x (turnover net0) in
          forall ds, length ds = max -> (forall i j x y, i < j -> nth_error ds i = Some x -> nth_error ds j = Some y -> ~ like x y) -> (forall x, In x ds -> allowed x) ->
          forall xs ms, 1 <= length xs <= max -> (forall x, In x xs -> allowed x) -> unrelated xs ->
          (fi = true -> ~ circle (takes C (fun i => e_comp (ent i))) (gives C (fun i => e_comp (ent i))) (map (fun i => e_comp (ent i)) ps) xs) ->
          length ms = length xs -> Forall (fun q => (1 # 1000000 <= q)%Q) ms ->
          (forall i u, nth_error us i = Some u -> (together ms xs u == turnover net0 i)%Q) ->
          exists paths q ms' ms0 xs0, whole_flow C ent (entry_solve C ent) (entry_rank C ent) diagram arrange argsort shuffle wait listed members cpus nwait xcost sp xeq (exact_solve C) (exact_rank C) req path_pinv waits1 waits2 uniq clean cost (find_intermediates C (exact_solve C) (exact_rank C) diagram arrange argsort shuffle wait order ichunk ijobs cutoff) chunk ens entries nmk smk max true fi = Ok (net0, paths)
          /\ In q paths /\ p_coeffs q = Some ms' /\ Forall2 Qeq ms' ms0 /\ length ms0 = length xs0 /\ Permutation (combine ms xs) (combine ms0 xs0)
          /\ Forall2 (fun x r => exists r', amounts_of us x (turnover r') /\ environment None (sm_chempot smk) r' /\ req r' r = true) xs0 (p_rxns q))).
Proof. exact flow_finds. Qed.
Print Assumptions C138_finds_partial.

(* A, B and D to A2BD. *)
Example C138_demo : wf_chem joined /\ (forall c e, In e (ReactionModel.elems joined c) -> (1 # 100 < amt joined (red joined c) e)%Q)
  /\ (forall i, e_id (level i) = i) /\ (forall e, In e six -> ReactionModel.elems joined (e_comp (level e)) <> []) /\ most_stable joined level (fun u => e_energy (level u) / natoms joined (e_comp (level u)))%Q six ([0; 1; 2] ++ [5]) /\ usable (open_enumerator 1)
  /\ (forall outs, Forall2 (fun en xs => enumerated joined level (entry_solve joined level) (entry_rank joined level) (fun k => k) RxnSetCheck.lifo_any six en = Ok xs) [open_enumerator 1] outs -> sharp (map (set_rxn joined) (concat outs)))
  /\ determined joined (fun i => red joined (e_comp (level i))) [0; 1; 2] [5] /\ (forall i, In i ([0; 1; 2] ++ [5]) -> exists r p, reacts joined level six [open_enumerator 1] r p /\ In i (r ++ p))
  /\ (forall walked, (exists x, walked x /\ ~ (amount x 3 == 0)%Q) -> (exists x, walked x /\ ~ (amount x 4 == 0)%Q) -> could_react joined level (on_the_way joined level six [5] walked) [5] [3; 4] [5])
  /\ only_combination joined [3; 4; 5] [-1; -1; 1]%Q /\ LinSpec.sides 2 [-1; -1; 1]%Q /\ low joined 0%Q (combine (map level ([3; 4] ++ [5])) [-1; -1; 1]%Q)
  /\ exists b, post_init joined (exact_solve joined) (exact_rank joined) (smaker [0; 1; 2] [5]) = Ok b /\ num_errors b = Some 0.
Proof.
  split; [exact joined_wf|]. split; [exact joined_big|]. split; [reflexivity|]. split; [intros e [<-|[<-|[<-|[<-|[<-|[<-|[]]]]]]]; discriminate|].
  split; [apply JoinProofs.once_stable; [repeat constructor; cbn; intuition discriminate|intros i; cbn; tauto]|]. split; [repeat split; cbn; lia|].
  split; [exact joined_sharp|]. split; [exact joined_determined|]. split; [exact joined_reacts|]. split; [exact joined_could|]. split; [exact joined_only|]. split; [apply oxide_sides; reflexivity|]. split; [exact joined_low|]. eexists. split; vm_compute; reflexivity.
Qed.
(* The first pathway is A + B -> AB, A + D -> AD, AB + AD -> A2BD; without the search no pathway has the last step. *)
Example C138_demo_run : rows six (default_run joined level six [0; 1; 2] [5] 4 3 true true) = Ok ([-2; -1; -1; 0; 0; 1]%Q,
  [(Some [1; 1; 1]%Q, [[-1; -1; 0; 1; 0; 0]; [-1; 0; -1; 0; 1; 0]; [0; 0; 0; -1; -1; 1]]%Q);
   (Some [2; 1; 1]%Q, [[-1; 0; -1; 0; 1; 0]; [0; -1; 1; 1; -1; 0]; [0; 0; 0; -1; -1; 1]]%Q);
   (Some [2; 1; 1]%Q, [[-1; -1; 0; 1; 0; 0]; [0; 1; -1; -1; 1; 0]; [0; 0; 0; -1; -1; 1]]%Q);
   (Some [2; 1; 2]%Q, [[-1; -1; 0; 1; 0; 0]; [0; -1; 1; 0; -2; 1]; [0; 1; -1; -1; 1; 0]]%Q);
   (Some [1; 2; 2]%Q, [[0; 1; -1; -2; 0; 1]; [-1; 0; -1; 0; 1; 0]; [0; -1; 1; 1; -1; 0]]%Q);
   (Some [2; 1]%Q, [[-1; 0; -1; 0; 1; 0]; [0; -1; 1; 0; -2; 1]]%Q);
   (Some [2; 1]%Q, [[-1; -1; 0; 1; 0; 0]; [0; 1; -1; -2; 0; 1]]%Q)]).
Proof. exact joined_run. Qed.
Example C138_demo_without : exists net0 paths, default_run joined level six [0; 1; 2] [5] 4 3 false true = Ok (net0, paths) /\ length paths = 4
  /\ forall p r, In p paths -> In r (p_rxns p) -> ~ ((turnover r 3 < 0)%Q /\ (turnover r 4 < 0)%Q).
Proof. exact joined_without. Qed.

(* The option is documented as "crucial for finding pathways where intermediates react together". In C135's two branches without a
   common phase the three reactions are downhill and AB + DE -> ABDE is one of intermediates to the target, but the flow fails with
   the option too: its intermediates come from the pathways, and there are none. *)
Theorem C138_branches_refuted : exists C ent entries ps t, wf_chem C /\ usable (open_enumerator 1)
  /\ (forall outs, Forall2 (fun en xs => enumerated C ent (entry_solve C ent) (entry_rank C ent) (fun k => k) RxnSetCheck.lifo_any entries en = Ok xs) [open_enumerator 1] outs -> sharp (map (set_rxn C) (concat outs)))
  /\ incl (ps ++ [t]) entries /\ determined C (fun i => red C (e_comp (ent i))) ps [t]
  /\ obtainable (fun r p => reacts C ent entries [open_enumerator 1] r p /\ exists w, only_combination C (map (fun i => red C (e_comp (ent i))) (r ++ p)) w /\ LinSpec.sides (length r) w /\ low C 0%Q (combine (map ent (r ++ p)) w)) ps t
  /\ forall max fi, 1 <= max <= 3 -> default_run C ent entries ps [t] 5 max true fi = Err ValueError.
Proof.
  exists branching, blevel, seven, four, 6. split; [exact branching_wf|]. split; [repeat split; cbn; lia|]. split; [exact apart_sharp|]. split; [intros i H; cbn in *; tauto|]. split; [exact branch_determined|]. split; [exact apart_obtainable|exact apart_run].
Qed.
Print Assumptions C138_branches_refuted.
