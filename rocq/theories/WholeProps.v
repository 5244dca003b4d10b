(* C135: from entries to balanced pathways. *)
From Verif Require Import Prelude NumQ SumQ UtilsModel UtilsSpec ReactionModel ReactionSpec EnumModel EnumSpec EnumLinkModel EnumCheck RxnSetModel RxnSetSpec PathModel SolverModel SolverSpec SolverCheck NetModel YenModel YenSpec ShortestPath FlowModel NetJobModel NetJobSpec
  SolveJobModel SolveJobSpec SolveJobCheck LinModel LinSpec LinProofs LinBalanceProofs LinCheck PinvModel CapSpec CapCheck ChainModel ChainSpec ChainCheck ChainFindSpec ChainFindCheck RunModel JoinModel JoinSpec JoinCheck WholeModel WholeProofs WholeCheck.
From Verif Require RxnSetCheck NetJobCheck.
Open Scope list_scope.
Open Scope nat_scope.

(* What comes out. The net reaction turns the precursors into the targets and conserves the elements, and every pathway is a
   sum of reactions between entries, each on a pathway of the network to a target, that makes the net reaction up to the
   tolerance. Missing: open phases on both sides of a reaction, one CPU, precursors and targets that are
   not the most stable phase of their formula, and intermediate reactions. *)
Theorem C135_sound_partial : forall C, wf_chem C -> (forall c e, In e (ReactionModel.elems C c) -> (1 # 100 < amt C (red C c) e)%Q) ->
  forall ent, (forall i, e_id (ent i) = i) -> forall D (diagram : list nat -> D) wait, valid_schedule wait ->
  forall entries, NoDup entries -> entries <> [] -> (forall e, In e entries -> ReactionModel.elems C (e_comp (ent e)) <> []) ->
  forall arrange, arranges arrange -> forall argsort, (forall l, Permutation (argsort l) (seq 0 (length l))) -> forall shuffle, (forall l, Permutation (shuffle l) l) ->
  forall listed members, (forall us, NoDup us -> Permutation (listed us) us) -> (forall us, Permutation (members us) (seq 0 (length us))) ->
  forall cpus, 2 <= cpus -> forall nwait, valid_schedule nwait -> forall xcost, (forall r, (0 <= xcost r)%Q) -> forall sp, (forall weight, shortest weight (sp weight)) ->
  forall xeq, (forall r, xeq r r = true) ->
  forall req waits1 waits2 uniq clean cost inter chunk, (forall k, valid_schedule (waits1 k)) -> (forall k, valid_schedule (waits2 k)) ->
  forall lsq lrank pinv ens nmk smk max fi ps ts k b net0 paths,
  (forall r p c, length (lsq r p c) = length r + length p) -> (forall M v, length (pinv M v) = length M) -> (forall l p, In p (uniq l) -> In p l) ->
  ens <> [] -> (forall en, In en ens -> usable en) ->
  (forall outs, Forall2 (fun en xs => enumerated C ent (entry_solve C ent) (entry_rank C ent) diagram wait entries en = Ok xs) ens outs -> sharp (map (set_rxn C) (concat outs))) ->
  incl (ps ++ ts) entries -> most_stable C ent (fun u => e_energy (ent u) / natoms C (e_comp (ent u)))%Q entries (ps ++ ts) -> NoDup (ps ++ ts) -> (forall i, In i (ps ++ ts) -> exists r p, reacts C ent entries ens r p /\ In i (r ++ p)) ->
  nm_precursors nmk = Some (map (fun i => red C (e_comp (ent i))) ps) -> ps <> [] -> nm_targets nmk = Some (map (fun i => red C (e_comp (ent i))) ts) -> ts <> [] -> nm_k nmk = Some k -> 0 < k ->
  sm_precursors smk = map (fun i => red C (e_comp (ent i))) ps -> sm_targets smk = map (fun i => red C (e_comp (ent i))) ts ->
  post_init C lsq lrank smk = Ok b -> num_errors b = Some 0 ->
  whole_flow C ent (entry_solve C ent) (entry_rank C ent) diagram arrange argsort shuffle wait listed members cpus nwait xcost sp xeq lsq lrank req pinv waits1 waits2 uniq clean cost inter chunk ens entries nmk smk max false fi = Ok (net0, paths) ->
  exists us rs per es ks kp, NoDup us /\ incl us entries
  /\ (forall x, In x rs -> plain x /\ exists en r p, In en ens /\ looks_at C ent entries en r p /\ turns C ent r p x)
  /\ Forall2 (fun t pathways => pathways_to xcost rs (map (in_set C ent) ps) (in_set C ent t) k pathways) ts per
  /\ Forall2 (stands_for us) (map (in_set C ent) (ps ++ ts)) es /\ length ks = length ps /\ length kp = length ts /\ parts net0 = combine es (ks ++ kp)
  /\ Forall (fun q => (q <= -(1 # 1000000))%Q) ks /\ Forall (fun q => (1 # 1000000 <= q)%Q) kp
  /\ (forall el, (Qabs (ReactionSpec.net C (combine (map (fun i => red C (e_comp (ent i))) (ps ++ ts)) (ks ++ kp)) el) <= 1 # 100000000)%Q)
  /\ forall q, In q paths -> exists ms xs, p_coeffs q = Some ms /\ length ms = length xs /\ 1 <= length xs <= max /\ Forall (fun m => (1 # 1000000 <= m)%Q) ms
     /\ (forall x, In x xs -> on_pathways xcost rs (concat per) x) /\ Forall2 (fun r x => exists a, makes_amounts r a /\ amounts_of us x a) (p_rxns q) xs
     /\ forall i u, nth_error us i = Some u -> (Qabs (together ms xs u - turnover net0 i) <= (1 # 100000000) + (1 # 100000) * Qabs (turnover net0 i))%Q.
Proof. exact whole_sound. Qed.
Print Assumptions C135_sound_partial.

(* What is found. Every two groups of phases that react in one way only have their reaction, and every sum of unrelated
   reactions on the pathways of the network that makes the net reaction is returned.
   With filter_interdependent, if the reactions do not run in a circle. Missing as above, and reactions that depend on
   each other and fewer reactions than max_num_combos (C134). objects x is what the solver has for the reaction x. *)
Theorem C135_finds_partial : forall C, wf_chem C -> (forall c e, In e (ReactionModel.elems C c) -> (1 # 100 < amt C (red C c) e)%Q) ->
  forall ent, (forall i, e_id (ent i) = i) -> forall D (diagram : list nat -> D) wait, valid_schedule wait ->
  forall entries, NoDup entries -> entries <> [] -> (forall e, In e entries -> ReactionModel.elems C (e_comp (ent e)) <> []) ->
  forall arrange, arranges arrange -> forall argsort, (forall l, Permutation (argsort l) (seq 0 (length l))) -> forall shuffle, (forall l, Permutation (shuffle l) l) ->
  forall listed members, (forall us, NoDup us -> Permutation (listed us) us) -> (forall us, Permutation (members us) (seq 0 (length us))) ->
  forall cpus, 2 <= cpus -> forall nwait, valid_schedule nwait -> forall xcost, (forall r, (0 <= xcost r)%Q) -> forall sp, (forall weight, shortest weight (sp weight)) ->
  forall xeq, (forall r, xeq r r = true) ->
  forall req waits1 waits2 uniq clean cost inter chunk, (forall k, valid_schedule (waits1 k)) -> (forall k, valid_schedule (waits2 k)) ->
  forall rhash, (forall r, req r r = true) -> set_members req rhash uniq -> uniq [] = [] -> keeps_all req clean -> 1 <= chunk ->
  forall ens nmk smk max fi ps ts k, ens <> [] -> (forall en, In en ens -> usable en) ->
  (forall outs, Forall2 (fun en xs => enumerated C ent (entry_solve C ent) (entry_rank C ent) diagram wait entries en = Ok xs) ens outs -> sharp (map (set_rxn C) (concat outs))) ->
  incl (ps ++ ts) entries -> most_stable C ent (fun u => e_energy (ent u) / natoms C (e_comp (ent u)))%Q entries (ps ++ ts) -> determined C (fun i => red C (e_comp (ent i))) ps ts -> (forall i, In i (ps ++ ts) -> exists r p, reacts C ent entries ens r p /\ In i (r ++ p)) ->
  nm_precursors nmk = Some (map (fun i => red C (e_comp (ent i))) ps) -> ps <> [] -> nm_targets nmk = Some (map (fun i => red C (e_comp (ent i))) ts) -> ts <> [] -> nm_k nmk = Some k -> 0 < k ->
  sm_precursors smk = map (fun i => red C (e_comp (ent i))) ps -> sm_targets smk = map (fun i => red C (e_comp (ent i))) ts ->
  exists us rs per net0 es ks v t, NoDup us /\ incl us entries
  /\ (forall x, In x rs -> plain x /\ exists en r p, In en ens /\ looks_at C ent entries en r p /\ turns C ent r p x)
  /\ (forall r p, reacts C ent entries ens r p -> exists x, In x rs /\ turns C ent r p x)
  /\ Forall2 (fun t pathways => pathways_to xcost rs (map (in_set C ent) ps) (in_set C ent t) k pathways) ts per
  /\ Forall2 (stands_for us) (map (in_set C ent) (ps ++ ts)) es /\ only_combination C (map (fun i => red C (e_comp (ent i))) (ps ++ ts)) v /\ (0 < t)%Q /\ multiple t v ks /\ parts net0 = combine es ks
  /\ environment (sm_open smk) (sm_chempot smk) net0
  /\ exists objects : srxn -> rxn, (forall x, In x rs -> amounts_of us x (turnover (objects x)))
  /\ ((forall x y, In x rs -> In y rs -> xeq x y = true -> like x y) ->
      (forall x y, In x rs -> In y rs -> req (objects x) (objects y) = true -> like x y) ->
      (forall x, In x rs -> req (objects x) net0 = true -> amounts_of us x (turnover net0)) ->
      (forall x r, In x rs -> environment (sm_open smk) (sm_chempot smk) r -> amounts_of us x (turnover r) -> req (objects x) r = true) ->
      forall ds, length ds = max -> (forall i j x y, i < j -> nth_error ds i = Some x -> nth_error ds j = Some y -> ~ like x y) ->
      (forall x, In x ds -> on_pathways xcost rs (concat per) x /\ ~ amounts_of us x (turnover net0)) ->
      forall xs ms, 1 <= length xs <= max -> (forall x, In x xs -> on_pathways xcost rs (concat per) x /\ ~ amounts_of us x (turnover net0)) -> unrelated xs ->
      (fi = true -> ~ circle (takes C (fun i => e_comp (ent i))) (gives C (fun i => e_comp (ent i))) (map (fun i => e_comp (ent i)) ps) xs) ->
      length ms = length xs -> Forall (fun q => (1 # 1000000 <= q)%Q) ms ->
      (forall i u, nth_error us i = Some u -> (together ms xs u == turnover net0 i)%Q) ->
      exists paths q ms' ms0 xs0, whole_flow C ent (entry_solve C ent) (entry_rank C ent) diagram arrange argsort shuffle wait listed members cpus nwait xcost sp xeq (exact_solve C) (exact_rank C) req path_pinv waits1 waits2 uniq clean cost inter chunk
                                   ens entries nmk smk max false fi = Ok (net0, paths)
      /\ In q paths /\ p_coeffs q = Some ms' /\ Forall2 Qeq ms' ms0 /\ length ms0 = length xs0 /\ Permutation (combine ms xs) (combine ms0 xs0)
      /\ Forall2 (fun x r => exists r', amounts_of us x (turnover r') /\ environment (sm_open smk) (sm_chempot smk) r' /\ req r' r = true) xs0 (p_rxns q)).
Proof. exact whole_finds. Qed.
Print Assumptions C135_finds_partial.

(* The manganese oxides: Mn and Mn2O3 to MnO. *)
Example C135_demo : wf_chem mno /\ (forall c e, In e (ReactionModel.elems mno c) -> (1 # 100 < amt mno (red mno c) e)%Q)
  /\ (forall i, e_id (plain_entry i) = i) /\ (forall e, In e [0; 1; 2; 3] -> ReactionModel.elems mno (e_comp (plain_entry e)) <> [])
  /\ most_stable mno plain_entry (fun u => e_energy (plain_entry u) / natoms mno (e_comp (plain_entry u)))%Q [0; 1; 2; 3] [0; 1; 2]
  /\ usable (open_enumerator 1)
  /\ (forall outs, Forall2 (fun en xs => enumerated mno plain_entry (entry_solve mno plain_entry) (entry_rank mno plain_entry) (fun k => k) RxnSetCheck.lifo_any [0; 1; 2; 3] en = Ok xs) [open_enumerator 1] outs
                   -> sharp (map (set_rxn mno) (concat outs)))
  /\ reacts mno plain_entry [0; 1; 2; 3] [open_enumerator 1] [0; 1] [2] /\ determined mno (fun i => red mno (e_comp (plain_entry i))) [0; 1] [2]
  /\ set_members alike (fun _ => 0) (fun l => l) /\ keeps_all alike (fun l => l)
  /\ exists b, post_init mno (exact_solve mno) (exact_rank mno) (smaker [0; 1] [2]) = Ok b /\ num_errors b = Some 0.
Proof.
  split; [exact mno_wf|]. split; [exact mno_big|]. split; [reflexivity|]. split; [intros e [<-|[<-|[<-|[<-|[]]]]]; discriminate|].
  split; [apply JoinProofs.once_stable; [repeat constructor; cbn; intuition discriminate|intros i; cbn; tauto]|]. split; [repeat split; cbn; lia|]. split; [exact mn_sharp|].
  split; [exact mn_reacts|]. split; [exact mn_determined|]. split; [apply all_members|]. split; [exact keeps_identity|]. eexists. split; vm_compute; reflexivity.
Qed.
Example C135_demo_run : report (whole_run mno [0; 1; 2; 3] [0; 1] [2] 5 2) = Ok ([-1 # 3; -1 # 3; 1; 0]%Q,
  [(Some [1 # 3; 1 # 3]%Q, [[0; -1; 1; 1]; [-1; 0; 2; -1]]%Q); (Some [1; 1 # 3]%Q, [[0; -1; 1; 1]; [-1; 2; 0; -3]]%Q);
   (Some [1 # 6; 1 # 2]%Q, [[1; -2; 0; 3]; [-1; 0; 2; -1]]%Q); (Some [1 # 3]%Q, [[-1; -1; 3; 0]]%Q)]).
Proof. exact mn_whole. Qed.
Example C135_demo_sum : exists w rs ps x y, join_run mno [open_enumerator 1] [0; 1; 2; 3] (NetJobCheck.maker (Some [0; 1]) (Some [2]) 5) = Ok (w, rs, Some ps) /\ w_entries w = [0; 1; 2; 3]
  /\ (forall z, In z [x; y] -> on_pathways NetJobCheck.unit_cost rs ps z) /\ unrelated [x; y] /\ ~ like x y
  /\ (forall u, In u [0; 1; 2; 3] -> (together [1 # 3; 1 # 3]%Q [x; y] u == nth u [-1 # 3; -1 # 3; 1; 0]%Q 0)%Q)
  /\ forall a b, In a rs -> In b rs -> same_amounts a b = true -> like a b.
Proof. exact mn_steps. Qed.

(* Four elements A, B, D, E react to AB and DE, and these to ABDE. The three reactions are all in the network, and taken
   once each they make the net reaction; the flow fails. *)
Theorem C135_branches_refuted : exists C entries ps t, wf_chem C /\ usable (open_enumerator 1)
  /\ (forall outs, Forall2 (fun en xs => enumerated C plain_entry (entry_solve C plain_entry) (entry_rank C plain_entry) (fun k => k) RxnSetCheck.lifo_any entries en = Ok xs) [open_enumerator 1] outs
                   -> sharp (map (set_rxn C) (concat outs)))
  /\ incl (ps ++ [t]) entries /\ obtainable (reacts C plain_entry entries [open_enumerator 1]) ps t /\ determined C (fun i => red C (e_comp (plain_entry i))) ps [t]
  /\ exists w rs pathways xs, join_run C [open_enumerator 1] entries (NetJobCheck.maker (Some ps) (Some [t]) 5) = Ok (w, rs, Some pathways) /\ w_entries w = entries
  /\ incl xs rs /\ length xs = 3 /\ unrelated xs /\ (forall u, In u entries -> (together [1; 1; 1]%Q xs u == if u =? t then 1 else if existsb (Nat.eqb u) ps then -1 else 0)%Q)
  /\ forall max, 1 <= max <= 3 -> whole_run C entries ps [t] 5 max = Err ValueError.
Proof.
  exists branching, [0; 1; 2; 3; 4; 5; 6], [0; 1; 2; 3], 6. split; [exact branching_wf|]. split; [repeat split; cbn; lia|]. split; [exact branch_sharp|]. split; [intros i H; cbn in *; tauto|]. split; [exact branch_obtainable|]. split; [exact branch_determined|].
  destruct branch_whole as (w & rs & ps & xs & E & Ew & I & L & U & T & F). exists w, rs, ps, xs. split; [exact E|]. split; [exact Ew|]. split; [exact I|]. split; [exact L|]. split; [exact U|]. split; [|exact F].
  intros u H. rewrite (T u H). cbn in H. repeat (destruct H as [<-|H]; [reflexivity|]). destruct H.
Qed.
Print Assumptions C135_branches_refuted.

(* Without enumerators there is no set of reactions: the flow fails. *)
Theorem C135_no_enumerators : forall C ent solve rank D (diagram : list nat -> D) arrange argsort shuffle wait listed members cpus nwait xcost sp xeq lsq lrank req pinv waits1 waits2 uniq clean cost inter chunk entries nmk smk max find fi,
  whole_flow C ent solve rank diagram arrange argsort shuffle wait listed members cpus nwait xcost sp xeq lsq lrank req pinv waits1 waits2 uniq clean cost inter chunk [] entries nmk smk max find fi = Err AttributeError.
Proof. reflexivity. Qed.
Print Assumptions C135_no_enumerators.
