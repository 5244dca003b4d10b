(* C139: enumerators with open phases, from entries to pathways. *)
From Verif Require Import Prelude NumQ UtilsModel UtilsSpec ReactionModel ReactionSpec EnumModel EnumSpec EnumLinkModel EnumCheck RxnSetModel RxnSetSpec RxnSetCheck LinModel LinSpec LinProofs LinBalanceProofs LinCheck NetModel YenModel YenSpec ShortestPath FlowModel NetJobModel NetJobSpec NetJobCheck RunModel
  JoinModel JoinSpec JoinProofs JoinOpenSpec JoinOpenProofs JoinCheck JoinOpenCheck.
Open Scope list_scope.
Open Scope nat_scope.

(* --- C139 --- *)
(* One of the enumerators has open phases. If at most n solids, with gases on one side, react in one way only, the network
   has that reaction, and there is a pathway to each of its products when its reactants are among the precursors. Missing:
   gases on both sides (below), reactions that are not the only one between their phases, one CPU, precursors and targets that
   are not the most stable phase of their formula, and precursors or targets in no reaction. *)
Theorem C139_gas_partial : forall C, wf_chem C -> (forall c e, In e (ReactionModel.elems C c) -> (1 # 100 < amt C (red C c) e)%Q) ->
  forall ent, (forall i, e_id (ent i) = i) -> forall D (diagram : list nat -> D) wait, valid_schedule wait ->
  forall entries, NoDup entries -> entries <> [] -> (forall e, In e entries -> ReactionModel.elems C (e_comp (ent e)) <> []) ->
  forall arrange, arranges arrange -> forall argsort, (forall l, Permutation (argsort l) (seq 0 (length l))) -> forall shuffle, (forall l, Permutation (shuffle l) l) ->
  forall cpus, 2 <= cpus -> forall nwait, valid_schedule nwait ->
  forall epa cost, (forall r, (0 <= cost r)%Q) -> forall sp, (forall weight, shortest weight (sp weight)) ->
  forall ens mk ps ts k, ens <> [] -> (forall en, In en ens -> usable en) ->
  (forall outs, Forall2 (fun en xs => enumerated C ent (entry_solve C ent) (entry_rank C ent) diagram wait entries en = Ok xs) ens outs -> sharp (map (set_rxn C) (concat outs))) ->
  incl (ps ++ ts) entries -> most_stable C ent epa entries (ps ++ ts) ->
  nm_precursors mk = Some (map (fun i => red C (e_comp (ent i))) ps) -> ps <> [] -> nm_targets mk = Some (map (fun i => red C (e_comp (ent i))) ts) -> ts <> [] ->
  nm_k mk = Some k -> 0 < k ->
  (forall i, In i (ps ++ ts) -> exists r p, reacts C ent entries ens r p /\ In i (r ++ p)) ->
  forall en phases r p, In en ens -> en_open en = Some phases ->
  (with_gas C ent entries phases (o_n (en_options en)) r p \/ with_gas C ent entries phases (o_n (en_options en)) p r) -> spans C ent entries phases (o_chemsys (en_options en)) r ->
  allowed C ent phases (o_pfunc (en_options en)) (en_precursors en) r -> allowed C ent phases (o_tfunc (en_options en)) (en_targets en) p ->
  determined C (fun i => red C (e_comp (ent i))) r p ->
  exists w rs per, enumerate_and_search C ent (entry_solve C ent) (entry_rank C ent) diagram arrange argsort shuffle wait cpus nwait epa cost sp ens entries mk = Ok (w, rs, Some (concat per))
  /\ (exists x, In x rs /\ turns C ent r p x)
  /\ Forall2 (fun t pathways => pathways_to cost rs (map (in_set C ent) ps) (in_set C ent t) k pathways /\ (incl r ps -> In t p -> pathways <> [])) ts per.
Proof. exact open_join. Qed.
Print Assumptions C139_gas_partial.

(* Li2CO3, MnO, O2, LiMnO2 and CO2: the enumerators of the flow, with oxygen open. *)
Example C139_demo : wf_chem limno /\ (forall c e, In e (ReactionModel.elems limno c) -> (1 # 100 < amt limno (red limno c) e)%Q)
  /\ (forall e, In e [0; 1; 2; 3; 4] -> ReactionModel.elems limno (e_comp (plain_entry e)) <> []) /\ (forall en, In en [synthesis None; synthesis (Some [2])] -> usable en)
  /\ (forall outs, Forall2 (fun en xs => enumerated limno plain_entry (entry_solve limno plain_entry) (entry_rank limno plain_entry) (fun k => k) lifo_any [0; 1; 2; 3; 4] en = Ok xs)
                      [synthesis None; synthesis (Some [2])] outs -> sharp (map (set_rxn limno) (concat outs)))
  /\ (forall epa, most_stable limno plain_entry epa [0; 1; 2; 3; 4] [0; 1; 2; 3])
  /\ (forall i, In i ([0; 1; 2] ++ [3]) -> exists r p, reacts limno plain_entry [0; 1; 2; 3; 4] [synthesis None; synthesis (Some [2])] r p /\ In i (r ++ p))
  /\ with_gas limno plain_entry [0; 1; 2; 3; 4] [2] 2 [3; 4] [0; 1; 2] /\ spans limno plain_entry [0; 1; 2; 3; 4] [2] None [0; 1; 2]
  /\ allowed limno plain_entry [2] IsSuperset [0; 1] [0; 1; 2] /\ allowed limno plain_entry [2] Intersection [3] [3; 4]
  /\ determined limno (fun i => red limno (e_comp (plain_entry i))) [0; 1; 2] [3; 4].
Proof.
  split; [exact limno_wf|]. split; [exact limno_big|]. split; [intros e [<-|[<-|[<-|[<-|[<-|[]]]]]]; discriminate|]. split; [intros en [<-|[<-|[]]]; repeat split; cbn; lia|].
  split; [exact limno_sharp|]. split; [intros epa; apply once_stable; [repeat constructor; cbn; intuition discriminate|intros i; cbn; tauto]|]. split; [exact limno_covered|]. split; [exact limno_gas|]. split; [exact limno_spans|].
  split; [exact limno_precursors|]. split; [exact limno_target|exact limno_determined].
Qed.

Example C139_demo_run : exists w rs ps, join_run limno [synthesis None; synthesis (Some [2])] [0; 1; 2; 3; 4] (maker (Some [0; 1; 2]) (Some [3]) 5) = Ok (w, rs, Some ps)
  /\ sides_found rs = [([3; 4; 0; 1; 2], [2%Q; 1%Q; (-1)%Q; (-2)%Q; (-1 # 2)%Q])] /\ map steps_of ps = [[0]].
Proof. exact limno_run. Qed.

(* Without open phases the job fails: no reaction has three reactants. *)
Example C139_demo_closed : join_run limno [synthesis None] [0; 1; 2; 3; 4] (maker (Some [0; 1; 2]) (Some [3]) 5) = Err ValueError.
Proof. exact limno_closed. Qed.

(* The same synthesis when carbon dioxide is open too: each side has at most two solids, the reaction is the only one, and
   neither enumerator looks at it, since open phases are put on one side only. The job fails. *)
Theorem C139_both_sides_refuted : exists C entries phases ens r p r1 r2 p1 p2, wf_chem C /\ (forall en, In en ens -> usable en) /\ (exists en, In en ens /\ en_open en = Some phases /\ o_n (en_options en) = 2)
  /\ r = r1 ++ r2 /\ p = p1 ++ p2 /\ solids C plain_entry entries phases 2 r1 /\ gases C plain_entry entries phases r2 /\ solids C plain_entry entries phases 2 p1 /\ gases C plain_entry entries phases p2
  /\ determined C (fun i => red C (e_comp (plain_entry i))) r p /\ In 3 p
  /\ join_run C ens entries (maker (Some r) (Some [3]) 5) = Err ValueError.
Proof. exact limno_gases. Qed.
Print Assumptions C139_both_sides_refuted.
