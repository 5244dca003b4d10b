(* Enumerators with open phases, from entries to pathways (C139). *)
From Verif Require Import Prelude NumQ SumQ ListFacts UtilsModel UtilsSpec UtilsProofs ReactionModel ReactionSpec ReactionBaseProofs ReactionBalanceProofs
  EnumModel EnumSpec EnumProofs EnumOrderProofs EnumReactProofs EnumLinkModel EnumLinkProofs EnumRealProofs LinModel LinSpec LinBalanceProofs
  RxnSetModel RxnSetSpec RxnSetBaseProofs RxnSetProofs RxnSetParProofs RxnSetDupProofs RxnSetFilterProofs RxnSetTempProofs RunModel RunProofs
  NetModel YenModel YenSpec ShortestPath FlowModel NetJobModel NetJobSpec NetJobProofs JoinModel JoinSpec JoinProofs JoinOpenSpec.
From Coq Require Import Lqa Lia.
Open Scope nat_scope.

Section Open.
Variable C : chem.
Variable ent : nat -> entry.
Variable entries : list nat.
Variable en : enumerator.
Variable phases : list nat.
Hypothesis He : en_open en = Some phases.
Notation op := (open_ones C ent entries en).
Notation n := (o_n (en_options en)).

Lemma open_in i : In i op <-> In i entries /\ gaseous C ent phases i.
Proof. unfold open_ones. rewrite He, filter_In. destruct (in_dec _ _ _) as [I|I]; unfold gaseous; intuition congruence. Qed.
Lemma solids_combo c : solids C ent entries phases n c -> combo entries n c /\ disjoint c op.
Proof. intros (S & L & G). split; [split; assumption|]. intros x Hx Hy. apply open_in in Hy as [_ Hy]. exact (G x Hx Hy). Qed.
Lemma gases_open oc : gases C ent entries phases oc -> subseq oc op /\ oc <> [].
Proof.
  intros (S & Ne & G). split; [|exact Ne]. unfold open_ones. rewrite He. apply subseq_filter. split; [exact S|]. apply Forall_forall. intros x Hx. destruct (in_dec _ _ _) as [I|I]; [reflexivity|]. contradiction (I (G x Hx)).
Qed.
Lemma gas_open r p : with_gas C ent entries phases n r p -> takes_open op entries n r p.
Proof. intros (Hr & c & oc & Hc & Ho & ->). split; [exact (solids_combo r Hr)|]. exists c, oc. split; [exact (solids_combo c Hc)|]. split; [exact (gases_open oc Ho)|reflexivity]. Qed.
Lemma gas_entries r p : with_gas C ent entries phases n r p -> incl r entries /\ incl p entries.
Proof.
  intros ((S & _) & c & oc & (S1 & _) & (S2 & _) & ->). split; intros x; [apply subseq_In; exact S|]. intros H. apply in_app_iff in H as [H|H]; [exact (subseq_In _ _ _ S1 H)|exact (subseq_In _ _ _ S2 H)].
Qed.
Lemma allowed_met f given side : incl side entries -> allowed C ent phases f given side -> option_met f given op side.
Proof.
  intros Hs [H|H]; [left; exact H|right]. destruct f.
  - intros i Hi. destruct (H i Hi) as [G|G]; [left; exact G|right; apply open_in; split; [exact (Hs i Hi)|exact G]].
  - destruct H as (i & A & B & G). exists i. split; [exact A|]. split; [exact B|]. intros I. apply open_in in I as [_ I]. exact (G I).
Qed.
Lemma spans_system r : spans C ent entries phases (o_chemsys (en_options en)) r ->
  system_ok (fun i => ReactionModel.elems C (e_comp (ent i))) (en_options en) (flat_map (fun i => ReactionModel.elems C (e_comp (ent i))) op) r.
Proof.
  intros (k & N & L & F & K). destruct (sorted_set_spec k) as (Ss & Hs). exists (sorted_set k). split; [split; [exact Ss|]|split].
  - intros x. rewrite Hs, K. rewrite in_flat_map. split.
    + intros (i & [I|(I & G)] & E); [left; exists i; auto|right; exists i; split; [apply open_in; split; assumption|exact E]].
    + intros [(i & I & E)|(i & I & E)]; exists i; [split; [left; exact I|exact E]|]. apply open_in in I. split; [right; exact I|exact E].
  - replace (length (sorted_set k)) with (length k); [exact L|]. apply Permutation_length, NoDup_Permutation; [exact N| |intros x; symmetry; apply Hs].
    clear -Ss. induction Ss as [|x l S IH Fx]; constructor; [|exact IH]. intros I. rewrite Forall_forall in Fx. specialize (Fx x I). lia.
  - intros f Ef x Hx. apply Hs. exact (F f Ef x Hx).
Qed.
Lemma gas_looks r p : with_gas C ent entries phases n r p \/ with_gas C ent entries phases n p r -> spans C ent entries phases (o_chemsys (en_options en)) r ->
  allowed C ent phases (o_pfunc (en_options en)) (en_precursors en) r -> allowed C ent phases (o_tfunc (en_options en)) (en_targets en) p ->
  disjoint r p -> looks_at C ent entries en r p.
Proof.
  intros G S A1 A2 Dj. assert (Hi : incl r entries /\ incl p entries) by (destruct G as [G|G]; apply gas_entries in G as [I J]; split; assumption). destruct Hi as [I1 I2].
  split; [unfold in_reach; rewrite He; destruct G as [G|G]; [left|right]; apply gas_open; exact G|]. split; [exact Dj|]. split; [exact (spans_system r S)|].
  split; apply allowed_met; assumption.
Qed.
End Open.

Theorem open_join : forall C, wf_chem C -> (forall c e, In e (ReactionModel.elems C c) -> (1 # 100 < amt C (red C c) e)%Q) ->
  forall ent, (forall i, e_id (ent i) = i) -> forall D (diagram : list nat -> D) wait, valid_schedule wait ->
  forall entries, NoDup entries -> entries <> [] -> (forall e, In e entries -> ReactionModel.elems C (e_comp (ent e)) <> []) ->
  forall arrange, arranges arrange -> forall argsort, (forall l, Permutation (argsort l) (seq 0 (length l))) -> forall shuffle, (forall l, Permutation (shuffle l) l) ->
  forall cpus, 2 <= cpus -> forall nwait, valid_schedule nwait ->
  forall epa cost, (forall r, (0 <= cost r)%Q) -> forall sp, (forall weight, shortest weight (sp weight)) ->
  forall ens mk ps ts k, ens <> [] -> (forall en, In en ens -> usable en) ->
  (forall outs, Forall2 (fun en xs => enumerated C ent (entry_solve C ent) (entry_rank C ent) diagram wait entries en = Ok xs) ens outs -> sharp (map (set_rxn C) (concat outs))) ->
  incl (ps ++ ts) entries -> most_stable C ent epa entries (ps ++ ts) ->
  nm_precursors mk = Some (map (fun i => red C (e_comp (ent i))) ps) -> ps <> [] -> nm_targets mk = Some (map (fun i => red C (e_comp (ent i))) ts) -> ts <> [] ->
  nm_k mk = Some k -> 0 < k ->
  (forall i, In i (ps ++ ts) -> exists r p, reacts C ent entries ens r p /\ In i (r ++ p)) ->
  forall en phases r p, In en ens -> en_open en = Some phases ->
  (with_gas C ent entries phases (o_n (en_options en)) r p \/ with_gas C ent entries phases (o_n (en_options en)) p r) -> spans C ent entries phases (o_chemsys (en_options en)) r ->
  allowed C ent phases (o_pfunc (en_options en)) (en_precursors en) r -> allowed C ent phases (o_tfunc (en_options en)) (en_targets en) p ->
  determined C (fun i => red C (e_comp (ent i))) r p ->
  exists w rs per, enumerate_and_search C ent (entry_solve C ent) (entry_rank C ent) diagram arrange argsort shuffle wait cpus nwait epa cost sp ens entries mk = Ok (w, rs, Some (concat per))
  /\ (exists x, In x rs /\ turns C ent r p x)
  /\ Forall2 (fun t pathways => pathways_to cost rs (map (in_set C ent) ps) (in_set C ent t) k pathways /\ (incl r ps -> In t p -> pathways <> [])) ts per.
Proof.
  intros C W Hbig ent Hid D diagram wait Hw entries Hn Hne Hel arrange Harr argsort Harg shuffle Hsh cpus Hcpus nwait Hnw epa cost Hcost sp Hsp ens mk ps ts k Hens Us Sh Hincl Hform Ep Hps Et Hts Ek Hk Hin
    en phases r p Ien He G S A1 A2 Dt.
  assert (R : reacts C ent entries ens r p).
  { split; [|exact Dt]. exists en. split; [exact Ien|]. exact (gas_looks C ent entries en phases He r p G S A1 A2 (determined_disjoint C ent r p Dt)). }
  destruct (join_spec C W Hbig ent Hid diagram wait Hw entries Hn Hne Hel arrange Harr argsort Harg shuffle Hsh cpus Hcpus nwait Hnw epa cost Hcost sp Hsp ens mk ps ts k Hens Us Sh Hincl Hform Ep Hps Et Hts Ek Hk Hin)
    as (w & rs & per & E & _ & Comp & F). exists w, rs, per. split; [exact E|]. split; [exact (Comp r p R)|].
  eapply Forall2_impl; [|exact F]. intros t l (P & H). split; [exact P|]. intros Ir It. apply H. exists [(r, p)]. split; [exact R|]. split; [intros i I; left; exact (Ir i I)|exact It].
Qed.
