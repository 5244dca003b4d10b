(* Proofs about the minimising enumerators with any setting of the flags: C93. *)
From Verif Require Import Prelude NumQ ListFacts UtilsModel UtilsSpec UtilsProofs RxnSetSpec RxnSetBaseProofs RxnSetParProofs ReactionModel EnumModel EnumSpec EnumProofs EnumReactProofs EnumLinkModel EntrySetModel EntrySetSpec EntrySetProofs InitProofs JoinModel MinModel MinSpec MinProofs
  EnumAnySpec EnumAnyProofs MinAnySpec.
Open Scope nat_scope.

(* Without the flag a reaction is judged as if its sides had not changed. *)
Definition strict (o : options) : options :=
  {| o_n := o_n o; o_pfunc := o_pfunc o; o_tfunc := o_tfunc o; o_chemsys := o_chemsys o; o_chunk := o_chunk o; o_jobs := o_jobs o;
     o_unbalanced := o_unbalanced o; o_changed := true; o_constraints := o_constraints o |}.
Definition forgive (o : options) (x : erxn) : erxn :=
  if o_changed o then x
  else {| er_reactants := er_reactants x; er_products := er_products x; er_identity := er_identity x; er_balanced := er_balanced x;
          er_errors := Some 0; er_constraints := er_constraints x |}.

Lemma accept_forgiven o pre tar op x : EnumModel.accept (strict o) pre tar op (forgive o x) = EnumModel.accept o pre tar op x.
Proof. unfold EnumModel.accept, strict, forgive. destruct (o_changed o); reflexivity. Qed.
Lemma forgiven_iff o pre tar op x : sound_rxn (strict o) (forgive o x) /\ EnumSpec.wanted (strict o) pre tar op (forgive o x) <-> kept_rxn o x /\ EnumSpec.wanted o pre tar op x.
Proof.
  unfold sound_rxn, kept_rxn, EnumSpec.wanted, forgive. destruct (o_changed o); cbn; [|intuition congruence].
  split; intros ((A & B & E & F) & G); (split; [|exact G]); (split; [exact A|]); (split; [exact B|]); (split; [|exact F]); auto.
Qed.

Section Seen.
Context {P : Type}.
Variables (elems : nat -> list nat) (formula : nat -> nat) (epa : nat -> Q).
Variable build : list nat -> result P.
Variable kinks : P -> nat -> nat -> result (list (list nat * list nat)).
Variable balance : list nat -> list nat -> result erxn.
Variable order : list nat -> list nat.
Hypothesis Hord : forall l, Permutation (order l) l.
Hypothesis Hbal : forall rs ps, rs <> [] -> ps <> [] -> exists x, balance rs ps = Ok x.

Theorem min_any o entries pre tar op : NoDup entries -> (forall e, In e entries -> elems e <> []) -> incl op entries -> o_n o = 2 ->
  good_interfaces elems formula build kinks entries op -> forall react,
  (forall c s pd, In c (limited_powerset (minus entries op) (o_n o)) -> react c [] (Some (s, pd)) = gibbs_react formula epa kinks balance order c [] (Some (s, pd))) ->
  forall wait, 1 <= o_chunk o -> 1 <= o_jobs o -> valid_schedule wait ->
  exists out, min_enumerate elems build react o entries pre tar op wait = Ok out
  /\ interface_kept elems formula epa build kinks balance o entries pre tar op out.
Proof.
  intros Hn Hel Hop Hon Hgood react Hreact wait H1 H2 Hw. unfold min_enumerate.
  destruct (diagrams_ok elems formula build kinks o entries pre tar op Hop Hon Hgood) as (ds & Ed). rewrite Ed. cbn [bind].
  set (dg := fun k => lookup list_eqb k (combine (map fst (combos_dict elems o entries pre tar op)) ds)).
  assert (Hlen : forall cs : list (list nat), minimize_iter_length cs [] = length (minimize_iterable cs [])) by (intros; unfold minimize_iterable; rewrite map_length; reflexivity).
  pose proof (enumerate_all elems minimize_iterable minimize_iter_length react dg o entries pre tar op [] wait H1 H2 Hw Hlen) as Hag.
  destruct (min_kept elems formula epa build kinks balance order Hord Hbal (strict o) entries pre tar op Hn Hel Hop eq_refl Hon Hgood (forgive o) react Hreact ds Ed) as (ys & cs & outs & Ey & N & I & F & Pm).
  assert (Ey' : cat (fun kp => react_pair react o pre tar op (dg (fst kp)) (snd kp)) (tagged (map (fun kv => (fst kv, minimize_iterable (snd kv) [])) (combos_dict elems o entries pre tar op))) = Ok ys).
  { rewrite <- Ey. change (combos_dict elems (strict o) entries pre tar op) with (combos_dict elems o entries pre tar op). apply cat_ext. intros kp _. unfold react_pair, keep_pair.
    change (consider (strict o) pre tar op (fst (snd kp)) (snd (snd kp))) with (consider o pre tar op (fst (snd kp)) (snd (snd kp))).
    destruct (consider o pre tar op (fst (snd kp)) (snd (snd kp))); [|reflexivity].
    change (lookup list_eqb (fst kp) (combine (map fst (combos_dict elems o entries pre tar op)) ds)) with (dg (fst kp)).
    destruct (react (fst (snd kp)) (snd (snd kp)) (dg (fst kp))) as [l|]; [|reflexivity]. cbn [bind]. f_equal. apply filter_ext. intros x. symmetry. apply accept_forgiven. }
  rewrite Ey' in Hag. destruct (enumerate_rxns _ _ _ _ _ _ _ _ _ _ _ _) as [out|] eqn:Eout; [|destruct Hag]. cbn [agree] in Hag. exists out. split; [reflexivity|].
  exists cs, outs. split; [exact N|]. split; [exact I|]. split; [|eapply perm_trans; [exact Hag|exact Pm]].
  clear -F. induction F as [|c rs cs outs Hc F IH]; constructor; [|exact IH]. destruct Hc as (k & s & pd & a & b & ks & all & A1 & A2 & A3 & A4 & A5 & A6 & A7).
  exists k, s, pd, a, b, ks, all. do 6 (split; [assumption|]). clear -A7. induction A7 as [|x l rs Hx A7 IH|x l rs Hx A7 IH]; [constructor| |].
  - apply picks_in; [apply forgiven_iff; exact Hx|exact IH].
  - apply picks_out; [intros K; apply Hx, forgiven_iff; exact K|exact IH].
Qed.

Theorem gibbs_any o entries pre tar wait : NoDup entries -> (forall e, In e entries -> elems e <> []) -> o_n o = 2 ->
  good_interfaces elems formula build kinks entries [] -> 1 <= o_chunk o -> 1 <= o_jobs o -> valid_schedule wait ->
  exists out, min_enumerate elems build (gibbs_react formula epa kinks balance order) o entries pre tar [] wait = Ok out
  /\ interface_kept elems formula epa build kinks balance o entries pre tar [] out.
Proof.
  intros Hn Hel Hon Hg H1 H2 Hw. apply min_any; try assumption; [intros x []|]. reflexivity.
Qed.

Theorem grand_any open_elem o entries pre tar op wait : NoDup entries -> (forall e, In e entries -> elems e <> []) -> o_n o = 2 ->
  incl op entries -> (forall e, In e entries -> elems e = [open_elem] -> In e op) ->
  good_interfaces elems formula build kinks entries op -> 1 <= o_chunk o -> 1 <= o_jobs o -> valid_schedule wait ->
  exists out, min_enumerate elems build (grand_react elems formula epa kinks balance order open_elem) o entries pre tar op wait = Ok out
  /\ interface_kept elems formula epa build kinks balance o entries pre tar op out.
Proof.
  intros Hn Hel Hon Hop Hoe Hg H1 H2 Hw. apply min_any; try assumption. intros c s pd Hc. apply combos_iff in Hc as (Hs & _ & Hd); [|exact Hon].
  unfold grand_react, gibbs_react. assert (E : existsb (is_open_elem elems open_elem) (order c) = false).
  { destruct (existsb (is_open_elem elems open_elem) (order c)) eqn:E; [|reflexivity]. apply existsb_exists in E as (e & He & E).
    apply (Permutation_in _ (Hord c)) in He. exfalso. apply (Hd e He). apply Hoe; [exact (subseq_In _ _ _ Hs He)|]. unfold is_open_elem in E.
    destruct (elems e) as [|x [|y l]]; try discriminate. apply Nat.eqb_eq in E as ->. reflexivity. }
  rewrite E. destruct (order c) as [|r0 [|r1 l]]; reflexivity.
Qed.
End Seen.
