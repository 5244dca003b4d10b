(* Round trips and changes of the environment of a reaction set: C17, C68, C69. *)
From Verif Require Import Prelude NumQ ListFacts ReactionModel ReactionBaseProofs RxnSetModel RxnSetSpec RxnSetBaseProofs RxnSetProofs.
Open Scope nat_scope.

Lemma with_mu_id rxns m : (forall r, In r rxns -> x_mu r = m) -> map (with_mu m) rxns = rxns.
Proof.
  intros H. transitivity (map (fun r => r) rxns); [|apply map_id]. apply map_ext_in. intros [e c d u] Hr. unfold with_mu. simpl.
  pose proof (H _ Hr) as E. simpl in E. rewrite E. reflexivity.
Qed.

Theorem round_trip arrange rxns entries mu : arranges arrange ->
  (entries = [] \/ forall r e, In r rxns -> In e (x_entries r) -> In e entries) ->
  (forall x y, In x (entries ++ all_entries rxns) -> In y (entries ++ all_entries rxns) -> uid x = uid y -> x = y) ->
  (forall r, In r rxns -> length (x_coeffs r) = length (x_entries r)) ->
  (forall r, In r rxns -> x_mu r = None) \/ (exists el q, forall r, In r rxns -> x_mu r = Some [(el, q)]) ->
  exists s out, from_rxns arrange rxns entries None mu = Ok s /\ well_formed s /\ get_rxns s = Ok out
  /\ Permutation out rxns /\ (forall n, filter (of_size n) out = filter (of_size n) rxns)
  /\ rset_len s = length rxns
  /\ NoDup (r_entries s) /\ forall e, In e (r_entries s) <-> In e (if entries then flat_map x_entries rxns else entries).
Proof.
  intros Ha Hent Hu Hlen Hmu. destruct (from_rxns_spec arrange rxns entries None mu Ha Hent Hu Hlen) as (s & out & E1 & E2 & E3 & E4 & E5 & E6 & E7 & E8).
  assert (Hid : map (with_mu (mu_dict s)) rxns = rxns).
  { destruct rxns as [|r0 rxns']; [reflexivity|]. apply with_mu_id. rewrite E8. unfold spec_mu.
    destruct Hmu as [Hc|(el & q & Ho)].
    - rewrite (common_mu_closed (r0 :: rxns') r0 (or_introl eq_refl) (Hc r0 (or_introl eq_refl))). exact Hc.
    - rewrite (common_mu_same _ el q); [exact Ho|discriminate|exact Ho]. }
  rewrite Hid in *. exists s, out. split; [exact E1|]. split; [exact E2|]. split; [exact E3|]. split; [exact E4|]. split; [exact E5|].
  split; [exact E6|]. rewrite E7. destruct (Ha (given entries rxns)) as [N I]. split; [exact N|]. intros e. rewrite I. unfold given.
  destruct entries; reflexivity.
Qed.

Theorem set_chempot_spec s rs el q : well_formed s -> get_rxns s = Ok rs ->
  well_formed (set_chempot s el q) /\ r_entries (set_chempot s el q) = r_entries s
  /\ get_rxns (set_chempot s el q)
     = Ok (map (with_mu (match el with Some e => Some [(e, match q with Some v => v | None => 0%Q end)] | None => None end)) rs).
Proof.
  intros W Hg. assert (W' : well_formed (set_chempot s el q)) by exact W. split; [exact W'|]. split; [reflexivity|].
  rewrite (get_rxns_rows _ W'), (in_map_rows s rs W Hg), map_map. reflexivity.
Qed.

(* --- set_new_temperature --- *)
Lemma temp_table_get warm es e : NoDup (map comp es) -> In e es -> dict_get (comp e) (temp_table warm es) = Some (warm e).
Proof.
  intros Hn Hin. unfold temp_table. rewrite dict_of_nodup by (rewrite map_map; exact Hn).
  induction es as [|x es IH]; [destruct Hin|]. simpl in *. inversion Hn as [|? ? H1 H2]; subst. destruct Hin as [->|Hin].
  - rewrite Nat.eqb_refl. reflexivity.
  - destruct (Nat.eqb_spec (comp e) (comp x)) as [E|E]; [|apply IH; assumption].
    exfalso. apply H1. rewrite <- E. apply in_map. exact Hin.
Qed.

Lemma rows_entries s r e : well_formed s -> In r (rows s) -> In e (x_entries (rxn_at s r)) -> In e (r_entries s).
Proof.
  intros W Hr He. unfold rxn_at in He. cbn [x_entries] in He. apply in_map_iff in He as (i & <- & Hi). apply nth_In.
  apply (rows_range s r W Hr). exact Hi.
Qed.

Theorem new_temperature_spec arrange warm s rs : arranges arrange -> well_formed s -> get_rxns s = Ok rs ->
  NoDup (map comp (r_entries s)) ->
  (forall x y, In x (r_entries s) -> In y (r_entries s) -> uid (warm x) = uid (warm y) -> warm x = warm y) ->
  exists s' out, set_new_temperature arrange warm s = Ok s' /\ well_formed s' /\ get_rxns s' = Ok out
  /\ Permutation out (map (warmed warm) rs) /\ rset_len s' = length rs.
Proof.
  intros Ha W Hg Hn Hu. unfold set_new_temperature. rewrite Hg. cbn [bind].
  assert (Hin : forall r e, In r rs -> In e (x_entries r) -> In e (r_entries s)).
  { intros r e Hr He. rewrite (in_map_rows s rs W Hg) in Hr. apply in_map_iff in Hr as (w & <- & Hw). apply (rows_entries s w); assumption. }
  rewrite (mapM_ok _ (warmed warm)).
  2:{ intros r Hr. unfold warm_rxn. rewrite (mapM_ok _ warm); [reflexivity|]. intros e He.
      rewrite temp_table_get; [reflexivity|exact Hn|apply (Hin r); assumption]. }
  cbn [bind].
  assert (Hmu : forall r, In r rs -> x_mu r = mu_dict s).
  { intros r Hr. rewrite (in_map_rows s rs W Hg) in Hr. apply in_map_iff in Hr as (w & <- & _). reflexivity. }
  assert (Hlen : forall r, In r rs -> length (x_coeffs r) = length (x_entries r)).
  { intros r Hr. rewrite (in_map_rows s rs W Hg) in Hr. apply in_map_iff in Hr as (w & <- & Hw). unfold rxn_at. cbn [x_coeffs x_entries].
    rewrite map_length. apply (rows_range s w W Hw). }
  destruct (from_rxns_spec arrange (map (warmed warm) rs) [] (r_open s) (r_chempot s) Ha) as (s' & out & E1 & E2 & E3 & E4 & _ & E6 & _ & E8).
  - left. reflexivity.
  - assert (I : forall x, In x ([] ++ all_entries (map (warmed warm) rs)) -> exists y, In y (r_entries s) /\ x = warm y).
    { intros x Hx. simpl in Hx. unfold all_entries in Hx. apply in_flat_map in Hx as (r & Hr & Hx). apply in_map_iff in Hr as (r0 & <- & Hr).
      cbn [x_entries warmed] in Hx. apply in_map_iff in Hx as (y & <- & Hy). exists y. split; [apply (Hin r0); assumption|reflexivity]. }
    intros x y Hx Hy. destruct (I x Hx) as (x' & Hx' & ->), (I y Hy) as (y' & Hy' & ->). apply Hu; assumption.
  - intros r Hr. apply in_map_iff in Hr as (r0 & <- & Hr). unfold warmed. simpl. rewrite map_length. apply Hlen. exact Hr.
  - exists s', out. split; [exact E1|]. split; [exact E2|]. split; [exact E3|]. rewrite map_length in E6. split; [|exact E6].
    destruct rs as [|r0 rs']; [exact E4|]. rewrite with_mu_id in E4; [exact E4|].
    assert (Em : mu_dict s' = mu_dict s).
    { rewrite E8. unfold spec_mu. unfold mu_dict. destruct (r_open s) as [el|] eqn:Eo; [reflexivity|].
      rewrite (common_mu_closed _ (warmed warm r0)); [reflexivity|left; reflexivity|].
      cbn [warmed x_mu]. rewrite (Hmu r0 (or_introl eq_refl)). unfold mu_dict. rewrite Eo. reflexivity. }
    intros r Hr. rewrite Em. apply in_map_iff in Hr as (r1 & <- & Hr). cbn [warmed x_mu]. apply Hmu. exact Hr.
Qed.

Theorem length_spec s : well_formed s -> exists rs, get_rxns s = Ok rs /\ length rs = rset_len s.
Proof.
  intros W. exists (map (rxn_at s) (rows s)). split; [apply get_rxns_rows; exact W|]. rewrite map_length. unfold rows, rset_len.
  assert (H : forall n is, In (n, is) (r_indices s) -> length (size_rows s n) = length is).
  { intros n is Hin. assert (Hn : In n (sizes s)) by (apply in_map_iff; exists (n, is); split; [reflexivity|exact Hin]).
    destruct (wf_size s n W Hn) as (L1 & L2 & _). unfold size_rows, zip3. rewrite !combine_length, L1, L2, (vals_in n is _ (proj1 W) Hin). lia. }
  unfold sizes. revert H. generalize (r_indices s). intros l. induction l as [|[n is] l IH]; intros H; [reflexivity|]. simpl.
  rewrite app_length, IH by (intros m js Hm; apply H; right; exact Hm). rewrite (H n is) by (left; reflexivity). reflexivity.
Qed.
