(* Proofs about storing entries. *)
From Coq Require Import Lqa.
From Verif Require Import Prelude NumQ ListFacts UtilsModel ReactionModel ReactionSpec GibbsModel GibbsSpec GibbsEntryProofs StoreModel StoreSpec.
Open Scope nat_scope.

(* induction over the data *)
Lemma tree_induction (P : tree -> Prop) :
  (forall n, P (Leaf n)) -> (forall l, Forall P l -> P (TList l)) -> (forall l, Forall (fun kv => P (snd kv)) l -> P (TDict l)) ->
  forall t, P t.
Proof.
  intros HL HT HD. fix IH 1. intros [n|l|l].
  - apply HL.
  - apply HT. induction l as [|t l IHl]; constructor; [apply IH|exact IHl].
  - apply HD. induction l as [|[k t] l IHl]; constructor; [apply IH|exact IHl].
Qed.

Lemma key_eqb_iff a b : key_eqb a b = true <-> a = b.
Proof.
  destruct a as [x|x|x], b as [y|y|y]; cbn [key_eqb]; rewrite ?Nat.eqb_eq, ?Z.eqb_eq; split; intros H; try discriminate; try congruence.
Qed.
Lemma put_new {V} k (v : V) d : ~ In k (map fst d) -> put k v d = d ++ [(k, v)].
Proof.
  induction d as [|[k' v'] d IH]; cbn [put map fst app]; intros H; [reflexivity|].
  destruct (key_eqb k k') eqn:B; [apply key_eqb_iff in B; subst; exfalso; apply H; left; reflexivity|].
  rewrite IH; [reflexivity|]. intros I. apply H. right. exact I.
Qed.
Lemma dict_from_nodup {V} (l : list (key * V)) : NoDup (map fst l) -> dict_from l = l.
Proof.
  unfold dict_from. assert (G : forall l acc : list (key * V), NoDup (map fst (acc ++ l)) -> fold_left (fun d kv => put (fst kv) (snd kv) d) l acc = acc ++ l).
  { clear l. intros m. induction m as [|[k v] m IH]; intros acc N; cbn [fold_left fst snd]; [rewrite app_nil_r; reflexivity|].
    rewrite put_new.
    - rewrite IH; rewrite <- app_assoc; [reflexivity|exact N].
    - rewrite map_app in N. cbn [map fst] in N. apply NoDup_remove_2 in N. intros I. apply N. apply in_or_app. left. exact I. }
  intros N. apply (G l [] N).
Qed.
Lemma put_keys {V} k (v : V) d x : In x (put k v d) -> fst x = k \/ exists y, In y d /\ fst x = fst y.
Proof.
  induction d as [|[k' v'] d IH]; cbn [put]; intros H.
  - destruct H as [<-|[]]. left. reflexivity.
  - destruct (key_eqb k k') eqn:B.
    + destruct H as [<-|H]; right; [exists (k', v'); split; [left; reflexivity|reflexivity]|exists x; split; [right; exact H|reflexivity]].
    + destruct H as [<-|H]; [right; exists (k', v'); split; [left; reflexivity|reflexivity]|].
      destruct (IH H) as [E|(y & I & E)]; [left; exact E|right; exists y; split; [right; exact I|exact E]].
Qed.
Lemma put_values {V} k (v : V) d x : In x (put k v d) -> snd x = v \/ In (snd x) (map snd d).
Proof.
  induction d as [|[k' v'] d IH]; cbn [put]; intros H.
  - destruct H as [<-|[]]. left. reflexivity.
  - destruct (key_eqb k k').
    + destruct H as [<-|H]; [left; reflexivity|right; right; apply in_map; exact H].
    + destruct H as [<-|H]; [right; left; reflexivity|]. destruct (IH H) as [E|I]; [left; exact E|right; right; exact I].
Qed.
Lemma dict_from_in {V} (l : list (key * V)) x : In x (dict_from l) -> In (fst x) (map fst l) /\ In (snd x) (map snd l).
Proof.
  unfold dict_from. assert (G : forall l acc : list (key * V), In x (fold_left (fun d kv => put (fst kv) (snd kv) d) l acc) ->
    In (fst x) (map fst acc ++ map fst l) /\ In (snd x) (map snd acc ++ map snd l)).
  { clear l. intros m. induction m as [|[k v] m IH]; intros acc H; cbn [fold_left fst snd map] in *.
    - rewrite !app_nil_r. split; apply in_map; exact H.
    - destruct (IH _ H) as [I1 I2]. rewrite in_app_iff in *. cbn [In]. split.
      + destruct I1 as [I1|I1]; [|right; right; exact I1]. apply in_map_iff in I1. destruct I1 as (y & <- & Iy).
        destruct (put_keys _ _ _ _ Iy) as [E|(z & Iz & E)]; rewrite E; [right; left; reflexivity|left; apply in_map; exact Iz].
      + rewrite in_app_iff in *. cbn [In]. destruct I2 as [I2|I2]; [|right; right; exact I2]. apply in_map_iff in I2. destruct I2 as (y & <- & Iy).
        destruct (put_values _ _ _ _ Iy) as [E|I]; [rewrite E; right; left; reflexivity|left; exact I]. }
  intros H. exact (G l [] H).
Qed.
Lemma dict_from_value {V} (l : list (key * V)) k : In k (map fst l) -> In k (map fst (dict_from l)).
Proof.
  unfold dict_from. assert (P : forall (d : list (key * V)) k0 v x, In x (map fst d) \/ x = k0 -> In x (map fst (put k0 v d))).
  { clear. intros d k0 v x. induction d as [|[k' v'] d IH]; cbn [put map fst]; intros H.
    - destruct H as [[]| ->]. left. reflexivity.
    - destruct (key_eqb k0 k') eqn:B.
      + apply key_eqb_iff in B. subst. cbn [map fst]. destruct H as [H| ->]; [exact H|left; reflexivity].
      + cbn [map fst]. destruct H as [[H|H]|H]; [left; exact H|right; apply IH; left; exact H|right; apply IH; right; exact H]. }
  assert (G : forall l acc : list (key * V), In k (map fst acc) \/ In k (map fst l) -> In k (map fst (fold_left (fun d kv => put (fst kv) (snd kv) d) l acc))).
  { clear l. intros m. induction m as [|[k' v'] m IH]; intros acc H; cbn [fold_left fst snd map] in *.
    - destruct H as [H|[]]. exact H.
    - apply IH. destruct H as [H|[<-|H]]; [left; apply P; left; exact H|left; apply P; right; reflexivity|right; exact H]. }
  intros H. apply G. right. exact H.
Qed.

Section Store.
Variable elem_text : nat -> nat.
Variable num_text : Z -> nat.
Notation name := (name_of elem_text num_text).

Lemma has_elem_iff t : has_elem t = true <-> exists n, elem_key n t.
Proof.
  induction t as [n|l IH|l IH] using tree_induction; cbn [has_elem].
  - split; [discriminate|]. intros (m & H). inversion H.
  - rewrite existsb_exists. split.
    + intros (v & I & H). rewrite Forall_forall in IH. apply (IH v I) in H. destruct H as (n & H). exists (S n). eapply key_in_list; eassumption.
    + intros (n & H). inversion H; subst. exists v. split; [assumption|]. rewrite Forall_forall in IH. apply IH; [assumption|]. eexists. eassumption.
  - rewrite existsb_exists. rewrite Forall_forall in IH. split.
    + intros ([k v] & I & H). cbn [fst snd] in H. apply orb_prop in H. destruct H as [H|H].
      * destruct k; try discriminate. exists 0. eapply key_here. eassumption.
      * apply (IH _ I) in H. cbn [snd] in H. destruct H as (n & H). exists (S n). eapply key_in_dict; eassumption.
    + intros (n & H). inversion H; subst.
      * eexists. split; [eassumption|]. reflexivity.
      * eexists. split; [eassumption|]. cbn [fst snd]. apply orb_true_iff. right. match goal with I : In _ l |- _ => apply (IH _ I) end. eexists. eassumption.
Qed.

(* Element keys one level down are the ones that go *)
Lemma clean_not_elem k : is_elem (clean_key elem_text k) = false.
Proof. destruct k; reflexivity. Qed.
Lemma sanitize_in d k v : In (k, v) (sanitize elem_text d) -> exists v0, In (k, v0) d
  /\ v = match v0 with TDict l => TDict (dict_from (map (fun x => (clean_key elem_text (fst x), snd x)) l)) | w => w end.
Proof.
  unfold sanitize. intros H. apply in_map_iff in H. destruct H as ([k0 v0] & E & I). cbn [fst snd] in E. injection E as <- <-.
  exists v0. split; [exact I|destruct v0; reflexivity].
Qed.
Lemma sanitize_clean d : (forall n, elem_key n (TDict d) -> n = 1) -> has_elem (TDict (sanitize elem_text d)) = false.
Proof.
  intros H. destruct (has_elem (TDict (sanitize elem_text d))) eqn:B; [|reflexivity]. exfalso.
  apply has_elem_iff in B. destruct B as (n & B). inversion B as [e v l I|m k v l I K|]; subst.
  - apply sanitize_in in I. destruct I as (v0 & I & _). assert (X := H 0 (key_here _ _ _ I)). discriminate.
  - apply sanitize_in in I. destruct I as (v0 & I & E). destruct v0 as [w|lw|lw]; subst v.
    + inversion K.
    + assert (X := H (S m) (key_in_dict _ _ _ _ I K)). injection X as ->. inversion K.
    + inversion K as [e v l' J|m' k' v l' J K'|]; subst.
      * apply dict_from_in in J. destruct J as [J _]. apply in_map_iff in J. destruct J as (y & E & J).
        apply in_map_iff in J. destruct J as (z & <- & _). cbn [fst] in E. assert (N := clean_not_elem (fst z)). rewrite E in N. discriminate.
      * apply dict_from_in in J. destruct J as [_ J]. cbn [snd] in J. rewrite map_map in J. cbn [snd] in J. apply in_map_iff in J. destruct J as ([k0 v0] & E & J).
        cbn [snd] in E. subst v0. assert (X := H (S (S m')) (key_in_dict _ _ _ _ I (key_in_dict _ _ _ _ J K'))). discriminate.
Qed.
Lemma clean_name k : name (clean_key elem_text k) = name k.
Proof. destruct k; reflexivity. Qed.
Lemma nodup_of_names (l : list (key * tree)) : NoDup (map (fun kv => name (fst kv)) l) -> NoDup (map fst l).
Proof. intros N. rewrite <- (map_map fst name) in N. exact (NoDup_map_inv _ _ N). Qed.
Lemma clean_dict l : NoDup (map (fun kv => name (fst kv)) l) ->
  dict_from (map (fun x : key * tree => (clean_key elem_text (fst x), snd x)) l) = map (fun x => (clean_key elem_text (fst x), snd x)) l.
Proof.
  intros N. apply dict_from_nodup, nodup_of_names. rewrite map_map. cbn [fst].
  rewrite (map_ext _ (fun kv : key * tree => name (fst kv)) (fun kv => clean_name (fst kv))). exact N.
Qed.
Lemma sanitize_dirty d n : distinct_names name (TDict d) -> elem_key n (TDict d) -> n <> 1 -> has_elem (TDict (sanitize elem_text d)) = true.
Proof.
  intros D K N. apply has_elem_iff. exists n. unfold sanitize. inversion D as [| |l ND FD]; subst. inversion K as [e v l I|m k v l I K'|]; subst.
  - eapply key_here. apply in_map_iff. exists (KElem e, v). cbn [fst snd]. split; [reflexivity|exact I].
  - eapply key_in_dict; [apply in_map_iff; exists (k, v); cbn [fst snd]; split; [reflexivity|exact I]|].
    destruct v as [w|lw|lw]; [exact K'|exact K'|]. rewrite Forall_forall in FD. assert (Dv := FD _ I). cbn [snd] in Dv. inversion Dv as [| |l' ND' FD']; subst.
    rewrite clean_dict by exact ND'. inversion K' as [e v l' J|m' k' v l' J K2|]; subst; [congruence|].
    eapply key_in_dict; [apply in_map_iff; exists (k', v); cbn [fst snd]; split; [reflexivity|exact J]|exact K2].
Qed.

Lemma as_dict_ok (e : stored_entry) : (forall n, elem_key n (TDict (st_data e)) -> n = 1) ->
  exists t, gibbs_as_dict elem_text num_text e = (Ok {| gd_entry := st_entry e; gd_data := t |}, e).
Proof.
  intros H. unfold gibbs_as_dict, json_back. cbn [st_data]. rewrite (sanitize_clean _ H). eexists. reflexivity.
Qed.
Lemma as_dict_fails (e : stored_entry) n : distinct_names name (TDict (st_data e)) -> elem_key n (TDict (st_data e)) -> n <> 1 ->
  gibbs_as_dict elem_text num_text e = (Err TypeError, {| st_entry := st_entry e; st_data := sanitize elem_text (st_data e) |}).
Proof.
  intros D K N. unfold gibbs_as_dict, json_back. cbn [st_data]. rewrite (sanitize_dirty _ n D K N). reflexivity.
Qed.

Lemma key_text_name k : is_elem k = false -> key_text num_text k = KText (name k).
Proof. destruct k; [reflexivity|discriminate|reflexivity]. Qed.
Lemma no_elem_parts l : has_elem (TDict l) = false -> forall k v, In (k, v) l -> is_elem k = false /\ has_elem v = false.
Proof.
  intros H k v I. split.
  - destruct (is_elem k) eqn:B; [|reflexivity]. rewrite (proj2 (existsb_exists _ _) (ex_intro _ (k, v) (conj I (eq_trans (f_equal (fun b => b || has_elem v) B) eq_refl))) : has_elem (TDict l) = true) in H. discriminate.
  - destruct (has_elem v) eqn:B; [|reflexivity]. cbn [has_elem] in H.
    assert (X : existsb (fun kv => is_elem (fst kv) || has_elem (snd kv)) l = true) by (apply existsb_exists; exists (k, v); split; [exact I|cbn [fst snd]; rewrite B; apply orb_true_r]).
    rewrite X in H. discriminate.
Qed.
Lemma loads_names t : distinct_names name t -> has_elem t = false -> renamed name t (loads num_text t).
Proof.
  induction t as [n|l IH|l IH] using tree_induction; intros D H.
  - constructor.
  - inversion D as [|l' F|]; subst. cbn [loads]. constructor. cbn [has_elem] in H. clear D.
    induction l as [|t l IHl]; cbn [map]; constructor.
    + inversion IH; subst. inversion F; subst. cbn [existsb] in H. apply orb_false_elim in H. destruct H. auto.
    + inversion IH; subst. inversion F; subst. cbn [existsb] in H. apply orb_false_elim in H. destruct H. auto.
  - inversion D as [| |l' N F]; subst. cbn [loads].
    assert (P := no_elem_parts l H). rewrite dict_from_nodup.
    + constructor. clear D N H. induction l as [|[k v] l IHl]; cbn [map]; constructor.
      * destruct (P k v (or_introl eq_refl)) as [P1 P2]. inversion IH; subst. inversion F; subst. cbn [fst snd] in *. split; [apply key_text_name; exact P1|auto].
      * inversion IH; subst. inversion F; subst. apply IHl; [assumption|assumption|]. intros k' v' I. apply P. right. exact I.
    + rewrite map_map. cbn [fst]. rewrite (map_ext_in _ (fun kv => KText (name (fst kv)))).
      * rewrite <- (map_map (fun kv => name (fst kv)) KText). apply FinFun.Injective_map_NoDup; [|exact N]. intros a b E. injection E as ->. reflexivity.
      * intros [k v] I. cbn [fst]. apply key_text_name. exact (proj1 (P k v I)).
Qed.

Lemma sanitize_renamed d t : distinct_names name (TDict d) -> renamed name (TDict (sanitize elem_text d)) t -> renamed name (TDict d) t.
Proof.
  intros D R. inversion D as [| |l N F]; subst. inversion R as [| |l l' Rl]; subst. constructor. unfold sanitize in Rl. clear D R N.
  revert l' Rl. induction d as [|[k v] d IH]; intros l' Rl; cbn [map] in Rl; inversion Rl as [|a b la lb [Rk Rv] Rs]; subst; constructor.
  - cbn [fst snd] in *. split; [exact Rk|]. inversion F as [|x y Dv Fs]; subst. cbn [snd] in Dv. destruct v as [w|lw|lw]; [exact Rv|exact Rv|].
    inversion Dv as [| |l N _]; subst. rewrite clean_dict in Rv by exact N. inversion Rv as [| |l l2 Rw E1 E2]; subst. constructor.
    clear - Rw. revert l2 Rw. induction lw as [|[k' v'] lw IH]; intros l2 Rw; cbn [map] in Rw; inversion Rw as [|a2 b2 la2 lb2 [X Y] Z]; subst; constructor.
    + cbn [fst snd] in *. rewrite clean_name in X. split; assumption.
    + apply IH. exact Z.
  - inversion F; subst. apply IH; assumption.
Qed.
Lemma sanitize_distinct d : distinct_names name (TDict d) -> distinct_names name (TDict (sanitize elem_text d)).
Proof.
  intros D. inversion D as [| |l N F]; subst. constructor.
  - unfold sanitize. rewrite map_map. cbn [fst]. exact N.
  - unfold sanitize. apply Forall_forall. intros kv I. apply in_map_iff in I. destruct I as ([k v] & <- & I). cbn [fst snd].
    rewrite Forall_forall in F. assert (Dv := F _ I). cbn [snd] in Dv. destruct v as [w|lw|lw]; [exact Dv|exact Dv|].
    inversion Dv as [| |l N' F']; subst. rewrite clean_dict by exact N'. constructor.
    + rewrite map_map. cbn [fst]. rewrite (map_ext _ (fun kv : key * tree => name (fst kv)) (fun kv => clean_name (fst kv))). exact N'.
    + apply Forall_forall. intros x Ix. apply in_map_iff in Ix. destruct Ix as (y & <- & Iy). cbn [snd]. rewrite Forall_forall in F'. exact (F' y Iy).
Qed.

Lemma renamed_texts t : forall t', only_texts t -> renamed name t t' -> t' = t.
Proof.
  induction t as [n|l IH|l IH] using tree_induction; intros t' O R.
  - inversion R. reflexivity.
  - inversion R as [|l0 l' F|]; subst. inversion O as [|l0 Fo|]; subst. f_equal. clear R O. revert l' F.
    induction l as [|t l IHl]; intros l' F; inversion F; subst; [reflexivity|]. inversion IH; subst. inversion Fo; subst. f_equal; auto.
  - inversion R as [| |l0 l' F]; subst. inversion O as [| |l0 Fo]; subst. f_equal. clear R O. revert l' F.
    induction l as [|[k t] l IHl]; intros l' F; inversion F as [|a [k' v'] la lb [X Y] Z]; subst; [reflexivity|]. inversion IH; subst. inversion Fo as [|a b [[n E] Ot] Fs]; subst.
    cbn [fst snd] in *. subst k k'. cbn [name_of]. f_equal; [f_equal; auto|]. auto.
Qed.

(* storing and reading back *)
Variable ln : Q -> Q.
Variable C : chem.
Variable mass : nat -> Q.
Variable table : list (Z * list (nat * Q)).
Variable default_id : nat -> Q -> nat.

Lemma store_read (e : stored_entry) c dhf v t adjs id :
  gibbs_init ln C mass table default_id c dhf v t adjs id = Ok (st_entry e) ->
  (forall n, elem_key n (TDict (st_data e)) -> n = 1) -> distinct_names name (TDict (st_data e)) ->
  exists d d', gibbs_as_dict elem_text num_text e = (Ok d, e)
  /\ gibbs_from_dict ln C mass table default_id d = Ok (st_entry e, d')
  /\ renamed name (TDict (st_data e)) d' /\ (only_texts (TDict (st_data e)) -> d' = TDict (st_data e)).
Proof.
  intros I K D. unfold gibbs_as_dict, json_back. cbn [st_data]. rewrite (sanitize_clean _ K).
  set (t' := loads num_text (TDict (sanitize elem_text (st_data e)))).
  assert (R : renamed name (TDict (st_data e)) t').
  { apply sanitize_renamed; [exact D|]. apply loads_names; [apply sanitize_distinct; exact D|apply sanitize_clean; exact K]. }
  exists {| gd_entry := st_entry e; gd_data := t' |}, t'. split; [reflexivity|]. split; [|split; [exact R|intros O; exact (renamed_texts _ _ O R)]].
  unfold gibbs_from_dict. cbn [gd_entry gd_data].
  assert (W := warm_is_direct ln C mass table default_id c dhf v t (ge_temp (st_entry e)) adjs id (st_entry e) I). unfold gibbs_new_temperature in W. rewrite W.
  assert (T : ge_temp (st_entry e) = t).
  { clear - I. unfold gibbs_init in I. destruct (_ || _); [discriminate|]. destruct (gibbs_adjustment _ _ _ _ _ _ _) in I; [|discriminate]. cbn [bind] in I. injection I as <-. reflexivity. }
  rewrite T, I. reflexivity.
Qed.
Lemma retemper_fails (e : stored_entry) t n : distinct_names name (TDict (st_data e)) -> elem_key n (TDict (st_data e)) -> n <> 1 ->
  gibbs_retemper elem_text num_text ln C mass table default_id e t = (Err TypeError, {| st_entry := st_entry e; st_data := sanitize elem_text (st_data e) |}).
Proof. intros D K N. unfold gibbs_retemper. rewrite (as_dict_fails e n D K N). reflexivity. Qed.
Lemma retemper_ok (e : stored_entry) t : (forall n, elem_key n (TDict (st_data e)) -> n = 1) ->
  exists d, gibbs_retemper elem_text num_text ln C mass table default_id e t =
    (bind (gibbs_new_temperature ln C mass table default_id (st_entry e) t) (fun e' => Ok (e', d)), e).
Proof. intros K. destruct (as_dict_ok e K) as (d & E). exists d. unfold gibbs_retemper. rewrite E. reflexivity. Qed.
End Store.

Lemma known_spec th ic : th <> Some None -> (th = None -> ic <> Some None) -> exists b, is_experimental th ic = Ok b /\ (b = true <-> known th ic).
Proof.
  intros T I. unfold is_experimental, known. destruct th as [[[|]|]|].
  - exists false. split; [reflexivity|]. split; [discriminate|]. intros [H|[H _]]; discriminate.
  - exists true. split; [reflexivity|]. split; [intros _; left; reflexivity|reflexivity].
  - congruence.
  - destruct ic as [[n|]|].
    + exists (Nat.leb 1 n). split; [reflexivity|]. rewrite Nat.leb_le. split.
      * intros H. right. split; [reflexivity|]. exists n. split; [reflexivity|exact H].
      * intros [H|(_ & m & E & H)]; [discriminate|]. injection E as <-. exact H.
    + exfalso. exact (I eq_refl eq_refl).
    + exists false. split; [reflexivity|]. split; [discriminate|]. intros [H|(_ & m & E & _)]; discriminate.
Qed.

Lemma sites_occupancy (sites : list (list (nat * Q))) : (forall s, In s sites -> (fold_right Qplus 0 (map snd s) == 1)%Q) ->
  (fold_right Qplus 0 (map snd (concat sites)) == Z.of_nat (length sites) # 1)%Q.
Proof.
  induction sites as [|s sites IH]; intros H; cbn [concat map fold_right length]; [reflexivity|].
  assert (A : forall l m : list Q, (fold_right Qplus 0 (l ++ m) == fold_right Qplus 0 l + fold_right Qplus 0 m)%Q).
  { clear. intros l m. induction l as [|q l IH]; cbn [app fold_right]; [ring|rewrite IH; ring]. }
  rewrite map_app, A, (H s (or_introl eq_refl)), IH by (intros x I; apply H; right; exact I).
  unfold Qeq. cbn [Qnum Qden Qplus]. lia.
Qed.
Lemma structure_volume ln C mass table default_id comp_of s dhf t adjs id e :
  from_structure ln C mass table default_id comp_of s dhf t adjs id = Ok e ->
  ge_comp e = comp_of (concat (s_sites s)) /\ (ge_vol e == s_volume s / (Z.of_nat (length (s_sites s)) # 1))%Q
  /\ ((forall x, In x (s_sites s) -> (fold_right Qplus 0 (map snd x) == 1)%Q) -> (ge_vol e == s_volume s / occupancy s)%Q).
Proof.
  unfold from_structure. intros H. assert (G : ge_comp e = comp_of (concat (s_sites s)) /\ ge_vol e = (s_volume s / (Z.of_nat (length (s_sites s)) # 1))%Q).
  { destruct (s_sites s) as [|x l]; [discriminate|]. unfold gibbs_init in H. destruct (_ || _); [discriminate|].
    destruct (gibbs_adjustment _ _ _ _ _ _ _) in H; [|discriminate]. cbn [bind] in H. injection H as <-. split; reflexivity. }
  destruct G as [G1 G2]. split; [exact G1|]. rewrite G2. split; [reflexivity|]. intros F. unfold occupancy. rewrite (sites_occupancy _ F). reflexivity.
Qed.
