From Coq Require Import String Ascii Sorted.
From Verif Require Import Prelude UtilsModel EnumSpec EntryDbModel EntryDbSpec EntryDbProofs RxnSetBaseProofs MetaModel MetaSpec.
Open Scope list_scope.
Open Scope nat_scope.

Lemma elements_ok periodic l : incl l periodic -> mapM (element_of periodic) l = Ok l.
Proof.
  induction l as [|x l IH]; intros I; [reflexivity|]. cbn. unfold element_of at 1. replace (memb_str x periodic) with true; [|symmetry; apply memb_str_iff, I; left; reflexivity].
  rewrite IH; [reflexivity|]. intros y Iy. apply I. right. exact Iy.
Qed.
Lemma elements_incl periodic l l' : mapM (element_of periodic) l = Ok l' -> l' = l /\ incl l periodic.
Proof.
  revert l'. induction l as [|x l IH]; intros l' H; cbn in H; [split; [congruence|intros y []]|]. unfold element_of in H at 1. destruct (memb_str x periodic) eqn:M; [|discriminate].
  destruct (mapM _ l) as [ys|]; [|discriminate]. destruct (IH ys eq_refl) as (-> & I). split; [congruence|]. intros y [<-|Iy]; [apply memb_str_iff; exact M|apply I; exact Iy].
Qed.
Lemma set_in l x : In x (str_set l) <-> In x l.
Proof. apply nodup_In. Qed.

Lemma exclude_complement periodic els x : In x (exclude_elems periodic els) <-> In x periodic /\ ~ In x els.
Proof.
  unfold exclude_elems. rewrite filter_In. rewrite negb_true_iff. split; intros (A & B); (split; [exact A|]); [intros I; apply memb_str_iff in I; congruence|].
  destruct (memb_str x els) eqn:M; [|reflexivity]. apply memb_str_iff in M. tauto.
Qed.

Lemma fetch_state periodic materials in_chemsys pd pd' db custom chemsys :
  snd (fetch periodic materials in_chemsys pd db custom chemsys) = snd (fetch periodic materials in_chemsys pd' db custom chemsys).
Proof. unfold fetch. destruct db; reflexivity. Qed.

Section Fetched.
Variable periodic : list string.
Variable materials : list material.
Hypothesis Hids : NoDup (map m_id materials).
Hypothesis Hels : forall m, In m materials -> incl (m_elements m) periodic.
Variable in_chemsys : string -> result (list nat).

Lemma id_unique m m' : In m materials -> In m' materials -> m_id m = m_id m' -> m = m'.
Proof.
  revert Hids. clear. induction materials as [|a l IH]; intros N I I' E; [destruct I|]. inversion N as [|? ? Na Nl]; subst.
  destruct I as [<-|I], I' as [<-|I']; [reflexivity| | |apply IH; assumption].
  - exfalso. apply Na. rewrite E. apply in_map. exact I'.
  - exfalso. apply Na. rewrite <- E. apply in_map. exact I.
Qed.

Lemma big_search els x : In x (get_entries_of materials (search_without materials (exclude_elems periodic els))) <-> available_in materials els x.
Proof.
  unfold get_entries_of. rewrite in_flat_map. split.
  - intros (m & I & Ix). apply filter_In in I as [Im B]. unfold memb in B. apply existsb_exists in B as (i & Ii & E). apply Nat.eqb_eq in E. subst i.
    unfold search_without in Ii. apply in_map_iff in Ii as (m' & E & I'). apply filter_In in I' as [Im' B]. assert (m' = m) by (apply id_unique; assumption). subst m'.
    apply andb_true_iff in B as [D X]. apply negb_true_iff in D, X. exists m. split; [exact Im|]. split; [exact D|]. split; [|exact Ix].
    intros e Ie. destruct (memb_str e els) eqn:M; [apply memb_str_iff; exact M|]. exfalso. assert (K : existsb (fun e => memb_str e (exclude_elems periodic els)) (m_elements m) = true); [|congruence].
    apply existsb_exists. exists e. split; [exact Ie|]. apply memb_str_iff, exclude_complement. split; [apply (Hels m Im); exact Ie|]. intros I. apply memb_str_iff in I. congruence.
  - intros (m & Im & D & I & Ix). exists m. split; [|exact Ix]. apply filter_In. split; [exact Im|]. unfold memb. apply existsb_exists. exists (m_id m). split; [|apply Nat.eqb_refl].
    unfold search_without. apply in_map. apply filter_In. split; [exact Im|]. rewrite D. cbn [negb andb]. apply negb_true_iff, not_true_is_false. intros X. apply existsb_exists in X as (e & Ie & X).
    apply memb_str_iff, exclude_complement in X. apply X, I, Ie.
Qed.

Hypothesis Happ : forall els, els <> [] -> NoDup els -> Forall symbol els -> incl els periodic ->
  exists es, in_chemsys (join_dash els) = Ok es /\ forall x, In x es <-> available_in materials els x.

Lemma fetch_mp pd custom els : els <> [] -> NoDup els -> Forall symbol els -> incl els periodic ->
  exists es, fetch periodic materials in_chemsys pd None custom (join_dash els) = (pd, Ok es) /\ forall x, In x es <-> available_in materials els x \/ In x custom.
Proof.
  intros Ne Nd Sy Pe. unfold fetch. rewrite (split_join els Ne Sy), (elements_ok periodic els Pe). cbn [bind].
  assert (Es : str_set els = els) by (apply nodup_fixed_point; exact Nd). rewrite Es. destruct (length els <=? 25).
  - destruct (Happ els Ne Nd Sy Pe) as (es & E & H). rewrite E. cbn [bind]. eexists. split; [reflexivity|]. intros x. rewrite in_app_iff, H. reflexivity.
  - cbn [bind]. eexists. split; [reflexivity|]. intros x. rewrite in_app_iff, big_search. reflexivity.
Qed.

Lemma fetch_unknown pd custom chemsys : ~ incl (split_dash chemsys) periodic -> snd (fetch periodic materials in_chemsys pd None custom chemsys) = Err ValueError.
Proof.
  intros H. cbn [fetch snd]. destruct (mapM (element_of periodic) (split_dash chemsys)) as [l|e] eqn:M; [exfalso; apply H, (elements_incl _ _ _ M)|].
  apply mapM_err in M as (s & _ & E). unfold element_of in E. destruct (memb_str s periodic); [discriminate|]. assert (e = ValueError) by congruence. subst. reflexivity.
Qed.

Lemma fetch_db pd db custom els : els <> [] -> NoDup els -> Forall symbol els -> Forall wf_doc db ->
  exists docs out pd', fetch periodic materials in_chemsys pd (Some db) custom (join_dash els) = (pd', Ok (out ++ custom)) /\ picks (within els) db docs /\ taken docs out /\ asks_for pd pd'.
Proof.
  intros Ne Nd Sy Wd. destruct (all_entries_in_chemsys_spec db els Nd Sy Wd) as ((docs & out & E & P & T) & S). exists docs, out, (with_theoretical pd). unfold fetch. rewrite (S Ne), E. split; [reflexivity|]. split; [exact P|]. split; [exact T|].
  destruct pd as [l|]; [|exact I]. cbn. destruct (memb_str "theoretical" l) eqn:M; [left; split; [apply memb_str_iff; exact M|reflexivity]|right]. split; [|reflexivity]. intros J. apply memb_str_iff in J. congruence.
Qed.
Lemma fetch_unknown_symbols pd custom els : els <> [] -> Forall symbol els -> ~ incl els periodic -> snd (fetch periodic materials in_chemsys pd None custom (join_dash els)) = Err ValueError.
Proof. intros Ne Sy H. apply fetch_unknown. rewrite split_join by assumption. exact H. Qed.
Lemma joined s : exists els, els <> [] /\ Forall symbol els /\ s = join_dash els.
Proof.
  induction s as [|c s (els & Ne & Sy & E)].
  - exists [EmptyString]. split; [discriminate|]. split; [repeat constructor; intros []|reflexivity].
  - destruct els as [|x els]; [contradiction|]. inversion Sy as [|? ? Sx Sl]; subst. destruct (Ascii.eqb c dash) eqn:D.
    + apply Ascii.eqb_eq in D. subst c. exists (EmptyString :: x :: els). split; [discriminate|]. split; [constructor; [intros []|exact Sy]|]. reflexivity.
    + exists (String c x :: els). split; [discriminate|]. split.
      * constructor; [|exact Sl]. intros [J|J]; [|exact (Sx J)]. subst c. rewrite Ascii.eqb_refl in D. discriminate.
      * destruct els as [|y els]; reflexivity.
Qed.
End Fetched.

Lemma theoretical_once pd l : with_theoretical pd = Some l -> In "theoretical"%string l /\ with_theoretical (Some l) = Some l.
Proof.
  destruct pd as [l0|]; [|discriminate]. cbn [with_theoretical]. destruct (memb_str "theoretical" l0) eqn:M; intros E.
  - assert (l = l0) by congruence. subst. split; [apply memb_str_iff; exact M|]. rewrite M. reflexivity.
  - assert (l = l0 ++ ["theoretical"%string]) by congruence. subst. assert (I : In "theoretical"%string (l0 ++ ["theoretical"%string])) by (apply in_or_app; right; left; reflexivity).
    split; [exact I|]. apply memb_str_iff in I. rewrite I. reflexivity.
Qed.

(* --- metadata --- *)
Section Metadata.
Variable periodic : list string.
Variable elements_of : string -> list string.
Variable arrange : list string -> list string.
Hypothesis Harr : forall l, Permutation (arrange l) l.

Lemma metadata_spec els chemsys enumerators : els <> [] -> Forall symbol els -> incl els periodic -> NoDup els -> Permutation chemsys els ->
  exists md, get_metadata periodic elements_of arrange chemsys enumerators = Ok md
    /\ Permutation (md_elements md) els /\ md_chemsys md = join_dash chemsys /\ md_enumerators md = length enumerators
    /\ increasing (md_targets md) /\ enumerates (md_targets md) (fun t => exists en, In en enumerators /\ In t en)
    /\ match md_added md with
       | None => md_targets md = []
       | Some (added, name) =>
           md_targets md <> [] /\ names added name
           /\ enumerates added (fun e => In e els /\ forall t, In t (md_targets md) -> ~ In e (elements_of t))
       end.
Proof.
  intros Ne Sy Pe Nd Pc. unfold get_metadata.
  assert (Nc : chemsys <> []) by (intros ->; apply Ne, Permutation_nil; exact Pc).
  assert (Sc : Forall symbol chemsys) by (eapply Permutation_Forall; [apply Permutation_sym; exact Pc|exact Sy]).
  assert (Ic : incl chemsys periodic) by (intros x Ix; apply Pe; eapply Permutation_in; [exact Pc|exact Ix]).
  rewrite (split_join chemsys Nc Sc), (elements_ok periodic chemsys Ic). cbn [bind].
  set (ts := str_set (concat enumerators)).
  assert (En : enumerates (sort_str ts) (fun t => exists en, In en enumerators /\ In t en)).
  { split; [eapply Permutation_NoDup; [apply Permutation_sym, sort_perm|apply NoDup_nodup]|]. intros t. split.
    - intros I. apply (Permutation_in _ (sort_perm ts)), set_in, in_concat in I as (en & A & B). exists en. split; assumption.
    - intros (en & A & B). apply (Permutation_in _ (Permutation_sym (sort_perm ts))), set_in, in_concat. exists en. split; assumption. }
  assert (Nt : ts = [] \/ sort_str ts <> []).
  { destruct ts as [|t l] eqn:E; [left; reflexivity|right]. apply sort_nonempty. discriminate. }
  assert (Ad : match ts with [] => Ok None | _ => bind (added_elem_data periodic elements_of arrange chemsys (arrange ts)) (fun a => Ok (Some a)) end
     = Ok (match ts with [] => None | _ => let a := arrange (filter (fun e => negb (memb_str e (flat_map elements_of (arrange ts)))) chemsys) in Some (a, join_dash (sort_str a)) end)).
  { destruct ts as [|t l] eqn:E; [reflexivity|]. unfold added_elem_data. cbv zeta. rewrite elements_ok; [reflexivity|]. intros x Ix. apply (Permutation_in _ (Harr _)), filter_In in Ix as [Ix _]. apply Ic; exact Ix. }
  rewrite Ad. cbn [bind]. eexists. split; [reflexivity|]. cbn [md_elements md_chemsys md_enumerators md_targets md_added]. split; [exact Pc|]. split; [reflexivity|]. split; [reflexivity|].
  split; [apply sort_sorted|]. split; [exact En|].
  destruct Nt as [Et|Nt].
  - rewrite Et. reflexivity.
  - destruct ts as [|t l] eqn:E; [exfalso; apply Nt; reflexivity|]. rewrite <- E in *. clear Ad. cbv zeta. split; [exact Nt|].
    set (a := arrange (filter (fun e => negb (memb_str e (flat_map elements_of (arrange ts)))) chemsys)).
    split; [apply names_sort; reflexivity|]. split.
    + eapply Permutation_NoDup; [apply Permutation_sym, Harr|]. apply NoDup_filter. eapply Permutation_NoDup; [apply Permutation_sym; exact Pc|exact Nd].
    + assert (It : forall t, In t (arrange ts) <-> In t (sort_str ts)).
      { intros u. split; intros I.
        - apply (Permutation_in _ (Permutation_sym (sort_perm ts))), (Permutation_in _ (Harr ts)). exact I.
        - apply (Permutation_in _ (Permutation_sym (Harr ts))), (Permutation_in _ (sort_perm ts)). exact I. }
      intros e. split.
      * intros I. apply (Permutation_in _ (Harr _)), filter_In in I as [Ie B]. apply negb_true_iff in B. split; [eapply Permutation_in; [exact Pc|exact Ie]|].
        intros u Iu X. enough (memb_str e (flat_map elements_of (arrange ts)) = true) by congruence. apply memb_str_iff, in_flat_map. exists u. split; [apply It; exact Iu|exact X].
      * intros (Ie & B). apply (Permutation_in _ (Permutation_sym (Harr _))), filter_In. split; [eapply Permutation_in; [apply Permutation_sym; exact Pc|exact Ie]|].
        apply negb_true_iff, not_true_is_false. intros X. apply memb_str_iff, in_flat_map in X as (u & Iu & X). apply (B u); [apply It; exact Iu|exact X].
Qed.
End Metadata.
