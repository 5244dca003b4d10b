(* How a reaction is written (C92). *)
From Coq Require Import Ascii String Qround Qpower Lqa Lia.
From Verif Require Import Prelude NumQ ListFacts ReactionModel ReactionBaseProofs StrModel StrSpec StrNumProofs StrProofs.
Open Scope list_scope.
Open Scope nat_scope.

Lemma join_sep sep l : sep_by sep l (join sep l).
Proof.
  induction l as [|x l IH]; [constructor|]. destruct l as [|y l]; [constructor|].
  change (join sep (x :: y :: l)) with (x ++ sep ++ join sep (y :: l)). constructor. exact IH.
Qed.

Definition dotless (s : text) : Prop := forallb (fun c => negb (is_char 46 c)) s = true.
Lemma dot_eq c : is_char 46 c = true -> c = "."%char. Proof. by_char c. Qed.
Lemma digit_dotless c : is_digit c = true -> negb (is_char 46 c) = true. Proof. by_char c. Qed.
Lemma digit_nonzero c : is_digit c = true -> is_char 48 c = false -> In c (list_ascii_of_string "123456789").
Proof. destruct c as [[|] [|] [|] [|] [|] [|] [|] [|]]; intros D Z; try discriminate D; try discriminate Z; cbn; auto 12. Qed.
Lemma dotless_app a b : dotless (a ++ b) <-> dotless a /\ dotless b.
Proof. unfold dotless. rewrite forallb_app, andb_true_iff. reflexivity. Qed.
Lemma dotless_no a x y : dotless a -> a <> x ++ "."%char :: y.
Proof. intros D ->. apply dotless_app in D as [_ D]. discriminate D. Qed.
Lemma digits_dotless s : forallb is_digit s = true -> dotless s.
Proof. apply forallb_impl, digit_dotless. Qed.
Lemma one_dot a b x y : dotless a -> dotless b -> a ++ "."%char :: b = x ++ "."%char :: y -> y = b.
Proof.
  intros A B. revert x. induction a as [|c a IH]; intros x E.
  - destruct x as [|d x]; cbn in E; [injection E as <-; reflexivity|]. injection E as <- E. exfalso. exact (dotless_no b x y B E).
  - cbn in A. destruct x as [|d x]; cbn in E.
    + injection E as -> E. discriminate A.
    + injection E as <- E. apply (IH (proj2 (proj1 (andb_true_iff _ _) A)) x E).
Qed.

Lemma span_head p s c r : snd (span p s) = c :: r -> p c = false.
Proof.
  induction s as [|d s IH]; [discriminate|]. cbn. destruct (p d) eqn:P; [|cbn; intros E; injection E as <- _; exact P].
  destruct (span p s) as [a b]. exact IH.
Qed.
Lemma strip_end b : strip_zeros b <> [] -> exists b' d, strip_zeros b = b' ++ [d] /\ is_char 48 d = false.
Proof.
  unfold strip_zeros. intros N. destruct (snd (span (is_char 48) (rev b))) as [|d r] eqn:E; [destruct N; reflexivity|].
  exists (rev r), d. split; [reflexivity|]. exact (span_head _ _ _ _ E).
Qed.
Lemma fraction_tidy a b e : forallb is_digit a = true -> forallb is_digit b = true -> dotless e -> e = [] \/ (exists e', e = "e"%char :: e') -> tidy (with_fraction a b ++ e).
Proof.
  intros A B E H x y. unfold with_fraction. destruct (strip_zeros b) as [|c f] eqn:S.
  - intros Q. exfalso. apply (dotless_no (a ++ e) x y); [|exact Q]. apply dotless_app. split; [apply digits_dotless, A|exact E].
  - rewrite <- S. intros Q. rewrite <- app_assoc in Q. cbn [app] in Q. assert (BB := forallb_sub is_digit _ _ (strip_incl b) B).
    apply one_dot in Q; [|apply digits_dotless, A|apply dotless_app; split; [apply digits_dotless, BB|exact E]].
    destruct (strip_end b) as (b' & d & F & Z); [rewrite S; discriminate|]. exists b', d, e. rewrite Q, F, <- app_assoc.
    split; [reflexivity|]. split; [|exact H]. apply digit_nonzero; [|exact Z]. rewrite F, forallb_app in BB. apply andb_prop in BB as [_ BB].
    cbn in BB. rewrite andb_true_r in BB. exact BB.
Qed.
Lemma digits_digit m : forallb is_digit (four_digits m) = true.
Proof. unfold four_digits. cbn [forallb]. rewrite !digit_is_digit. reflexivity. Qed.
Lemma repeat_digit n : forallb is_digit (repeat "0"%char n) = true.
Proof. induction n; [reflexivity|]. cbn. exact IHn. Qed.
Lemma render_tidy m x : tidy (render m x).
Proof.
  assert (DF := fun n => forallb_sub is_digit _ _ (firstn_incl n _) (digits_digit m)). assert (DS := fun n => forallb_sub is_digit _ _ (skipn_incl n _) (digits_digit m)).
  unfold render. destruct (((-4 <=? x) && (x <? 4))%Z); [destruct (0 <=? x)%Z|].
  - rewrite <- (app_nil_r (with_fraction _ _)). apply fraction_tidy; [apply DF|apply DS|reflexivity|left; reflexivity].
  - rewrite <- (app_nil_r (with_fraction _ _)). apply fraction_tidy; [reflexivity| |reflexivity|left; reflexivity].
    rewrite forallb_app, repeat_digit. apply digits_digit.
  - apply fraction_tidy; [apply DF|apply DS| |right; eexists; reflexivity].
    assert (X : dotless (exponent_digits (Z.abs x))).
    { apply digits_dotless. unfold exponent_digits. rewrite forallb_app. cbn [forallb]. rewrite !digit_is_digit. destruct (Z.abs x <? 100)%Z; [reflexivity|]. cbn [forallb]. rewrite digit_is_digit. reflexivity. }
    unfold dotless in *. cbn [forallb]. rewrite X. destruct (x <? 0)%Z; reflexivity.
Qed.
Lemma term_written q f : (TOL < q)%Q -> (q < 99995 # 10)%Q -> written q f (term (amount_text q) f).
Proof.
  intros L U. unfold amount_text, written. change (1 # 1000000)%Q with TOL. destruct (Qlt_bool (Qabs (q - 1)) TOL) eqn:A.
  - apply Qlt_bool_iff' in A. split; [reflexivity|]. intros B. exfalso. lra.
  - apply Qlt_bool_false in A. split; [intros B; exfalso; lra|]. intros _. destruct (format_spec q L U) as [_ (v & V & F)].
    exists (format_4g q), v. rewrite format_term by assumption. split; [reflexivity|]. split; [|split; assumption].
    unfold format_4g. destruct (four q). apply render_tidy.
Qed.

Lemma side_written name s l : (forall ca, In ca l -> (TOL < s (snd ca))%Q /\ (s (snd ca) < 99995 # 10)%Q) ->
  exists ts, sep_by (list_ascii_of_string " + ") ts (side_text (map (token name s) l)) /\ Forall2 (fun ca t => written (s (snd ca)) (name (fst ca)) t) l ts.
Proof.
  intros H. exists (map (fun gf => term (fst gf) (snd gf)) (map (token name s) l)). split; [apply join_sep|].
  clear -H. induction l as [|ca l IH]; [constructor|]. cbn [map]. constructor.
  - cbn [token fst snd]. destruct (H ca (or_introl eq_refl)). apply term_written; assumption.
  - apply IH. intros x X. apply H. right. exact X.
Qed.

Theorem text_written : forall C name r, (forall ca, In ca (amounts C r) -> (Qabs (snd ca) < 99995 # 10)%Q) ->
  exists ls rs a b, to_string C name r = a ++ list_ascii_of_string " -> " ++ b
  /\ sep_by (list_ascii_of_string " + ") ls a /\ sep_by (list_ascii_of_string " + ") rs b
  /\ Forall2 (fun ca t => written (- snd ca) (name (fst ca)) t) (consumed_amounts C r) ls
  /\ Forall2 (fun ca t => written (snd ca) (name (fst ca)) t) (formed_amounts C r) rs.
Proof.
  intros C name r H.
  assert (U : forall ca, In ca (amounts C r) -> (- (99995 # 10) < snd ca < 99995 # 10)%Q) by (intros ca I; apply Qabs_Qlt_condition, H, I).
  destruct (side_written name Qopp (consumed_amounts C r)) as (ls & L1 & L2).
  { intros ca I. apply filter_In in I as [I T]. apply Qlt_bool_iff' in T. specialize (U ca I). unfold TOL. split; lra. }
  destruct (side_written name (fun q => q) (formed_amounts C r)) as (rs & R1 & R2).
  { intros ca I. apply filter_In in I as [I T]. apply Qlt_bool_iff' in T. specialize (U ca I). unfold TOL. split; lra. }
  exists ls, rs. do 2 eexists. split; [rewrite (to_string_eq C name r H); reflexivity|]. split; [exact L1|]. split; [exact R1|]. split; [exact L2|exact R2].
Qed.
