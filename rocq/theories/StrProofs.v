From Coq Require Import Ascii Qround Qpower Lqa Lia.
From Verif Require Import Prelude NumQ ListFacts ReactionModel ReactionBaseProofs RxnSetBaseProofs StrModel StrSpec StrNumProofs.
Open Scope nat_scope.

(* --- characters --- *)
Ltac by_char c := destruct c as [[] [] [] [] [] [] [] []]; vm_compute; try reflexivity; try discriminate; try congruence.
Lemma upper_num c : is_upper c = true -> num_char c = false. Proof. by_char c. Qed.
Lemma upper_space c : is_upper c = true -> is_space c = false. Proof. by_char c. Qed.
Lemma upper_not_e c : is_upper c = true -> is_char 101 c = false. Proof. by_char c. Qed.
Lemma char_E c : is_char 69 c = true -> c = "E"%char. Proof. by_char c. Qed.
Lemma formula_not_minus c : formula_char c = true -> is_char 45 c = false. Proof. by_char c. Qed.
Lemma formula_not_gt c : formula_char c = true -> is_char 62 c = false. Proof. by_char c. Qed.
Lemma upper_not_gt c : is_upper c = true -> is_char 62 c = false. Proof. by_char c. Qed.
Lemma num_not_gt c : num_char c = true -> is_char 62 c = false. Proof. by_char c. Qed.
Lemma num_space c : num_char c = true -> is_space c = false. Proof. by_char c. Qed.
Lemma digit_num c : is_digit c = true -> num_char c = true. Proof. unfold num_char. intros ->. reflexivity. Qed.

Lemma capital_upper c : In c capitals -> is_upper c = true.
Proof. intros I. assert (H : forallb is_upper capitals = true) by (vm_compute; reflexivity). rewrite forallb_forall in H. apply H. exact I. Qed.
Lemma sign_formula c : In c letters \/ In c numerals -> formula_char c = true.
Proof. intros I. assert (H : forallb formula_char (letters ++ numerals) = true) by (vm_compute; reflexivity). rewrite forallb_forall in H. apply H, in_app_iff. exact I. Qed.
Lemma num_numeral c : num_char c = true -> In c numerals.
Proof. destruct c as [[] [] [] [] [] [] [] []]; vm_compute; try discriminate; intros _; repeat first [left; reflexivity|right]. Qed.
Lemma spelled_chars f : spelled f ->
  exists c w, f = c :: w /\ is_upper c = true /\ forallb formula_char w = true /\ (c = "E"%char -> match w with d :: _ => num_char d = false | [] => True end).
Proof.
  intros (c & w & E & U & W & NE). exists c, w. split; [exact E|]. split; [apply capital_upper; exact U|]. split; [apply forallb_forall; intros d I; apply sign_formula, W; exact I|].
  intros Hc. destruct w as [|d w]; [exact I|]. destruct (num_char d) eqn:N; [|reflexivity]. exfalso. apply (NE Hc d w eq_refl). apply num_numeral. exact N.
Qed.

Lemma span_all p a b : forallb p a = true -> match b with c :: _ => p c = false | [] => True end -> span p (a ++ b) = (a, b).
Proof.
  intros A B. induction a as [|x a IH]; cbn.
  - destruct b as [|c b]; [reflexivity|]. cbn. rewrite B. reflexivity.
  - cbn in A. apply andb_prop in A as [X A]. rewrite X, (IH A). reflexivity.
Qed.
Lemma span_eq p s : fst (span p s) ++ snd (span p s) = s.
Proof. induction s as [|c s IH]; [reflexivity|]. cbn. destruct (p c); [|reflexivity]. destruct (span p s) as [a b]. cbn in *. rewrite IH. reflexivity. Qed.
Lemma span_length p s : length (snd (span p s)) <= length s.
Proof. rewrite <- (span_eq p s) at 2. rewrite app_length. lia. Qed.

(* --- the matcher makes progress --- *)
Lemma match_formula_shorter s f rest : match_formula s = Some (f, rest) -> length rest < length s.
Proof.
  unfold match_formula. intros H. assert (L := span_length is_space s). destruct (snd (span is_space s)) as [|c r]; [discriminate|].
  destruct (is_upper c); [|discriminate]. assert (L' := span_length formula_char r). destruct (span formula_char r) as [w r'].
  injection H as <- <-. cbn in *. lia.
Qed.
Lemma match_exponent_shorter s x rest : match_exponent s = Some (x, rest) -> length rest < length s.
Proof.
  unfold match_exponent. destruct s as [|c r]; [discriminate|]. destruct (is_char 101 c || is_char 69 c); [|discriminate].
  assert (G : forall m r1, length r1 <= length r -> match span num_char r1 with ([], _) => None | (ds, r2) => Some (c :: m ++ ds, r2) end = Some (x, rest) -> length rest < length (c :: r)).
  { intros m r1 L E. assert (L' := span_length num_char r1). destruct (span num_char r1) as [ds r2]. destruct ds; [discriminate|]. injection E as _ <-. cbn in *. lia. }
  destruct r as [|d r']; [apply (G [] []); lia|]. destruct (is_char 45 d); [apply (G [d] r'); cbn; lia|apply (G [] (d :: r')); lia].
Qed.
Lemma match_at_shorter s g f rest : match_at s = Some (g, f, rest) -> length rest < length s.
Proof.
  unfold match_at. intros H. assert (L := span_length num_char s). destruct (span num_char s) as [d r]. cbn [snd] in L.
  assert (P : forall g f rest, match match_formula r with Some (f, rest) => Some (d, f, rest) | None => None end = Some (g, f, rest) -> length rest < length s).
  { intros g' f' rest' E. destruct (match_formula r) as [[f0 r0]|] eqn:M; [|discriminate]. injection E as <- <- <-. apply match_formula_shorter in M. lia. }
  destruct (match_exponent r) as [[x r']|] eqn:X; [|apply (P g f rest H)]. apply match_exponent_shorter in X.
  destruct (match_formula r') as [[f0 r0]|] eqn:M; [|apply (P g f rest H)]. injection H as <- <- <-. apply match_formula_shorter in M. lia.
Qed.
Lemma loop_fuel n : forall m s, length s <= n -> length s <= m -> finditer_loop n s = finditer_loop m s.
Proof.
  induction n as [|n IH]; intros m s N M.
  - destruct s; [destruct m; reflexivity|cbn in N; lia].
  - destruct s as [|c s]; [destruct m; reflexivity|]. destruct m as [|m]; [cbn in M; lia|]. cbn [finditer_loop].
    destruct (match_at (c :: s)) as [[[g f] rest]|] eqn:E.
    + apply match_at_shorter in E. cbn in *. rewrite (IH m rest); [reflexivity|lia|lia].
    + cbn in *. apply IH; lia.
Qed.
Lemma finditer_nil : finditer [] = []. Proof. reflexivity. Qed.
Lemma finditer_some s g f rest : match_at s = Some (g, f, rest) -> finditer s = (g, f) :: finditer rest.
Proof.
  intros H. assert (L := match_at_shorter _ _ _ _ H). unfold finditer. destruct s as [|c s]; [cbn in L; lia|].
  cbn [length finditer_loop]. rewrite H. f_equal. cbn in L. apply loop_fuel; lia.
Qed.
Lemma finditer_none c s : match_at (c :: s) = None -> finditer (c :: s) = finditer s.
Proof. intros H. unfold finditer. cbn [length finditer_loop]. rewrite H. reflexivity. Qed.

(* --- one term --- *)
(* A number as the formatting writes it. *)
Definition numeral (g : text) : Prop :=
  exists d x, g = d ++ x /\ d <> [] /\ forallb num_char d = true
  /\ (x = [] \/ exists ds, x = "e"%char :: "-"%char :: ds /\ ds <> [] /\ forallb num_char ds = true).
Definition term (g f : text) : text := match g with [] => f | _ => g ++ " "%char :: f end.
Definition boundary (rest : text) : Prop := match rest with [] => True | c :: _ => c = " "%char end.

Lemma spaced_formula f rest : spelled f -> boundary rest -> match_formula (" "%char :: f ++ rest) = Some (f, rest).
Proof.
  intros S0 B. apply spelled_chars in S0 as (c & w & -> & U & W & _). unfold match_formula. cbn [span app].
  change (is_space " "%char) with true. cbn. rewrite (upper_space c U). cbn. rewrite U.
  rewrite (span_all formula_char w rest W); [reflexivity|]. destruct rest as [|x rest]; [exact I|]. cbn in B. rewrite B. reflexivity.
Qed.
Lemma bare_formula f rest : spelled f -> boundary rest -> match_formula (f ++ rest) = Some (f, rest).
Proof.
  intros S0 B. apply spelled_chars in S0 as (c & w & -> & U & W & _). unfold match_formula. cbn [span app]. rewrite (upper_space c U). cbn. rewrite U.
  rewrite (span_all formula_char w rest W); [reflexivity|]. destruct rest as [|x rest]; [exact I|]. cbn in B. rewrite B. reflexivity.
Qed.
Lemma no_exponent f rest : spelled f -> boundary rest -> match_exponent (f ++ rest) = None.
Proof.
  intros S0 B. apply spelled_chars in S0 as (c & w & -> & U & W & NE). cbn. rewrite (upper_not_e c U). cbn.
  destruct (is_char 69 c) eqn:E; [|reflexivity]. apply char_E in E. specialize (NE E).
  destruct w as [|d w].
  - cbn. destruct rest as [|x rest]; [reflexivity|]. cbn in B. subst x. reflexivity.
  - cbn in W. apply andb_prop in W as [D _]. cbn. rewrite (formula_not_minus d D). cbn. rewrite NE. reflexivity.
Qed.
Lemma match_bare f rest : spelled f -> boundary rest -> match_at (f ++ rest) = Some ([], f, rest).
Proof.
  intros S B. unfold match_at. pose proof (spelled_chars f S) as (c & w & E & U & R). assert (N : span num_char (f ++ rest) = ([], f ++ rest)).
  { rewrite E. cbn. rewrite (upper_num c U). reflexivity. }
  rewrite N. rewrite (no_exponent f rest S B), (bare_formula f rest S B). reflexivity.
Qed.
Lemma match_spaced f rest : spelled f -> boundary rest -> match_at (" "%char :: f ++ rest) = Some ([], f, rest).
Proof.
  intros S B. unfold match_at. cbn [span]. change (num_char " "%char) with false. cbn [match_exponent].
  change (is_char 101 " "%char || is_char 69 " "%char) with false. cbn iota. rewrite (spaced_formula f rest S B). reflexivity.
Qed.
Lemma match_number g f rest : numeral g -> spelled f -> boundary rest -> match_at (g ++ " "%char :: f ++ rest) = Some (g, f, rest).
Proof.
  intros (d & x & -> & N & D & X) S B. unfold match_at. rewrite <- app_assoc.
  rewrite (span_all num_char d (x ++ " "%char :: f ++ rest) D).
  2:{ destruct X as [->|(ds & -> & _)]; reflexivity. }
  destruct X as [->|(ds & -> & ND & DS)].
  - cbn [app match_exponent]. change (is_char 101 " "%char || is_char 69 " "%char) with false. cbn iota.
    rewrite (spaced_formula f rest S B), app_nil_r. reflexivity.
  - cbn [app match_exponent]. change (is_char 101 "e"%char || is_char 69 "e"%char) with true. cbn iota.
    change (is_char 45 "-"%char) with true. cbn iota. rewrite (span_all num_char ds (" "%char :: f ++ rest) DS) by reflexivity.
    destruct ds as [|y ds]; [congruence|]. rewrite (spaced_formula f rest S B). reflexivity.
Qed.
Lemma match_term g f rest : g = [] \/ numeral g -> spelled f -> boundary rest -> match_at (term g f ++ rest) = Some (g, f, rest).
Proof.
  intros [->|N] S B; [apply match_bare; assumption|]. unfold term. destruct g as [|c g].
  - destruct N as (d & x & E & ND & _). destruct d; [congruence|discriminate].
  - rewrite <- app_assoc. apply (match_number (c :: g)); assumption.
Qed.
Lemma blank_number g s : numeral g -> match_at (" "%char :: g ++ s) = None.
Proof.
  intros (d & x & -> & N & D & X). destruct d as [|c d]; [congruence|]. cbn in D. apply andb_prop in D as [D _].
  unfold match_at. cbn [span app]. change (num_char " "%char) with false. cbn [match_exponent].
  change (is_char 101 " "%char || is_char 69 " "%char) with false. cbn iota. unfold match_formula. cbn [span].
  change (is_space " "%char) with true. cbn iota. rewrite (num_space c D). cbn.
  assert (U : is_upper c = false). { destruct (is_upper c) eqn:E; [|reflexivity]. rewrite (upper_num c E) in D. discriminate. }
  rewrite U. reflexivity.
Qed.
(* A blank before a term does not matter. *)
Lemma finditer_blank g f rest : g = [] \/ numeral g -> spelled f -> boundary rest -> finditer (" "%char :: term g f ++ rest) = (g, f) :: finditer rest.
Proof.
  intros [->|N] S B; [apply finditer_some, match_spaced; assumption|]. unfold term. destruct g as [|c g].
  - destruct N as (d & x & E & ND & _). destruct d; [congruence|discriminate].
  - rewrite <- app_assoc. rewrite finditer_none by (apply blank_number; exact N). apply finditer_some, match_number; assumption.
Qed.

Definition good_token (gf : text * text) : Prop := (fst gf = [] \/ numeral (fst gf)) /\ spelled (snd gf).
Lemma finditer_join ts tail : Forall good_token ts -> boundary tail -> finditer tail = [] ->
  ts <> [] -> finditer (join plus_sep (map (fun gf => term (fst gf) (snd gf)) ts) ++ tail) = ts
  /\ finditer (" "%char :: join plus_sep (map (fun gf => term (fst gf) (snd gf)) ts) ++ tail) = ts.
Proof.
  intros F B T. induction F as [|[g f] ts [G S] F IH]; intros N; [congruence|]. cbn [fst snd] in *. destruct ts as [|t ts].
  - cbn [map join fst snd]. split.
    + rewrite (finditer_some _ g f tail) by (apply match_term; assumption). rewrite T. reflexivity.
    + rewrite finditer_blank by assumption. rewrite T. reflexivity.
  - destruct IH as [_ IH]; [discriminate|]. cbn [map] in *. remember (term (fst t) (snd t) :: map (fun gf => term (fst gf) (snd gf)) ts) as l eqn:El.
    assert (J : join plus_sep (term g f :: l) = term g f ++ plus_sep ++ join plus_sep l) by (rewrite El; reflexivity).
    cbn [fst snd]. rewrite J. rewrite <- !app_assoc. set (s := join plus_sep l ++ tail) in *.
    assert (R : finditer (plus_sep ++ s) = t :: ts).
    { unfold plus_sep. cbn [app]. rewrite finditer_none by reflexivity. rewrite finditer_none by reflexivity. exact IH. }
    split.
    + rewrite (finditer_some _ g f (plus_sep ++ s)); [rewrite R; reflexivity|]. apply match_term; [assumption|assumption|reflexivity].
    + rewrite finditer_blank; [rewrite R; reflexivity|assumption|assumption|reflexivity].
Qed.

(* --- the arrow --- *)
Definition no_gt (s : text) : Prop := forallb (fun c => negb (is_char 62 c)) s = true.
Lemma no_gt_app a b : no_gt (a ++ b) <-> no_gt a /\ no_gt b.
Proof. unfold no_gt. rewrite forallb_app, andb_true_iff. reflexivity. Qed.
Lemma split_last s : forall cur, no_gt s -> split_arrow cur s = [rev cur ++ s].
Proof.
  induction s as [|c s IH]; intros cur H; [cbn; rewrite app_nil_r; reflexivity|].
  assert (H' : no_gt s) by (unfold no_gt in *; cbn in H; apply andb_prop in H; tauto).
  assert (E : split_arrow cur (c :: s) = split_arrow (c :: cur) s).
  { cbn. destruct s as [|d s']; [reflexivity|]. unfold no_gt in H'. cbn in H'. apply andb_prop in H' as [D _]. apply negb_true_iff in D. rewrite D, andb_false_r. reflexivity. }
  rewrite E, (IH _ H'). cbn. rewrite <- app_assoc. reflexivity.
Qed.
Lemma split_first a b : forall cur, no_gt a -> split_arrow cur (a ++ "-"%char :: ">"%char :: b) = (rev cur ++ a) :: split_arrow [] b.
Proof.
  induction a as [|c a IH]; intros cur H; [cbn; rewrite app_nil_r; reflexivity|].
  assert (H' : no_gt a) by (unfold no_gt in *; cbn in H; apply andb_prop in H; tauto).
  assert (E : split_arrow cur ((c :: a) ++ "-"%char :: ">"%char :: b) = split_arrow (c :: cur) (a ++ "-"%char :: ">"%char :: b)).
  { cbn [app]. destruct a as [|d a'].
    - cbn [app split_arrow]. change (is_char 62 "-"%char) with false. rewrite andb_false_r. reflexivity.
    - cbn [app split_arrow]. unfold no_gt in H'. cbn in H'. apply andb_prop in H' as [D _]. apply negb_true_iff in D. rewrite D, andb_false_r. reflexivity. }
  rewrite E, (IH _ H'). cbn. rewrite <- app_assoc. reflexivity.
Qed.
Lemma forallb_impl {A} (p q : A -> bool) l : (forall x, p x = true -> q x = true) -> forallb p l = true -> forallb q l = true.
Proof. intros H. rewrite !forallb_forall. intros F x I. apply H, F, I. Qed.
Lemma no_gt_spelled f : spelled f -> no_gt f.
Proof.
  intros S0. apply spelled_chars in S0 as (c & w & -> & U & W & _). unfold no_gt. cbn. rewrite (upper_not_gt c U). cbn. apply (forallb_impl formula_char); [|exact W].
  intros x X. rewrite (formula_not_gt x X). reflexivity.
Qed.
Lemma no_gt_numeral g : numeral g -> no_gt g.
Proof.
  assert (G : forall d, forallb num_char d = true -> no_gt d). { intros d. apply forallb_impl. intros x X. rewrite (num_not_gt x X). reflexivity. }
  intros (d & x & -> & _ & D & X). apply no_gt_app. split; [apply G, D|]. destruct X as [->|(ds & -> & _ & DS)]; [reflexivity|].
  apply (no_gt_app ["e"; "-"]%char). split; [reflexivity|apply G, DS].
Qed.
Lemma no_gt_term g f : g = [] \/ numeral g -> spelled f -> no_gt (term g f).
Proof.
  intros G S. unfold term. destruct g as [|c g]; [apply no_gt_spelled; exact S|]. destruct G as [G|G]; [discriminate|].
  apply no_gt_app. split; [apply no_gt_numeral; exact G|]. apply (no_gt_app [" "%char]). split; [reflexivity|apply no_gt_spelled; exact S].
Qed.
Lemma no_gt_join ts : Forall good_token ts -> no_gt (join plus_sep (map (fun gf => term (fst gf) (snd gf)) ts)).
Proof.
  intros F. induction F as [|gf ts [G S] F IH]; [reflexivity|]. cbn [map join]. destruct (map (fun gf0 => term (fst gf0) (snd gf0)) ts).
  - apply no_gt_term; assumption.
  - apply no_gt_app. split; [apply no_gt_term; assumption|]. apply no_gt_app. split; [reflexivity|exact IH].
Qed.

(* --- the numbers --- *)
Lemma digits_num m : forallb num_char (four_digits m) = true.
Proof. unfold four_digits. cbn [forallb]. rewrite !digit_is_num. reflexivity. Qed.
Lemma forallb_sub {A} (p : A -> bool) l l' : incl l l' -> forallb p l' = true -> forallb p l = true.
Proof. intros I. rewrite !forallb_forall. intros H x X. apply H, I, X. Qed.
Lemma span_incl p s : incl (snd (span p s)) s.
Proof. intros x X. rewrite <- (span_eq p s). apply in_or_app. right. exact X. Qed.
Lemma strip_incl s : incl (strip_zeros s) s.
Proof. unfold strip_zeros. intros x X. apply in_rev in X. apply span_incl in X. apply in_rev in X. exact X. Qed.
Lemma firstn_incl {A} n (l : list A) : incl (firstn n l) l.
Proof. intros x X. rewrite <- (firstn_skipn n l). apply in_or_app. left. exact X. Qed.
Lemma skipn_incl {A} n (l : list A) : incl (skipn n l) l.
Proof. intros x X. rewrite <- (firstn_skipn n l). apply in_or_app. right. exact X. Qed.
Lemma fraction_num a b : forallb num_char a = true -> forallb num_char b = true -> forallb num_char (with_fraction a b) = true.
Proof.
  intros A B. unfold with_fraction. assert (S := forallb_sub num_char _ _ (strip_incl b) B). destruct (strip_zeros b) as [|c f]; [exact A|].
  rewrite forallb_app, A. cbn [forallb]. change (num_char dot_char) with true. exact S.
Qed.
Lemma fraction_nonempty a b : a <> [] -> with_fraction a b <> [].
Proof. intros A. unfold with_fraction. destruct (strip_zeros b); [exact A|]. destruct a; [congruence|discriminate]. Qed.
Lemma repeat_zero n : forallb num_char (repeat "0"%char n) = true.
Proof. induction n; [reflexivity|]. cbn. exact IHn. Qed.
Lemma render_numeral m x : (x <= 3)%Z -> numeral (render m x).
Proof.
  intros X. unfold render. assert (D := digits_num m).
  assert (DF := fun n => forallb_sub num_char _ _ (firstn_incl n _) D). assert (DS := fun n => forallb_sub num_char _ _ (skipn_incl n _) D).
  destruct (((-4 <=? x) && (x <? 4))%Z) eqn:R; [destruct (0 <=? x)%Z eqn:P|].
  - exists (with_fraction (firstn (Z.to_nat (x + 1)) (four_digits m)) (skipn (Z.to_nat (x + 1)) (four_digits m))), [].
    rewrite app_nil_r. split; [reflexivity|]. split; [|split; [apply fraction_num; [apply DF|apply DS]|left; reflexivity]].
    apply fraction_nonempty. apply Z.leb_le in P. destruct (Z.to_nat (x + 1)) eqn:E; [lia|discriminate].
  - exists (with_fraction ["0"%char] (repeat "0"%char (Z.to_nat (- x - 1)) ++ four_digits m)), []. rewrite app_nil_r.
    split; [reflexivity|]. split; [apply fraction_nonempty; discriminate|]. split; [|left; reflexivity].
    apply fraction_num; [reflexivity|]. rewrite forallb_app, repeat_zero. exact D.
  - assert (x < -4)%Z. { apply andb_false_iff in R as [R|R]; [apply Z.leb_gt in R; lia|apply Z.ltb_ge in R; lia]. }
    assert (E : (x <? 0)%Z = true) by (apply Z.ltb_lt; lia). rewrite E.
    exists (with_fraction (firstn 1 (four_digits m)) (skipn 1 (four_digits m))), ("e"%char :: "-"%char :: exponent_digits (Z.abs x)).
    split; [reflexivity|]. split; [apply fraction_nonempty; discriminate|]. split; [apply fraction_num; [apply DF|apply DS]|].
    right. exists (exponent_digits (Z.abs x)). split; [reflexivity|]. unfold exponent_digits.
    split; [destruct (Z.abs x <? 100)%Z; discriminate|]. rewrite forallb_app. cbn [forallb]. rewrite !digit_is_num.
    destruct (Z.abs x <? 100)%Z; [reflexivity|]. cbn [forallb]. rewrite digit_is_num. reflexivity.
Qed.

Lemma format_spec q : (TOL < q)%Q -> (q < 99995 # 10)%Q -> numeral (format_4g q) /\ exists v, py_float (format_4g q) = Ok v /\ four_digit_value q v.
Proof.
  intros L U. unfold format_4g. assert (P : (0 < q)%Q) by (unfold TOL in L; lra). assert (F := four_spec q P). destruct (four q) as [m x].
  destruct F as (M & V & X3 & X6 & S). specialize (X3 U). specialize (X6 L).
  split; [apply render_numeral; exact X3|]. destruct (render_float m x) as (v & E & EV); [lia|lia|]. exists v. split; [exact E|].
  split.
  - rewrite EV. setoid_replace (Qabs q) with q by (apply Qabs_pos; lra). exact V.
  - intros (n & k & N & EQ). rewrite EV. apply (S n k); [|exact EQ]. split; [|lia]. destruct (Z.leb_spec n 0) as [N0|N0]; [|lia].
    exfalso. assert (K := ten_pos k). assert (inject_Z n <= 0)%Q by (change 0%Q with (inject_Z 0); rewrite <- Zle_Qle; exact N0).
    assert (inject_Z n * Qpower 10 k <= 0 * Qpower 10 k)%Q; [|lra]. apply Qmult_le_compat_r; lra.
Qed.

(* A number of four digits that is nearly one is one. *)
Lemma nearly_one q : (Qabs (q - 1) < TOL)%Q -> four_digit_value q 1.
Proof.
  intros H. apply Qabs_Qlt_condition in H as [H1 H2]. unfold TOL in *. split.
  - setoid_replace (Qabs q) with q by (apply Qabs_pos; lra). apply Qabs_Qle_condition. lra.
  - intros (n & k & N & E). destruct (Z.leb_spec 0 k) as [K|K].
    + rewrite (ten_Z k K), <- inject_Z_mult in E. rewrite E in *.
      assert (inject_Z (n * 10 ^ k) < inject_Z 2)%Q by (change (inject_Z 2) with 2%Q; lra).
      assert (inject_Z 0 < inject_Z (n * 10 ^ k))%Q by (change (inject_Z 0) with 0%Q; lra).
      rewrite <- Zlt_Qlt in *. replace (n * 10 ^ k)%Z with 1%Z by lia. reflexivity.
    + assert (E' : (q * Qpower 10 (- k) == inject_Z n)%Q). { rewrite E, <- Qmult_assoc, <- ten_plus. replace (k + - k)%Z with 0%Z by lia. cbn. ring. }
      destruct (Z.leb_spec (-3) k) as [K3|K3].
      * assert (KK : (k = -1 \/ k = -2 \/ k = -3)%Z) by lia.
        assert (G : forall z, (0 < z <= 1000)%Z -> (q * inject_Z z == inject_Z n)%Q -> n = z).
        { intros z Z1 EQ. assert (B : (0 < inject_Z z)%Q) by (change 0%Q with (inject_Z 0); rewrite <- Zlt_Qlt; lia).
          assert (B' : (inject_Z z <= 1000)%Q) by (change 1000%Q with (inject_Z 1000); rewrite <- Zle_Qle; lia).
          assert (inject_Z n < inject_Z (z + 1))%Q. { rewrite inject_Z_plus, <- EQ. change (inject_Z 1) with 1%Q. nra. }
          assert (inject_Z (z - 1) < inject_Z n)%Q. { unfold Zminus. rewrite inject_Z_plus, <- EQ. change (inject_Z (- (1))) with (-1)%Q. nra. }
          rewrite <- Zlt_Qlt in *. lia. }
        destruct KK as [->|[->| ->]].
        -- assert (n = 10)%Z by (apply G; [lia|exact E']). subst n. rewrite E. reflexivity.
        -- assert (n = 100)%Z by (apply G; [lia|exact E']). subst n. rewrite E. reflexivity.
        -- assert (n = 1000)%Z by (apply G; [lia|exact E']). subst n. rewrite E. reflexivity.
      * exfalso. assert (T := ten_le 4 (- k)). specialize (T ltac:(lia)). change (Qpower 10 4) with 10000%Q in T.
        assert (inject_Z n <= 9999)%Q by (change 9999%Q with (inject_Z 9999); rewrite <- Zle_Qle; lia). nra.
Qed.

(* --- both sides --- *)
(* The text for a positive amount: nothing when it is nearly one. *)
Definition amount_text (q : Q) : text := if Qlt_bool (Qabs (q - 1)) TOL then [] else format_4g q.
Definition read_amount (g : text) : result Q := match g with [] => Ok 1%Q | _ => py_float g end.
Lemma amount_spec q : (TOL < q)%Q -> (q < 99995 # 10)%Q -> (amount_text q = [] \/ numeral (amount_text q)) /\ exists v, read_amount (amount_text q) = Ok v /\ four_digit_value q v.
Proof.
  intros L U. unfold amount_text. destruct (Qlt_bool (Qabs (q - 1)) TOL) eqn:E.
  - apply Qlt_bool_iff' in E. split; [left; reflexivity|]. exists 1%Q. split; [reflexivity|]. apply nearly_one. exact E.
  - destruct (format_spec q L U) as [N (v & V & F)]. split; [right; exact N|]. exists v. split; [|exact F].
    unfold read_amount. destruct (format_4g q) eqn:G; [|exact V]. exfalso. destruct N as (d & x & X & ND & _). destruct d; [congruence|discriminate].
Qed.

Lemma tol_bool q : Qlt_bool (Qabs (- q - 1)) TOL = Qlt_bool (Qabs (q + 1)) TOL.
Proof.
  assert (E : (Qabs (- q - 1) == Qabs (q + 1))%Q) by (rewrite <- Qabs_opp; apply Qabs_wd; ring).
  destruct (Qlt_bool (Qabs (- q - 1)) TOL) eqn:A, (Qlt_bool (Qabs (q + 1)) TOL) eqn:B; try reflexivity.
  - apply Qlt_bool_iff' in A. apply Qlt_bool_false in B. lra.
  - apply Qlt_bool_iff' in B. apply Qlt_bool_false in A. lra.
Qed.
Lemma format_term q f : (TOL < q)%Q -> (q < 99995 # 10)%Q -> term (format_4g q) f = format_4g q ++ " "%char :: f.
Proof.
  intros L U. destruct (format_spec q L U) as [(d & x & X & ND & _) _]. unfold term. destruct (format_4g q); [|reflexivity].
  destruct d; [congruence|discriminate].
Qed.
Lemma left_term_eq q f : (Qabs q < 99995 # 10)%Q -> left_term q f = if Qlt_bool q (- TOL) then Some (term (amount_text (- q)) f) else None.
Proof.
  intros U. apply Qabs_Qlt_condition in U as [U1 U2]. unfold left_term, amount_text. rewrite tol_bool.
  destruct (Qlt_bool (Qabs (q + 1)) TOL) eqn:A; [apply Qlt_bool_iff' in A; apply Qabs_Qlt_condition in A|apply Qlt_bool_false in A].
  - assert (B : Qlt_bool q (- TOL) = true) by (apply Qlt_bool_iff'; unfold TOL in *; lra). rewrite B. reflexivity.
  - destruct (Qlt_bool (Qabs (q - 1)) TOL) eqn:B.
    + apply Qlt_bool_iff', Qabs_Qlt_condition in B. destruct (Qlt_bool q (- TOL)) eqn:D; [apply Qlt_bool_iff' in D; unfold TOL in *; lra|reflexivity].
    + destruct (Qlt_bool q (- TOL)) eqn:D; [|reflexivity]. apply Qlt_bool_iff' in D. rewrite format_term; [reflexivity|lra|lra].
Qed.
Lemma right_term_eq q f : (Qabs q < 99995 # 10)%Q -> right_term q f = if Qlt_bool TOL q then Some (term (amount_text q) f) else None.
Proof.
  intros U. apply Qabs_Qlt_condition in U as [U1 U2]. unfold right_term, amount_text.
  destruct (Qlt_bool (Qabs (q + 1)) TOL) eqn:A; [apply Qlt_bool_iff' in A; apply Qabs_Qlt_condition in A|apply Qlt_bool_false in A].
  - destruct (Qlt_bool TOL q) eqn:D; [apply Qlt_bool_iff' in D; unfold TOL in *; lra|reflexivity].
  - destruct (Qlt_bool (Qabs (q - 1)) TOL) eqn:B.
    + apply Qlt_bool_iff', Qabs_Qlt_condition in B. assert (D : Qlt_bool TOL q = true) by (apply Qlt_bool_iff'; unfold TOL in *; lra). rewrite D. reflexivity.
    + destruct (Qlt_bool q (- TOL)) eqn:D.
      * apply Qlt_bool_iff' in D. destruct (Qlt_bool TOL q) eqn:F; [apply Qlt_bool_iff' in F; unfold TOL in *; lra|reflexivity].
      * destruct (Qlt_bool TOL q) eqn:F; [|reflexivity]. apply Qlt_bool_iff' in F. rewrite format_term; [reflexivity|lra|lra].
Qed.
Lemma somes_filter {A B} (f : A -> option B) (p : A -> bool) (g : A -> B) l : (forall x, In x l -> f x = if p x then Some (g x) else None) ->
  somes (map f l) = map g (filter p l).
Proof.
  induction l as [|x l IH]; intros H; [reflexivity|]. cbn. rewrite (H x (or_introl eq_refl)), IH by (intros y Y; apply H; right; exact Y). destruct (p x); reflexivity.
Qed.

(* One side read back. [s] is the negation on the left. *)
Section Side.
Variable C : chem.
Variable parse : text -> result nat.
Variable name : nat -> text.

Definition token (s : Q -> Q) (ca : nat * Q) : text * text := (amount_text (s (snd ca)), name (fst ca)).
Lemma read_side s (l : list (nat * Q)) (t : text) : (forall ca, In ca l -> spelled (name (fst ca)) /\ parse (name (fst ca)) = Ok (red C (fst ca)) /\ (TOL < s (snd ca))%Q /\ (s (snd ca) < 99995 # 10)%Q) ->
  finditer t = map (token s) l -> NoDup (map (fun ca => red C (fst ca)) l) ->
  exists vs, get_comp_amt parse t = Ok (combine (map (fun ca => red C (fst ca)) l) vs) /\ Forall2 (fun ca v => four_digit_value (s (snd ca)) v) l vs.
Proof.
  intros H F N. unfold get_comp_amt. rewrite F. clear F.
  assert (M : exists vs, mapM (fun m => bind (parse (snd m)) (fun c => bind (match fst m with [] => Ok 1%Q | g => py_float g end) (fun q => Ok (c, q)))) (map (token s) l)
     = Ok (combine (map (fun ca => red C (fst ca)) l) vs) /\ Forall2 (fun ca v => four_digit_value (s (snd ca)) v) l vs).
  { clear N. induction l as [|ca l IH]; [exists []; split; [reflexivity|constructor]|].
    destruct IH as (vs & E & V); [intros x X; apply H; right; exact X|]. destruct (H ca (or_introl eq_refl)) as (S & P & L & U).
    destruct (amount_spec _ L U) as [_ (v & R & FV)]. exists (v :: vs). split; [|constructor; assumption].
    cbn [map mapM combine]. change (snd (token s ca)) with (name (fst ca)). change (fst (token s ca)) with (amount_text (s (snd ca))). rewrite P, E. cbn [bind].
    unfold read_amount in R. destruct (amount_text (s (snd ca))); rewrite R; reflexivity. }
  destruct M as (vs & M & V). exists vs. split; [|exact V]. rewrite M. cbn [bind]. f_equal. apply dict_of_nodup.
  apply Forall2_length in V. rewrite <- map_length with (f := fun ca : nat * Q => red C (fst ca)) in V.
  rewrite combine_fst by exact V. exact N.
Qed.
Lemma side_tokens s (l : list (nat * Q)) : (forall ca, In ca l -> spelled (name (fst ca)) /\ (TOL < s (snd ca))%Q /\ (s (snd ca) < 99995 # 10)%Q) -> Forall good_token (map (token s) l).
Proof.
  intros H. apply Forall_forall. intros t T. apply in_map_iff in T as (ca & <- & I). destruct (H ca I) as (S & L & U). split; [|exact S].
  destruct (amount_spec _ L U) as [G _]. exact G.
Qed.
End Side.

Lemma four_digit_opp q v : four_digit_value (- q) v -> four_digit_value q (-(1) * v).
Proof.
  intros [A B]. split.
  - setoid_replace (-(1) * v - q)%Q with (- (v - - q))%Q by ring. rewrite Qabs_opp. rewrite (Qabs_opp q) in A. exact A.
  - intros (n & k & N & E). rewrite B; [ring|]. exists (- n)%Z, k. split; [rewrite Z.abs_opp; exact N|]. rewrite E, inject_Z_opp. ring.
Qed.
Lemma Forall2_map_r {A B D} (f : B -> D) (P : A -> D -> Prop) l l' : Forall2 (fun a b => P a (f b)) l l' -> Forall2 P l (map f l').
Proof. induction 1; constructor; assumption. Qed.
Lemma combine_snd {A B} (l1 : list A) (l2 : list B) : length l1 = length l2 -> map snd (combine l1 l2) = l2.
Proof. revert l2. induction l1 as [|x l1 IH]; intros [|y l2] H; cbn in *; try discriminate; [reflexivity|]. rewrite IH; [reflexivity|lia]. Qed.
Lemma filter_map_eq {A B} (f : A -> B) p l : filter p (map f l) = map f (filter (fun x => p (f x)) l).
Proof. induction l as [|x l IH]; [reflexivity|]. cbn. destruct (p (f x)); cbn; rewrite IH; reflexivity. Qed.

Lemma combine_nonempty {A B D} (f : A -> B) (P : A -> D -> Prop) l vs : l <> [] -> Forall2 P l vs -> combine (map f l) vs <> [].
Proof. intros N F. destruct F; [congruence|discriminate]. Qed.

Definition side_text (l : list (text * text)) : text := join plus_sep (map (fun gf => term (fst gf) (snd gf)) l).
Lemma to_string_eq C name r : (forall ca, In ca (amounts C r) -> (Qabs (snd ca) < 99995 # 10)%Q) ->
  to_string C name r = side_text (map (token name Qopp) (consumed_amounts C r)) ++ arrow_sep ++ side_text (map (token name (fun q => q)) (formed_amounts C r)).
Proof.
  intros H. unfold to_string, str_from_formulas, side_text, consumed_amounts, formed_amounts. unfold amounts in *. set (l := combine (comps r) (coeffs r)) in *.
  assert (H' : forall ck, In ck l -> (Qabs (snd ck * fac C (fst ck)) < 99995 # 10)%Q).
  { intros ck I. apply (H (fst ck, (snd ck * fac C (fst ck))%Q)). apply (in_map (fun ck => (fst ck, (snd ck * fac C (fst ck))%Q))). exact I. }
  rewrite !filter_map_eq, !map_map. cbn [fst snd]. f_equal; [|f_equal]; f_equal; apply somes_filter; intros ck I; cbn [fst snd].
  - apply left_term_eq, H', I.
  - apply right_term_eq, H', I.
Qed.

Theorem round_trip C parse name r :
  (forall c, In c (comps r) -> spelled (name c) /\ parse (name c) = Ok (red C c)) ->
  (forall ca, In ca (amounts C r) -> (Qabs (snd ca) < 99995 # 10)%Q) ->
  consumed_amounts C r <> [] -> formed_amounts C r <> [] ->
  NoDup (map (fun ca => red C (fst ca)) (consumed_amounts C r)) -> NoDup (map (fun ca => red C (fst ca)) (formed_amounts C r)) ->
  exists ks, from_string C parse (to_string C name r) = Ok (basic_init C (map (fun ca => red C (fst ca)) (consumed_amounts C r ++ formed_amounts C r)) ks None None)
  /\ Forall2 (fun ca k => four_digit_value (snd ca) k) (consumed_amounts C r ++ formed_amounts C r) ks.
Proof.
  intros HN HA L0 R0 NL NR. rewrite to_string_eq by exact HA.
  assert (IN : forall ca, In ca (amounts C r) -> spelled (name (fst ca)) /\ parse (name (fst ca)) = Ok (red C (fst ca))).
  { intros ca I. apply HN. unfold amounts in I. apply in_map_iff in I as ([c k] & <- & I). apply in_combine_l in I. exact I. }
  assert (GL : forall ca, In ca (consumed_amounts C r) -> spelled (name (fst ca)) /\ parse (name (fst ca)) = Ok (red C (fst ca)) /\ (TOL < - snd ca)%Q /\ (- snd ca < 99995 # 10)%Q).
  { intros ca I. apply filter_In in I as [I T]. apply Qlt_bool_iff' in T. destruct (IN ca I) as [S P]. specialize (HA ca I). apply Qabs_Qlt_condition in HA. unfold TOL. split; [exact S|split; [exact P|split; lra]]. }
  assert (GR : forall ca, In ca (formed_amounts C r) -> spelled (name (fst ca)) /\ parse (name (fst ca)) = Ok (red C (fst ca)) /\ (TOL < snd ca)%Q /\ (snd ca < 99995 # 10)%Q).
  { intros ca I. apply filter_In in I as [I T]. apply Qlt_bool_iff' in T. destruct (IN ca I) as [S P]. specialize (HA ca I). apply Qabs_Qlt_condition in HA. unfold TOL. split; [exact S|split; [exact P|split; lra]]. }
  assert (TL : Forall good_token (map (token name Qopp) (consumed_amounts C r))) by (apply side_tokens; intros ca I; destruct (GL ca I) as (? & ? & ? & ?); tauto).
  assert (TR : Forall good_token (map (token name (fun q => q)) (formed_amounts C r))) by (apply side_tokens; intros ca I; destruct (GR ca I) as (? & ? & ? & ?); tauto).
  set (a := side_text (map (token name Qopp) (consumed_amounts C r))). set (b := side_text (map (token name (fun q => q)) (formed_amounts C r))).
  assert (ES : split_arrow [] (a ++ arrow_sep ++ b) = [a ++ [" "%char]; " "%char :: b]).
  { assert (GA : no_gt (a ++ [" "%char])) by (apply no_gt_app; split; [apply no_gt_join; exact TL|reflexivity]).
    assert (GB : no_gt (" "%char :: b)) by (apply (no_gt_app [" "%char]); split; [reflexivity|apply no_gt_join; exact TR]).
    change (a ++ arrow_sep ++ b) with (a ++ [" "%char] ++ "-"%char :: ">"%char :: " "%char :: b). rewrite app_assoc, split_first by exact GA.
    rewrite split_last by exact GB. reflexivity. }
  unfold from_string. rewrite ES.
  assert (FA : finditer (a ++ [" "%char]) = map (token name Qopp) (consumed_amounts C r)).
  { apply finditer_join; [exact TL|reflexivity|reflexivity|]. destruct (consumed_amounts C r); [congruence|discriminate]. }
  assert (FB : finditer (" "%char :: b) = map (token name (fun q => q)) (formed_amounts C r)).
  { destruct (finditer_join (map (token name (fun q => q)) (formed_amounts C r)) [] TR I eq_refl) as [_ F]; [destruct (formed_amounts C r); [congruence|discriminate]|].
    rewrite app_nil_r in F. exact F. }
  destruct (read_side C parse name Qopp _ _ GL FA NL) as (vs & EL & VL). destruct (read_side C parse name (fun q => q) _ _ GR FB NR) as (ws & ER & VR).
  rewrite EL. cbn [bind]. rewrite ER. cbn [bind].
  assert (LL := Forall2_length _ _ _ VL). assert (LR := Forall2_length _ _ _ VR). rewrite <- (map_length (fun ca => red C (fst ca))) in LL. rewrite <- (map_length (fun ca => red C (fst ca))) in LR.
  exists (map (fun v => -(1) * v)%Q vs ++ ws). split.
  - unfold from_coeff_dicts.
    assert (NEL : combine (map (fun ca => red C (fst ca)) (consumed_amounts C r)) vs <> []) by (apply (combine_nonempty _ _ _ _ L0 VL)).
    assert (NER : combine (map (fun ca => red C (fst ca)) (formed_amounts C r)) ws <> []) by (apply (combine_nonempty _ _ _ _ R0 VR)).
    assert (G : forall r0 p0, r0 <> [] -> p0 <> [] -> match r0, p0 with [], _ | _, [] => Err ValueError | _, _ => Ok (basic_init C (map fst r0 ++ map fst p0) (map (fun kv : nat * Q => (-(1) * snd kv)%Q) r0 ++ map snd p0) None None) end
      = Ok (basic_init C (map fst r0 ++ map fst p0) (map (fun kv : nat * Q => (-(1) * snd kv)%Q) r0 ++ map snd p0) None None)).
    { intros [|x r0] [|y p0] A B; [congruence|congruence|congruence|reflexivity]. }
    rewrite (G _ _ NEL NER). rewrite !combine_fst, (combine_snd _ ws) by assumption. rewrite <- map_app. do 3 f_equal.
    rewrite <- (map_map snd (fun v => -(1) * v)%Q), combine_snd by assumption. reflexivity.
  - apply Forall2_app; [|exact VR]. apply Forall2_map_r. eapply Forall2_impl; [|exact VL]. intros ca v V. apply four_digit_opp. exact V.
Qed.

(* --- texts with no arrow or with several --- *)
Lemma split_none s : forall cur, (forall a b, s <> a ++ "-"%char :: ">"%char :: b) -> split_arrow cur s = [rev cur ++ s].
Proof.
  induction s as [|c s IH]; intros cur H; [cbn; rewrite app_nil_r; reflexivity|].
  assert (E : split_arrow cur (c :: s) = split_arrow (c :: cur) s).
  { destruct s as [|d s]; [reflexivity|]. cbn [split_arrow]. destruct (is_char 45 c && is_char 62 d) eqn:E; [|reflexivity]. apply andb_true_iff in E as [E1 E2]. unfold is_char in E1, E2. apply Nat.eqb_eq in E1, E2.
    exfalso. apply (H [] s). cbn. f_equal; [|f_equal]; [rewrite <- (ascii_nat_embedding c)|rewrite <- (ascii_nat_embedding d)]; [change (nat_of_ascii c) with (code c); rewrite E1|change (nat_of_ascii d) with (code d); rewrite E2]; reflexivity. }
  rewrite E, IH; [cbn; rewrite <- app_assoc; reflexivity|]. intros a b Es. apply (H (c :: a) b). cbn. rewrite Es. reflexivity.
Qed.
Lemma split_some n : forall a cur b, length a <= n -> exists l, l <> [] /\ split_arrow cur (a ++ "-"%char :: ">"%char :: b) = l ++ split_arrow [] b.
Proof.
  induction n as [|n IH]; intros a cur b L.
  - destruct a; [|cbn in L; lia]. exists [rev cur]. split; [discriminate|reflexivity].
  - destruct a as [|c a]; [exists [rev cur]; split; [discriminate|reflexivity]|]. cbn in L. destruct a as [|d a].
    + exists [rev (c :: cur)]. split; [discriminate|]. cbn [app split_arrow]. change (is_char 62 "-"%char) with false. rewrite andb_false_r. reflexivity.
    + cbn [length] in L. cbn [app]. change (split_arrow cur (c :: d :: a ++ "-"%char :: ">"%char :: b)) with (if is_char 45 c && is_char 62 d then rev cur :: split_arrow [] (a ++ "-"%char :: ">"%char :: b) else split_arrow (c :: cur) ((d :: a) ++ "-"%char :: ">"%char :: b)).
      destruct (is_char 45 c && is_char 62 d).
      * destruct (IH a [] b ltac:(lia)) as (l & N & ->). exists (rev cur :: l). split; [discriminate|reflexivity].
      * apply (IH (d :: a) (c :: cur) b). cbn [length]. lia.
Qed.
Lemma split_ne s : forall cur, split_arrow cur s <> [].
Proof.
  remember (length s) as n eqn:En. assert (L : length s <= n) by lia. clear En. revert s L. induction n as [|n IH]; intros s L cur; (destruct s as [|c s]; [discriminate|]); cbn in L; [lia|]. destruct s as [|d s]; [apply (IH []); cbn; lia|]. cbn [split_arrow]. destruct (is_char 45 c && is_char 62 d); [discriminate|]. apply (IH (d :: s)). cbn in *. lia.
Qed.
Lemma one_arrow C parse s : (forall a b, s <> a ++ ["-"; ">"]%char ++ b) \/ (exists a b c, s = a ++ ["-"; ">"]%char ++ b ++ ["-"; ">"]%char ++ c) -> from_string C parse s = Err ValueError.
Proof.
  unfold from_string. intros [H|(a & b & c & ->)]; [rewrite (split_none s [] H); reflexivity|].
  change (["-"; ">"]%char ++ b ++ ["-"; ">"]%char ++ c) with ("-"%char :: ">"%char :: b ++ "-"%char :: ">"%char :: c).
  destruct (split_some (length a) a [] (b ++ "-"%char :: ">"%char :: c) (le_n _)) as (l & N & ->). destruct (split_some (length b) b [] c (le_n _)) as (l' & N' & ->). pose proof (split_ne c []) as N3.
  destruct l as [|x l]; [contradiction|]. destruct l' as [|x' l']; [contradiction|]. destruct (split_arrow [] c) as [|y l3]; [contradiction|]. destruct l as [|x2 l]; cbn [app]; [destruct l' as [|x3 l']; reflexivity|]. destruct l; reflexivity.
Qed.
