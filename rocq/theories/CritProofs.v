(* C127: criteria texts. *)
From Coq Require Import Ascii String.
From Verif Require Import Prelude ListFacts UtilsModel StrModel StrProofs EntryDbModel EntryDbSpec EntryDbProofs RxnSetBaseProofs CritModel CritSpec.
Open Scope list_scope.
Open Scope nat_scope.


Lemma text_eqb_iff a b : text_eqb a b = true <-> a = b.
Proof. unfold text_eqb. destruct (list_eq_dec ascii_dec a b) as [E|E]; split; congruence. Qed.
Lemma memb_text x l : memb text_eqb x l = true <-> In x l.
Proof.
  induction l as [|y l IH]; cbn; [split; [discriminate|tauto]|]. rewrite orb_true_iff, IH, text_eqb_iff. split; intros [H|H]; auto.
Qed.
Lemma nodupb_text l : nodupb text_eqb l = true <-> NoDup l.
Proof.
  induction l as [|x l IH]; cbn; [split; [constructor|reflexivity]|]. rewrite andb_true_iff, negb_true_iff, IH. split.
  - intros [M N]. constructor; [|exact N]. intros I. apply memb_text in I. congruence.
  - intros H. inversion H; subst. split; [|assumption]. destruct (memb text_eqb x l) eqn:M; [apply memb_text in M; contradiction|reflexivity].
Qed.

(* --- characters --- *)
Lemma upper_facts c : In c uppers -> is_upper c = true /\ is_char 42 c = false /\ is_char 45 c = false /\ is_char 44 c = false /\ is_char 123 c = false /\ is_char 125 c = false
  /\ is_lower c = false /\ num_char c = false /\ is_digit c = false /\ word_char c = true.
Proof. intros H. repeat (destruct H as [<-|H]; [vm_compute; tauto|]). destruct H. Qed.
Lemma lower_facts c : In c lowers -> is_lower c = true /\ is_upper c = false /\ is_char 42 c = false /\ is_char 45 c = false /\ is_char 44 c = false /\ is_char 123 c = false /\ is_char 125 c = false /\ word_char c = true.
Proof. intros H. repeat (destruct H as [<-|H]; [vm_compute; tauto|]). destruct H. Qed.
Lemma filler_facts c : In c fillers -> is_lower c = false /\ is_upper c = false /\ is_char 42 c = false /\ is_char 45 c = false /\ is_char 123 c = false /\ is_char 125 c = false.
Proof. intros H. repeat (destruct H as [<-|H]; [vm_compute; tauto|]). destruct H. Qed.
Lemma symbol_chars s d : symbol_text s -> In d s -> is_char 45 d = false /\ is_char 44 d = false /\ is_char 125 d = false /\ is_char 123 d = false /\ is_char 42 d = false /\ word_char d = true.
Proof.
  intros (c & r & -> & U & L) [<-|I].
  - apply upper_facts in U. tauto.
  - apply L, lower_facts in I. tauto.
Qed.

(* --- products --- *)
Lemma product_In {A} (ls : list (list A)) cs : In cs (product ls) <-> Forall2 (fun l c => In c l) ls cs.
Proof.
  revert cs. induction ls as [|l ls IH]; intros cs; cbn.
  - split; [intros [<-|[]]; constructor|]. intros H. inversion H. left. reflexivity.
  - rewrite in_flat_map. split.
    + intros (x & I & H). apply in_map_iff in H as (r & <- & R). constructor; [exact I|]. apply IH. exact R.
    + intros H. inversion H as [|? x ? r I R]; subst. exists x. split; [exact I|]. apply in_map. apply IH. exact R.
Qed.

(* --- splitting and joining --- *)
Lemma split_none n t : forallb (fun c => negb (is_char n c)) t = true -> split_char n t = [t].
Proof.
  induction t as [|c t IH]; intros H; [reflexivity|]. cbn in *. apply andb_prop in H as [H1 H2]. apply negb_true_iff in H1. rewrite H1, (IH H2). reflexivity.
Qed.
Lemma split_at n x c r : forallb (fun c => negb (is_char n c)) x = true -> is_char n c = true -> split_char n (x ++ c :: r) = x :: split_char n r.
Proof.
  induction x as [|d x IH]; intros H E; cbn in *; [rewrite E; reflexivity|]. apply andb_prop in H as [H1 H2]. apply negb_true_iff in H1. rewrite H1, (IH H2 E). reflexivity.
Qed.
Lemma split_join_with n sep l : is_char n sep = true -> l <> [] -> (forall x, In x l -> forallb (fun c => negb (is_char n c)) x = true) -> split_char n (join_with sep l) = l.
Proof.
  intros E N H. induction l as [|x l IH]; [congruence|]. destruct l as [|y l].
  - apply split_none. apply H. left. reflexivity.
  - change (join_with sep (x :: y :: l)) with (x ++ sep :: join_with sep (y :: l)). rewrite split_at; [|apply H; left; reflexivity|exact E].
    rewrite IH; [reflexivity|discriminate|]. intros z I. apply H. right. exact I.
Qed.
Lemma last_none n t : forallb (fun c => negb (is_char n c)) t = true -> split_last n t = None.
Proof. induction t as [|c t IH]; intros H; [reflexivity|]. cbn in *. apply andb_prop in H as [H1 H2]. apply negb_true_iff in H1. rewrite (IH H2), H1. reflexivity. Qed.
Lemma last_at n a c b : is_char n c = true -> forallb (fun c => negb (is_char n c)) b = true -> split_last n (a ++ c :: b) = Some (a, b).
Proof.
  intros E H. induction a as [|d a IH]; cbn; [rewrite (last_none n b H), E; reflexivity|]. rewrite IH. reflexivity.
Qed.
Lemma forallb_app' {A} (p : A -> bool) a b : forallb p a = true -> forallb p b = true -> forallb p (a ++ b) = true.
Proof. intros H K. rewrite forallb_app, H, K. reflexivity. Qed.
Lemma no_char n t : (forall d, In d t -> is_char n d = false) -> forallb (fun c => negb (is_char n c)) t = true.
Proof. intros H. apply forallb_forall. intros d I. rewrite (H d I). reflexivity. Qed.
Lemma join_chars sep l d : In d (join_with sep l) -> d = sep \/ exists x, In x l /\ In d x.
Proof.
  induction l as [|x l IH]; [intros []|]. destruct l as [|y l].
  - intros I. right. exists x. split; [left; reflexivity|exact I].
  - change (join_with sep (x :: y :: l)) with (x ++ sep :: join_with sep (y :: l)). intros I. apply in_app_or in I as [I|[<-|I]].
    + right. exists x. split; [left; reflexivity|exact I].
    + left. reflexivity.
    + destruct (IH I) as [->|(z & J & K)]; [left; reflexivity|right; exists z; split; [right; exact J|exact K]].
Qed.

Section Crit.
Variable symbols : list text.
Variable compose : text -> result (list text * text).
Notation parse_sym := (parse_sym symbols).
Notation parse_tok := (parse_tok symbols compose).

Lemma braces_written l T : Forall symbol_text l -> forallb (fun c => negb (is_char 125 c)) T = true ->
  braces (written (OneOf l) ++ T) = Some (join_with ","%char l, T).
Proof.
  intros F H. unfold written. cbn [app braces]. change (is_char 123 "{"%char) with true. cbv iota. rewrite <- app_assoc. cbn [app]. apply last_at; [reflexivity|exact H].
Qed.
Lemma group_parts l : l <> [] -> Forall symbol_text l -> split_char 44 (join_with ","%char l) = l.
Proof.
  intros N F. apply split_join_with; [reflexivity|exact N|]. intros x I. rewrite Forall_forall in F. apply no_char. intros d J. apply (symbol_chars x d (F x I) J).
Qed.
Lemma parse_sym_group l : l <> [] -> Forall symbol_text l -> parse_sym (written (OneOf l)) = l.
Proof.
  intros N F. unfold CritModel.parse_sym. destruct (text_eqb (written (OneOf l)) ["*"%char]) eqn:E; [apply text_eqb_iff in E; discriminate|].
  rewrite <- (app_nil_r (written (OneOf l))), braces_written by (try assumption; reflexivity). apply group_parts; assumption.
Qed.
Lemma parse_sym_plain s c r : s = c :: r -> is_char 42 c = false -> is_char 123 c = false -> parse_sym s = [s].
Proof.
  intros -> A B. unfold CritModel.parse_sym. destruct (text_eqb (c :: r) ["*"%char]) eqn:E; [apply text_eqb_iff in E; injection E as -> _; discriminate|].
  unfold braces. rewrite B. reflexivity.
Qed.
Lemma parse_sym_wild : parse_sym ["*"%char] = symbols.
Proof. reflexivity. Qed.
Lemma parse_sym_item i s : wf_item i -> (forall f, i <> Filler f) -> (In s (parse_sym (written i)) <-> stands_for symbols i s).
Proof.
  intros W NF. destruct i as [|l|x|f]; cbn [stands_for].
  - cbn [written]. rewrite parse_sym_wild. reflexivity.
  - destruct W as [N F]. rewrite parse_sym_group by assumption. reflexivity.
  - cbn [written]. destruct W as (c & r & E & U & _). rewrite (parse_sym_plain x c r E) by (apply upper_facts in U; tauto). cbn. split; [intros [H|[]]; symmetry; exact H|intros ->; left; reflexivity].
  - destruct (NF f eq_refl).
Qed.

(* --- chemical systems --- *)
Definition plain_item (i : item) : Prop := wf_item i /\ forall f, i <> Filler f.
Lemma written_no_dash i : wf_item i -> forall d, In d (written i) -> is_char 45 d = false.
Proof.
  intros W d I. destruct i as [|l|x|f]; cbn [written] in I.
  - destruct I as [<-|[]]. reflexivity.
  - destruct W as [N F]. destruct I as [<-|I]; [reflexivity|]. apply in_app_or in I as [I|[<-|[]]]; [|reflexivity].
    apply join_chars in I as [->|(x & J & K)]; [reflexivity|]. rewrite Forall_forall in F. apply (symbol_chars x d (F x J) K).
  - apply (symbol_chars x d W I).
  - apply filler_facts. apply W. exact I.
Qed.
Lemma written_start i : plain_item i -> exists c r, written i = c :: r /\ is_digit c = false.
Proof.
  intros [W NF]. destruct i as [|l|x|f]; cbn [written].
  - exists "*"%char, []. split; reflexivity.
  - exists "{"%char, (join_with ","%char l ++ ["}"%char]). split; reflexivity.
  - destruct W as (c & r & -> & U & _). exists c, r. split; [reflexivity|]. apply upper_facts. exact U.
  - destruct (NF f eq_refl).
Qed.
Lemma system_no_task items : 2 <= length items -> Forall plain_item items -> task_like (system_text items) = false.
Proof.
  intros L F. destruct items as [|i [|j items]]; cbn in L; try lia. inversion F as [|? ? Hi F']; subst. inversion F' as [|? ? Hj _]; subst.
  unfold system_text. cbn [map]. change (join_with "-"%char (written i :: written j :: map written items)) with (written i ++ "-"%char :: join_with "-"%char (written j :: map written items)).
  assert (J : exists c r, join_with "-"%char (written j :: map written items) = c :: r /\ is_digit c = false).
  { destruct (written_start j Hj) as (c & r & E & D). rewrite E. destruct (map written items) as [|y l]; cbn [join_with app]; eexists; eexists; (split; [reflexivity|exact D]). }
  destruct J as (c & r & -> & D). unfold task_like. destruct Hi as [W NF]. destruct i as [|l|x|f]; cbn [written].
  - reflexivity.
  - reflexivity.
  - rewrite (span_all word_char x); [|apply forallb_forall; intros d I; apply (symbol_chars x d W I)|reflexivity]. destruct x; [reflexivity|]. rewrite D. apply andb_false_r.
  - destruct (NF f eq_refl).
Qed.
Lemma system_dash items : 2 <= length items -> existsb (is_char 45) (system_text items) = true.
Proof.
  intros L. destruct items as [|i [|j items]]; cbn in L; try lia. apply existsb_exists. exists "-"%char. split; [|reflexivity].
  unfold system_text. cbn [map]. change (join_with "-"%char (written i :: written j :: map written items)) with (written i ++ "-"%char :: join_with "-"%char (written j :: map written items)).
  apply in_or_app. right. left. reflexivity.
Qed.
Lemma system_split items : items <> [] -> Forall plain_item items -> split_char 45 (system_text items) = map written items.
Proof.
  intros N F. apply split_join_with; [reflexivity|destruct items; [congruence|discriminate]|]. intros x I. apply in_map_iff in I as (i & <- & J).
  rewrite Forall_forall in F. apply no_char. apply written_no_dash. apply (F i J).
Qed.
Lemma product_choice items cs : Forall plain_item items -> (In cs (product (map parse_sym (map written items))) <-> choice symbols items cs).
Proof.
  intros F. rewrite product_In. unfold choice. revert cs. induction items as [|i items IH]; intros cs; cbn [map].
  - split; intros H; inversion H; constructor.
  - inversion F as [|? ? Hi F']; subst. split; intros H; inversion H as [|? c ? r A B]; subst; (constructor; [apply (parse_sym_item i c (proj1 Hi) (proj2 Hi)); exact A|apply (IH F'); exact B]).
Qed.
Lemma mapM_element l : (forall s, In s l -> In s symbols) -> mapM (element symbols) l = Ok l.
Proof.
  induction l as [|s l IH]; intros H; [reflexivity|]. cbn [mapM]. unfold element at 1. rewrite (proj2 (memb_text s symbols)) by (apply H; left; reflexivity).
  rewrite IH by (intros x I; apply H; right; exact I). reflexivity.
Qed.
Lemma element_error l s : In s l -> ~ In s symbols -> mapM (element symbols) l = Err ValueError.
Proof.
  intros I N. induction l as [|x l IH]; [destruct I|]. cbn [mapM]. unfold element at 1. destruct (memb text_eqb x symbols) eqn:M; [|reflexivity].
  destruct I as [->|I]; [apply memb_text in M; contradiction|]. rewrite (IH I). reflexivity.
Qed.

Theorem chemsys_spec items : 2 <= length items -> Forall plain_item items -> (forall i s, In i items -> stands_for symbols i s -> In s symbols) ->
  exists l, parse_tok (system_text items) = Ok (Chemsys l)
  /\ forall n, In n l <-> exists cs, choice symbols items cs /\ NoDup cs /\ names (map string_of_list_ascii cs) n.
Proof.
  intros L F V. unfold CritModel.parse_tok. rewrite (system_no_task items L F), (system_dash items L). rewrite system_split by first [exact F|destruct items; [cbn in L; lia|discriminate]].
  assert (Vc : forall cs, choice symbols items cs -> forall s, In s cs -> In s symbols).
  { clear -V. intros cs H. induction H as [|i c items cs A B IH]; intros s I; [destruct I|]. destruct I as [<-|I]; [apply (V i c); [left; reflexivity|exact A]|].
    apply IH; [intros j x J; apply V; right; exact J|exact I]. }
  assert (M : exists ll, mapM (chemsys_of symbols) (product (map parse_sym (map written items))) = Ok ll
     /\ forall n, In n (List.concat ll) <-> exists cs, In cs (product (map parse_sym (map written items))) /\ NoDup cs /\ n = join_dash (sort_str (map string_of_list_ascii cs))).
  { assert (G : forall cs, In cs (product (map parse_sym (map written items))) -> forall s, In s cs -> In s symbols) by (intros cs I; apply Vc; apply product_choice; assumption).
    induction (product (map parse_sym (map written items))) as [|cs p IH].
    - exists []. split; [reflexivity|]. intros n. split; [intros []|intros (cs & [] & _)].
    - destruct IH as (ll & E & H); [intros c I; apply G; right; exact I|]. cbn [mapM]. unfold chemsys_of at 1. destruct (nodupb text_eqb cs) eqn:D.
      + rewrite mapM_element by (apply G; left; reflexivity). cbn [bind]. rewrite E. eexists. split; [reflexivity|]. intros n. cbn [List.concat app]. apply nodupb_text in D. split.
        * intros [<-|I]; [exists cs; split; [left; reflexivity|split; [exact D|reflexivity]]|]. apply H in I as (c & I & X). exists c. split; [right; exact I|exact X].
        * intros (c & [<-|I] & X & Y); [left; symmetry; exact Y|right; apply H; exists c; split; [exact I|split; assumption]].
      + rewrite E. eexists. split; [reflexivity|]. intros n. cbn [List.concat app]. split.
        * intros I. apply H in I as (c & I & X). exists c. split; [right; exact I|exact X].
        * intros (c & [<-|I] & X & Y); [apply nodupb_text in X; congruence|apply H; exists c; split; [exact I|split; assumption]]. }
  destruct M as (ll & -> & H). cbn [bind]. eexists. split; [reflexivity|]. intros n. rewrite H. split.
  - intros (cs & I & D & E). exists cs. split; [apply product_choice; assumption|]. split; [exact D|]. apply names_sort. exact E.
  - intros (cs & I & D & E). exists cs. split; [apply product_choice; assumption|]. split; [exact D|]. apply names_sort. exact E.
Qed.
Theorem chemsys_error items cs s : 2 <= length items -> Forall plain_item items -> choice symbols items cs -> NoDup cs -> In s cs -> ~ In s symbols ->
  parse_tok (system_text items) = Err ValueError.
Proof.
  intros L F Ch D I N. unfold CritModel.parse_tok. rewrite (system_no_task items L F), (system_dash items L). rewrite system_split by first [exact F|destruct items; [cbn in L; lia|discriminate]].
  assert (P := proj2 (product_choice items cs F) Ch).
  assert (M : mapM (chemsys_of symbols) (product (map parse_sym (map written items))) = Err ValueError); [|rewrite M; reflexivity].
  induction (product (map parse_sym (map written items))) as [|c p IH]; [destruct P|]. cbn [mapM]. unfold chemsys_of at 1. destruct P as [->|P].
  - rewrite (proj2 (nodupb_text cs) D), (element_error cs s I N). reflexivity.
  - destruct (nodupb text_eqb c); [|rewrite (IH P); reflexivity]. destruct (mapM (element symbols) c) as [l|x] eqn:E; cbn [bind]; [rewrite (IH P); reflexivity|].
    clear -E. revert x E. induction c as [|a c IH]; intros x E; cbn [mapM] in E; [discriminate|]. unfold element at 1 in E. destruct (memb text_eqb a symbols); [|injection E as <-; reflexivity].
    destruct (mapM (element symbols) c) as [l|y]; [discriminate|]. injection E as <-. apply IH. reflexivity.
Qed.

(* --- formulas: the two regular expressions --- *)
Lemma split_last_shorter n t a b : split_last n t = Some (a, b) -> length b < length t.
Proof.
  revert a. induction t as [|c t IH]; intros a H; cbn in H; [discriminate|]. destruct (split_last n t) as [[x y]|].
  - injection H as _ ->. specialize (IH x eq_refl). cbn. lia.
  - destruct (is_char n c); [|discriminate]. injection H as _ ->. cbn. lia.
Qed.
Lemma braces_shorter t a b : braces t = Some (a, b) -> length b < length t.
Proof. unfold braces. destruct t as [|c r]; [discriminate|]. destruct (is_char 123 c); [|discriminate]. intros H. apply split_last_shorter in H. cbn. lia. Qed.

Lemma findall_fuel n : forall m t, length t <= n -> length t <= m -> findall n t = findall m t.
Proof.
  induction n as [|n IH]; intros m t Hn Hm; destruct t as [|c r]; cbn in Hn, Hm; try lia; destruct m as [|m]; cbn [length] in *; try lia; try reflexivity.
  cbn [findall]. destruct (is_char 42 c).
  - f_equal. assert (L := span_length num_char r). apply IH; lia.
  - destruct (braces (c :: r)) as [[a b]|] eqn:B.
    + apply braces_shorter in B. cbn in B. assert (L := span_length num_char b). f_equal. apply IH; lia.
    + destruct (is_upper c); [|apply IH; lia]. assert (L := span_length is_lower r). destruct (span is_lower r) as [low rest]. cbn [snd] in L.
      assert (L' := span_length num_char rest). f_equal. apply IH; lia.
Qed.
Definition fa (t : text) : list (option text) := findall (length t) t.
Lemma num_skip c : num_char c = true -> is_char 42 c = false /\ is_char 123 c = false /\ is_upper c = false.
Proof. destruct c as [[] [] [] [] [] [] [] []]; vm_compute; try discriminate; tauto. Qed.
Lemma fa_skip c r : is_char 42 c = false -> is_char 123 c = false -> is_upper c = false -> fa (c :: r) = fa r.
Proof. intros A B U. unfold fa. cbn [length findall]. rewrite A. unfold braces. rewrite B, U. reflexivity. Qed.
Lemma fa_span t : fa (snd (span num_char t)) = fa t.
Proof.
  induction t as [|c t IH]; [reflexivity|]. cbn [span]. destruct (num_char c) eqn:N; [|reflexivity]. destruct (span num_char t) as [a b]. cbn [snd] in *.
  apply num_skip in N as (A & B & U). rewrite fa_skip by assumption. exact IH.
Qed.
Lemma findall_span n t : length t <= n -> findall n (snd (span num_char t)) = fa t.
Proof. intros H. rewrite <- fa_span. assert (L := span_length num_char t). apply findall_fuel; lia. Qed.
Lemma fa_wild r : fa ("*"%char :: r) = None :: fa r.
Proof. unfold fa. cbn [length findall]. change (is_char 42 "*"%char) with true. cbv iota. rewrite findall_span by lia. reflexivity. Qed.
Lemma fa_braces c r a b : is_char 42 c = false -> braces (c :: r) = Some (a, b) -> fa (c :: r) = None :: fa b.
Proof. intros A B. unfold fa at 1. cbn [length findall]. rewrite A, B. apply braces_shorter in B. cbn in B. rewrite findall_span by lia. reflexivity. Qed.
Lemma fa_symbol c low rest : is_upper c = true -> is_char 42 c = false -> is_char 123 c = false -> forallb is_lower low = true -> match rest with d :: _ => is_lower d = false | [] => True end ->
  fa (c :: low ++ rest) = Some (c :: low) :: fa rest.
Proof.
  intros U A B L S. unfold fa at 1. cbn [length findall]. rewrite A. unfold braces. rewrite B, U, (span_all is_lower low rest L S). rewrite findall_span by (rewrite app_length; lia). reflexivity.
Qed.

Definition mark (i : item) : list (option text) := match i with Wild | OneOf _ => [None] | Sym s => [Some s] | Filler _ => [] end.
Lemma written_first i d r : wf_item i -> written i = d :: r -> is_lower d = false.
Proof.
  intros W E. destruct i as [|l|s|f]; cbn [written] in E.
  - injection E as <- _. reflexivity.
  - injection E as <- _. reflexivity.
  - destruct W as (c & x & -> & U & _). injection E as <- _. apply upper_facts. exact U.
  - destruct W as [_ W]. apply filler_facts. apply W. rewrite E. left. reflexivity.
Qed.
Lemma written_nonempty i : wf_item i -> written i <> [].
Proof. intros W. destruct i as [|l|s|f]; cbn [written]; [discriminate|discriminate| |apply W]. destruct W as (c & x & -> & _). discriminate. Qed.
Lemma formula_first items : Forall wf_item items -> match formula_text items with d :: _ => is_lower d = false | [] => True end.
Proof.
  intros F. destruct items as [|i items]; [exact I|]. inversion F as [|? ? W _]; subst. unfold formula_text. cbn [map List.concat].
  assert (N := written_nonempty i W). destruct (written i) as [|d r] eqn:E; [congruence|]. cbn [app]. exact (written_first i d r W E).
Qed.
Lemma formula_no_brace items : Forall wf_item items -> groups items = [] -> forall d, In d (formula_text items) -> is_char 125 d = false.
Proof.
  intros F G d I. unfold formula_text in I. apply in_concat in I as (w & J & K). apply in_map_iff in J as (i & <- & J). rewrite Forall_forall in F. specialize (F i J).
  destruct i as [|l|s|f]; cbn [written] in K.
  - destruct K as [<-|[]]. reflexivity.
  - exfalso. assert (Ig : In (OneOf l) (groups items)) by (apply filter_In; split; [exact J|reflexivity]). rewrite G in Ig. destruct Ig.
  - apply (symbol_chars s d F K).
  - apply filler_facts. apply F. exact K.
Qed.
Lemma rest_no_group l items : length (groups (OneOf l :: items)) <= 1 -> groups items = [].
Proof. unfold groups. cbn [filter length]. destruct (filter _ items); [reflexivity|cbn; lia]. Qed.
Lemma groups_tail i items : length (groups (i :: items)) <= 1 -> length (groups items) <= 1.
Proof. unfold groups. cbn [filter]. destruct i; cbn [length]; lia. Qed.
Lemma fa_filler f t : (forall d, In d f -> In d fillers) -> fa (f ++ t) = fa t.
Proof.
  induction f as [|c f IH]; intros H; [reflexivity|]. cbn [app]. rewrite fa_skip; [apply IH; intros d I; apply H; right; exact I| | |]; apply filler_facts; apply H; left; reflexivity.
Qed.
Lemma fa_formula items : Forall wf_item items -> length (groups items) <= 1 -> fa (formula_text items) = flat_map mark items.
Proof.
  intros F. induction items as [|i items IH]; intros G; [reflexivity|]. inversion F as [|? ? W F']; subst. specialize (IH F' (groups_tail _ _ G)).
  change (formula_text (i :: items)) with (written i ++ formula_text items). cbn [flat_map]. rewrite <- IH. destruct i as [|l|s|f]; cbn [mark].
  - cbn [written app]. apply fa_wild.
  - change (written (OneOf l) ++ formula_text items) with ("{"%char :: (join_with ","%char l ++ ["}"%char]) ++ formula_text items).
    apply (fa_braces _ _ (join_with ","%char l)); [reflexivity|]. apply (braces_written l (formula_text items)); [apply W|]. apply no_char. apply formula_no_brace; [exact F'|exact (rest_no_group l items G)].
  - destruct W as (c & low & -> & U & L). cbn [written]. change ((c :: low) ++ formula_text items) with (c :: low ++ formula_text items). apply upper_facts in U.
    rewrite fa_symbol; [reflexivity|tauto|tauto|tauto| |apply formula_first; exact F']. apply forallb_forall. intros d I. apply L, lower_facts in I. tauto.
  - cbn [written app]. apply fa_filler. apply W.
Qed.

Lemma split_parts_fuel n : forall m cur t, length t <= n -> length t <= m -> split_parts n cur t = split_parts m cur t.
Proof.
  induction n as [|n IH]; intros m cur t Hn Hm; destruct t as [|c r]; cbn in Hn, Hm; try lia; destruct m as [|m]; cbn [length] in *; try lia; try reflexivity.
  cbn [split_parts]. destruct (is_char 42 c); [rewrite (IH m [] r) by lia; reflexivity|]. destruct (braces (c :: r)) as [[a b]|] eqn:B; [|apply IH; lia].
  apply braces_shorter in B. cbn in B. rewrite (IH m [] b) by lia. reflexivity.
Qed.
Definition sp (cur t : text) : list text := split_parts (length t) cur t.
Definition flush (cur : text) : list text := match cur with [] => [] | _ => [rev cur] end.
Lemma sp_nil cur : sp cur [] = flush cur.
Proof. reflexivity. Qed.
Lemma sp_wild cur r : sp cur ("*"%char :: r) = flush cur ++ ["*"%char] :: sp [] r.
Proof. reflexivity. Qed.
Lemma sp_braces cur c r a b : is_char 42 c = false -> braces (c :: r) = Some (a, b) -> sp cur (c :: r) = flush cur ++ (c :: a ++ ["}"%char]) :: sp [] b.
Proof. intros A B. unfold sp. cbn [length split_parts]. rewrite A, B. apply braces_shorter in B. cbn in B. rewrite (split_parts_fuel (length r) (length b)) by lia. reflexivity. Qed.
Lemma sp_plain x : forall cur t, (forall d, In d x -> is_char 42 d = false /\ is_char 123 d = false) -> sp cur (x ++ t) = sp (rev x ++ cur) t.
Proof.
  induction x as [|c x IH]; intros cur t H; [reflexivity|]. cbn [app rev]. destruct (H c (or_introl eq_refl)) as [A B].
  unfold sp at 1. cbn [length split_parts]. rewrite A. unfold braces. rewrite B. fold (sp (c :: cur) (x ++ t)). rewrite IH by (intros d I; apply H; right; exact I). rewrite <- app_assoc. reflexivity.
Qed.
Lemma sym_chars i d : wf_item i -> mark i = [] \/ (exists s, i = Sym s) -> In d (written i) -> is_char 42 d = false /\ is_char 123 d = false.
Proof.
  intros W K I. destruct i as [|l|s|f]; cbn [written mark] in *.
  - destruct K as [K|[s K]]; discriminate.
  - destruct K as [K|[s K]]; discriminate.
  - destruct (symbol_chars s d W I) as (_ & _ & _ & A & B & _). split; assumption.
  - destruct W as [_ W]. apply W, filler_facts in I. tauto.
Qed.

(* The texts made from the parts are those made from the items. *)
Definition lit (cur : text) : Prop := forall d, In d cur -> is_char 42 d = false /\ is_char 123 d = false.
Lemma lit_parts cur ps s : lit cur -> ((exists f, In f (product (map parse_sym (flush cur ++ ps))) /\ List.concat f = s)
  <-> exists f, In f (product (map parse_sym ps)) /\ s = rev cur ++ List.concat f).
Proof.
  intros L. unfold flush. destruct cur as [|c cur].
  - cbn [app rev]. split; intros (f & I & E); exists f; (split; [exact I|symmetry; exact E]).
  - assert (P : parse_sym (rev (c :: cur)) = [rev (c :: cur)]).
    { destruct (rev (c :: cur)) as [|d r] eqn:E; [apply (f_equal (@length _)) in E; rewrite rev_length in E; discriminate|].
      assert (Id : In d (c :: cur)) by (rewrite in_rev, E; left; reflexivity). apply (parse_sym_plain _ d r eq_refl); apply (L d Id). }
    cbn [app map]. rewrite P. cbn [product flat_map]. rewrite app_nil_r. split.
    + intros (f & I & E). apply in_map_iff in I as (g & <- & I). exists g. split; [exact I|]. symmetry. exact E.
    + intros (f & I & ->). exists (rev (c :: cur) :: f). split; [apply in_map; exact I|reflexivity].
Qed.
Lemma parts_choice items : Forall wf_item items -> length (groups items) <= 1 -> forall cur, lit cur -> forall s,
  (exists f, In f (product (map parse_sym (sp cur (formula_text items)))) /\ List.concat f = s) <-> (exists cs, choice symbols items cs /\ s = rev cur ++ List.concat cs).
Proof.
  intros F. induction items as [|i items IH]; intros G cur L s.
  - change (formula_text []) with ([] : text). rewrite sp_nil, <- (app_nil_r (flush cur)), (lit_parts cur [] s L). cbn [map product]. split.
    + intros (f & [<-|[]] & ->). exists []. split; [constructor|reflexivity].
    + intros (cs & H & ->). inversion H. exists []. split; [left; reflexivity|reflexivity].
  - inversion F as [|? ? W F']; subst. specialize (IH F' (groups_tail _ _ G)). change (formula_text (i :: items)) with (written i ++ formula_text items).
    assert (wild_case : forall p, (forall x, In x (parse_sym p) <-> stands_for symbols i x) -> sp cur (written i ++ formula_text items) = flush cur ++ p :: sp [] (formula_text items) ->
      (exists f, In f (product (map parse_sym (sp cur (written i ++ formula_text items)))) /\ List.concat f = s) <-> (exists cs, choice symbols (i :: items) cs /\ s = rev cur ++ List.concat cs)).
    { intros p Hp ->. rewrite (lit_parts cur _ s L). cbn [map product]. split.
      - intros (f & I & ->). apply in_flat_map in I as (x & Ix & I). apply in_map_iff in I as (g & <- & I).
        destruct (proj1 (IH [] ltac:(intros d []) (List.concat g))) as (cs & Ch & E); [exists g; split; [exact I|reflexivity]|].
        exists (x :: cs). split; [constructor; [apply Hp; exact Ix|exact Ch]|]. cbn [List.concat]. rewrite E. reflexivity.
      - intros (cs & H & ->). inversion H as [|? x ? r A B]; subst. destruct (proj2 (IH [] ltac:(intros d []) (List.concat r))) as (g & I & E); [exists r; split; [exact B|reflexivity]|].
        exists (x :: g). split; [|cbn [List.concat]; rewrite E; reflexivity]. apply in_flat_map. exists x. split; [apply Hp; exact A|apply in_map; exact I]. }
    assert (plain_case : forall x, written i = x -> (mark i = [] \/ (exists y, i = Sym y)) -> (forall y, stands_for symbols i y <-> y = x) ->
      (exists f, In f (product (map parse_sym (sp cur (written i ++ formula_text items)))) /\ List.concat f = s) <-> (exists cs, choice symbols (i :: items) cs /\ s = rev cur ++ List.concat cs)).
    { intros x Ex K St. assert (Lx : forall d, In d x -> is_char 42 d = false /\ is_char 123 d = false) by (intros d I; apply (sym_chars i d W K); rewrite Ex; exact I).
      rewrite Ex, (sp_plain x cur _ Lx). rewrite (IH (rev x ++ cur)).
      - rewrite rev_app_distr, rev_involutive. split.
        + intros (cs & Ch & ->). exists (x :: cs). split; [constructor; [apply St; reflexivity|exact Ch]|]. cbn [List.concat]. rewrite app_assoc. reflexivity.
        + intros (cs & H & ->). inversion H as [|? y ? r A B]; subst. apply St in A. subst y. exists r. split; [exact B|]. cbn [List.concat]. rewrite app_assoc. reflexivity.
      - intros d I. apply in_app_or in I as [I|I]; [apply Lx; rewrite in_rev; exact I|apply L; exact I]. }
    destruct i as [|l|x|f].
    + apply (wild_case ["*"%char]); [intros x; apply (parse_sym_item Wild x I); discriminate|]. cbn [written app]. apply sp_wild.
    + apply (wild_case (written (OneOf l))); [intros x; apply (parse_sym_item (OneOf l) x W); discriminate|].
      change (written (OneOf l) ++ formula_text items) with ("{"%char :: (join_with ","%char l ++ ["}"%char]) ++ formula_text items).
      apply sp_braces; [reflexivity|]. apply (braces_written l (formula_text items)); [apply W|]. apply no_char. apply formula_no_brace; [exact F'|exact (rest_no_group l items G)].
    + apply (plain_case x); [reflexivity|right; exists x; reflexivity|intros y; reflexivity].
    + apply (plain_case f); [reflexivity|left; reflexivity|intros y; reflexivity].
Qed.

(* --- numbers of distinct elements --- *)
Lemma distinct_app_le a b : distinct (a ++ b) <= length a + distinct b.
Proof. induction a as [|x a IH]; [cbn; lia|]. cbn. destruct (memb text_eqb x (a ++ b)); lia. Qed.
Lemma distinct_app_eq a b : distinct (a ++ b) = length a + distinct b <-> NoDup a /\ forall x, In x a -> ~ In x b.
Proof.
  induction a as [|x a IH]; [cbn; split; [intros _; split; [constructor|intros x []]|reflexivity]|]. cbn [app distinct length]. assert (L := distinct_app_le a b).
  destruct (memb text_eqb x (a ++ b)) eqn:M.
  - apply memb_text in M. split; [lia|]. intros [N D]. exfalso. inversion N; subst. apply in_app_or in M as [M|M]; [contradiction|]. apply (D x (or_introl eq_refl) M).
  - assert (M' : ~ In x (a ++ b)) by (intros I; apply memb_text in I; congruence). split.
    + intros E. destruct (proj1 IH ltac:(lia)) as [N D]. split; [constructor; [|exact N]; intros I; apply M'; apply in_or_app; left; exact I|].
      intros y [<-|I] J; [apply M'; apply in_or_app; right; exact J|exact (D y I J)].
    + intros [N D]. inversion N; subst. rewrite (proj2 IH); [reflexivity|]. split; [assumption|]. intros y I. apply D. right. exact I.
Qed.
Lemma distinct_set l els : NoDup els -> (forall x, In x els <-> In x l) -> length els = distinct l.
Proof.
  assert (G : forall l, exists m, NoDup m /\ (forall x, In x m <-> In x l) /\ length m = distinct l).
  { clear. induction l as [|x l (m & N & S & E)]; [exists []; split; [constructor|split; [reflexivity|reflexivity]]|]. cbn [distinct]. destruct (memb text_eqb x l) eqn:M.
    - apply memb_text in M. exists m. split; [exact N|]. split; [|exact E]. intros y. rewrite S. cbn. split; [tauto|]. intros [<-|I]; assumption.
    - assert (M' : ~ In x l) by (intros I; apply memb_text in I; congruence). exists (x :: m). split; [constructor; [rewrite S; exact M'|exact N]|]. split; [|cbn; rewrite E; reflexivity].
      intros y. cbn. rewrite S. reflexivity. }
  intros N S. destruct (G l) as (m & Nm & Sm & <-). apply Permutation_length. apply NoDup_Permutation; [exact N|exact Nm|]. intros x. rewrite S, Sm. reflexivity.
Qed.
Lemma filled_length items cs : choice symbols items cs -> length (filled items cs) = wild_cards (flat_map mark items).
Proof.
  intros H. unfold wild_cards. induction H as [|i c items cs A B IH]; [reflexivity|]. destruct i; cbn [filled flat_map mark app filter length]; rewrite IH; reflexivity.
Qed.
Lemma explicit_given items : explicit (flat_map mark items) = given items.
Proof. unfold explicit, given. induction items as [|i items IH]; [reflexivity|]. destruct i; cbn [flat_map mark app]; rewrite IH; reflexivity. Qed.

Lemma formulas_loop_spec n fs : (forall f, In f fs -> exists els r, compose (List.concat f) = Ok (els, r) /\ (forall e, In e els -> In e symbols)) -> forall acc, NoDup acc ->
  exists out, formulas_loop symbols compose n fs acc = Ok out /\ NoDup out
  /\ forall x, In x out <-> In x acc \/ exists f els, In f fs /\ compose (List.concat f) = Ok (els, x) /\ length els = n.
Proof.
  induction fs as [|f fs IH]; intros H acc N.
  - exists acc. split; [reflexivity|]. split; [exact N|]. intros x. split; [tauto|]. intros [I|(f & els & [] & _)]. exact I.
  - destruct (H f (or_introl eq_refl)) as (els & r & E & V). cbn [formulas_loop]. rewrite E. cbn [bind fst snd].
    assert (H' : forall g, In g fs -> exists els r, compose (List.concat g) = Ok (els, r) /\ (forall e, In e els -> In e symbols)) by (intros g I; apply H; right; exact I).
    destruct (Nat.eqb_spec (length els) n) as [En|En].
    + rewrite (mapM_element els V). cbn [bind].
      assert (A : NoDup (add_text r acc) /\ forall x, In x (add_text r acc) <-> In x acc \/ x = r).
      { unfold add_text. destruct (memb text_eqb r acc) eqn:M.
        - apply memb_text in M. split; [exact N|]. intros x. split; [tauto|]. intros [I| ->]; assumption.
        - assert (M' : ~ In r acc) by (intros I; apply memb_text in I; congruence). split.
          + apply (Permutation_NoDup (l := r :: acc)); [apply Permutation_cons_append|constructor; assumption].
          + intros x. rewrite in_app_iff. cbn. split; [intros [I|[I|[]]]; auto|intros [I|I]; auto]. }
      destruct A as [Na Ia]. destruct (IH H' (add_text r acc) Na) as (out & O & No & S). exists out. split; [exact O|]. split; [exact No|]. intros x. rewrite S, Ia. split.
      * intros [[I| ->]|(g & es & I & X)]; [left; exact I|right; exists f, els; split; [left; reflexivity|split; assumption]|right; exists g, es; split; [right; exact I|exact X]].
      * intros [I|(g & es & [<-|I] & X & Y)]; [left; left; exact I|left; right; congruence|right; exists g, es; split; [exact I|split; assumption]].
    + destruct (IH H' acc N) as (out & O & No & S). exists out. split; [exact O|]. split; [exact No|]. intros x. rewrite S. split.
      * intros [I|(g & es & I & X)]; [left; exact I|right; exists g, es; split; [right; exact I|exact X]].
      * intros [I|(g & es & [<-|I] & X & Y)]; [left; exact I|exfalso; congruence|right; exists g, es; split; [exact I|split; assumption]].
Qed.

Lemma formula_no_dash items : Forall wf_item items -> forall d, In d (formula_text items) -> is_char 45 d = false.
Proof.
  intros F d I. unfold formula_text in I. apply in_concat in I as (w & J & K). apply in_map_iff in J as (i & <- & J). rewrite Forall_forall in F. exact (written_no_dash i (F i J) d K).
Qed.
Lemma no_dash_no_task t : (forall d, In d t -> is_char 45 d = false) -> task_like t = false /\ existsb (is_char 45) t = false.
Proof.
  intros H. split.
  - unfold task_like. assert (E := span_eq word_char t). destruct (span word_char t) as [a b]. cbn [fst snd] in E. destruct a as [|x a]; [reflexivity|]. destruct b as [|d [|c b]]; try reflexivity.
    rewrite (H d); [reflexivity|]. rewrite <- E. apply in_or_app. right. left. reflexivity.
  - destruct (existsb (is_char 45) t) eqn:X; [|reflexivity]. apply existsb_exists in X as (d & I & J). rewrite (H d I) in J. discriminate.
Qed.
Theorem formula_spec items : Forall wf_item items -> length (groups items) <= 1 ->
  (forall cs, choice symbols items cs -> exists els r, compose (List.concat cs) = Ok (els, r) /\ NoDup els /\ (forall e, In e els -> In e symbols)
     /\ forall e, In e els <-> In e (filled items cs) \/ In e (given items)) ->
  exists l, parse_tok (formula_text items) = Ok (Formulas l) /\ NoDup l
  /\ forall x, In x l <-> exists cs els, choice symbols items cs /\ NoDup (filled items cs) /\ (forall e, In e (filled items cs) -> ~ In e (given items)) /\ compose (List.concat cs) = Ok (els, x).
Proof.
  intros F G H. unfold CritModel.parse_tok. destruct (no_dash_no_task _ (formula_no_dash items F)) as [-> ->].
  fold (fa (formula_text items)). rewrite (fa_formula items F G), explicit_given. unfold parts_of. fold (sp [] (formula_text items)).
  assert (P := parts_choice items F G [] ltac:(intros d [])). cbn [rev app] in P.
  destruct (formulas_loop_spec (wild_cards (flat_map mark items) + distinct (given items)) (product (map parse_sym (sp [] (formula_text items))))) with (acc := @nil text) as (l & E & N & S).
  - intros f I. destruct (proj1 (P (List.concat f))) as (cs & Ch & Ec); [exists f; split; [exact I|reflexivity]|]. destruct (H cs Ch) as (els & r & X & _ & V & _). exists els, r. rewrite Ec. split; assumption.
  - constructor.
  - rewrite E. cbn [bind]. exists l. split; [reflexivity|]. split; [exact N|]. intros x. rewrite S.
    assert (Len : forall cs els r, choice symbols items cs -> compose (List.concat cs) = Ok (els, r) ->
       (length els = wild_cards (flat_map mark items) + distinct (given items) <-> NoDup (filled items cs) /\ forall e, In e (filled items cs) -> ~ In e (given items))).
    { intros cs els r Ch X. destruct (H cs Ch) as (els' & r' & X' & Ne & _ & Se). rewrite X in X'. injection X' as <- <-.
      rewrite (distinct_set (filled items cs ++ given items) els Ne) by (intros e; rewrite in_app_iff; apply Se). rewrite <- (filled_length items cs Ch). apply distinct_app_eq. }
    split.
    + intros [[]|(f & els & I & X & Y)]. destruct (proj1 (P (List.concat f))) as (cs & Ch & Ec); [exists f; split; [exact I|reflexivity]|]. rewrite Ec in X.
      destruct (proj1 (Len cs els x Ch X) Y) as [A B]. exists cs, els. split; [exact Ch|]. split; [exact A|]. split; [exact B|exact X].
    + intros (cs & els & Ch & A & B & X). right. destruct (proj2 (P (List.concat cs))) as (f & I & Ef); [exists cs; split; [exact Ch|reflexivity]|].
      exists f, els. split; [exact I|]. rewrite Ef. split; [exact X|]. apply (Len cs els x Ch X). split; assumption.
Qed.

(* --- identifiers and several tokens --- *)
Lemma id_char c : In c id_chars -> word_char c = true.
Proof. intros I. assert (H : forallb word_char id_chars = true) by (vm_compute; reflexivity). rewrite forallb_forall in H. apply H. exact I. Qed.
Lemma digit_char c : In c digit_chars -> is_digit c = true.
Proof. intros I. assert (H : forallb is_digit digit_chars = true) by (vm_compute; reflexivity). rewrite forallb_forall in H. apply H. exact I. Qed.
Theorem task_spec w d rest : w <> [] -> (forall c, In c w -> In c id_chars) -> In d digit_chars -> parse_tok (w ++ "-"%char :: d :: rest) = Ok (TaskId (w ++ "-"%char :: d :: rest)).
Proof.
  intros N W D. unfold CritModel.parse_tok. assert (T : task_like (w ++ "-"%char :: d :: rest) = true); [|rewrite T; reflexivity].
  unfold task_like. rewrite (span_all word_char w); [|apply forallb_forall; intros c I; apply id_char, W; exact I|reflexivity]. destruct w as [|x w]; [congruence|]. rewrite (digit_char d D). reflexivity.
Qed.
Lemma visible_space c : 33 <= nat_of_ascii c <= 126 -> is_space c = false.
Proof.
  intros H. unfold is_space, between, code. destruct (9 <=? nat_of_ascii c) eqn:A, (nat_of_ascii c <=? 13) eqn:B, (28 <=? nat_of_ascii c) eqn:D, (nat_of_ascii c <=? 32) eqn:E; try reflexivity;
    rewrite ?Nat.leb_le, ?Nat.leb_gt in *; lia.
Qed.
Lemma split_words n : forall ws, Forall word ws -> length ws < n -> split_fuel n (join_with " "%char ws) = ws.
Proof.
  induction n as [|n IH]; intros ws F L; [lia|]. destruct ws as [|w ws]; [reflexivity|]. inversion F as [|? ? [Nw V] F']; subst. cbn [length] in L.
  destruct w as [|c w]; [congruence|].
  assert (Sp : forall d, In d (c :: w) -> is_space d = false) by (intros d I; apply visible_space, V; exact I).
  assert (J : exists tail, join_with " "%char ((c :: w) :: ws) = (c :: w) ++ tail /\ (tail = [] /\ ws = [] \/ tail = " "%char :: join_with " "%char ws /\ ws <> [])).
  { destruct ws as [|y ws]; [exists []; split; [cbn; rewrite app_nil_r; reflexivity|left; split; reflexivity]|]. exists (" "%char :: join_with " "%char (y :: ws)). split; [reflexivity|right; split; [reflexivity|discriminate]]. }
  destruct J as (tail & -> & T). cbn [split_fuel]. change ((c :: w) ++ tail) with (c :: w ++ tail).
  assert (Y : span is_space (c :: w ++ tail) = ([], c :: w ++ tail)) by (cbn [span]; rewrite (Sp c (or_introl eq_refl)); reflexivity). rewrite Y. cbn [snd].
  assert (X : span (fun d => negb (is_space d)) (c :: w ++ tail) = (c :: w, tail)).
  { apply (span_all (fun d => negb (is_space d)) (c :: w)); [apply forallb_forall; intros d I; rewrite (Sp d I); reflexivity|]. destruct T as [[-> _]|[-> _]]; [exact I|reflexivity]. }
  rewrite X. f_equal. destruct T as [[-> ->]|[-> Nws]].
  - destruct n; reflexivity.
  - assert (E : split_fuel n (" "%char :: join_with " "%char ws) = split_fuel n (join_with " "%char ws)).
    { destruct n as [|m]; [reflexivity|]. cbn [split_fuel]. cbn [span]. change (is_space " "%char) with true. destruct (span is_space (join_with " "%char ws)) as [a b]. reflexivity. }
    rewrite E. apply IH; [exact F'|lia].
Qed.
Lemma join_length ws : Forall word ws -> length ws <= length (join_with " "%char ws).
Proof.
  induction ws as [|w ws IH]; intros F; [cbn; lia|]. inversion F as [|? ? [N _] F']; subst. specialize (IH F'). destruct w as [|c w]; [congruence|]. destruct ws as [|y ws]; [cbn; lia|].
  change (join_with " "%char ((c :: w) :: y :: ws)) with ((c :: w) ++ " "%char :: join_with " "%char (y :: ws)). rewrite app_length. cbn [length] in *. lia.
Qed.
Theorem words_spec ws : Forall word ws -> parse_criteria symbols compose (join_with " "%char ws)
  = match ws with [w] => parse_tok w | _ => bind (mapM parse_tok ws) (fun l => Ok (AnyOf l)) end.
Proof. intros F. unfold parse_criteria, split_space. rewrite split_words; [destruct ws as [|a [|b ws]]; reflexivity|exact F|]. assert (L := join_length ws F). lia. Qed.
End Crit.
