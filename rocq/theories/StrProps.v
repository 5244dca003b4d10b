(* C92: theorems about the text form of reactions. *)
From Coq Require Import Ascii String.
From Verif Require Import Prelude NumQ ReactionModel ReactionSpec ReactionCheck StrModel StrSpec StrProofs StrSameProofs StrTextProofs StrCheck.
Open Scope list_scope.
Open Scope nat_scope.

(* Every amount is read back to four significant digits, with the sign and the
   composition it was printed for. Missing: amounts of 9999.5 and more, one-sided
   reactions, two species of one side with the same reduced formula (all refuted
   below); species with amounts within the tolerance are not printed. *)
Theorem C92_round_trip_partial : forall C parse name r,
  (forall c, In c (comps r) -> spelled (name c) /\ parse (name c) = Ok (red C c)) ->
  (forall ca, In ca (amounts C r) -> (Qabs (snd ca) < 99995 # 10)%Q) ->
  consumed_amounts C r <> [] -> formed_amounts C r <> [] ->
  NoDup (map (fun ca => red C (fst ca)) (consumed_amounts C r)) -> NoDup (map (fun ca => red C (fst ca)) (formed_amounts C r)) ->
  exists ks, from_string C parse (to_string C name r) = Ok (basic_init C (map (fun ca => red C (fst ca)) (consumed_amounts C r ++ formed_amounts C r)) ks None None)
  /\ Forall2 (fun ca k => four_digit_value (snd ca) k) (consumed_amounts C r ++ formed_amounts C r) ks.
Proof. exact round_trip. Qed.
Print Assumptions C92_round_trip_partial.

(* A reaction of reduced compositions with coefficients of at most four digits equals
   the one read back. *)
Theorem C92_same_partial : forall C parse name r, clean C r ->
  (forall c, In c (comps r) -> spelled (name c) /\ parse (name c) = Ok c /\ red C c = c /\ (fac C c == 1)%Q) ->
  (forall k, In k (coeffs r) -> (1 # 1000000 < Qabs k)%Q /\ (Qabs k < 99995 # 10)%Q /\ short k) ->
  reactants r <> [] -> products r <> [] ->
  exists r', from_string C parse (to_string C name r) = Ok r' /\ clean C r' /\ basic_eq C r r' = Ok true /\ Permutation (comps r) (comps r')
  /\ (forall c k, In (c, k) (species r) -> exists k', In (c, k') (species r') /\ (k == k')%Q)
  /\ (forall c k, In (c, k) (species r') -> exists k', In (c, k') (species r) /\ (k == k')%Q).
Proof. exact same_reaction. Qed.
Print Assumptions C92_same_partial.

(* The reactants before the arrow and the products after it, with plus signs between
   them; one is not written, and other amounts have four digits without zeros at the
   end of a fraction. *)
Theorem C92_text_partial : forall C name r, (forall ca, In ca (amounts C r) -> (Qabs (snd ca) < 99995 # 10)%Q) ->
  exists ls rs a b, to_string C name r = a ++ list_ascii_of_string " -> "%string ++ b
  /\ sep_by (list_ascii_of_string " + "%string) ls a /\ sep_by (list_ascii_of_string " + "%string) rs b
  /\ Forall2 (fun ca t => written (- snd ca) (name (fst ca)) t) (consumed_amounts C r) ls
  /\ Forall2 (fun ca t => written (snd ca) (name (fst ca)) t) (formed_amounts C r) rs.
Proof. exact text_written. Qed.
Print Assumptions C92_text_partial.

(* A text without an arrow, or with two of them, is not read. *)
Theorem C92_arrows : forall C parse s,
  (forall a b, s <> a ++ list_ascii_of_string "->"%string ++ b) \/ (exists a b c, s = a ++ list_ascii_of_string "->"%string ++ b ++ list_ascii_of_string "->"%string ++ c) ->
  from_string C parse s = Err ValueError.
Proof. exact one_arrow. Qed.
Print Assumptions C92_arrows.
Example C92_arrows_demo : let s := list_ascii_of_string "2 Li -> Li2 -> 2 Li"%string in exists a b c, s = a ++ list_ascii_of_string "->"%string ++ b ++ list_ascii_of_string "->"%string ++ c.
Proof. exists (list_ascii_of_string "2 Li "%string), (list_ascii_of_string " Li2 "%string), (list_ascii_of_string " 2 Li"%string). reflexivity. Qed.

(* 20000 is printed as 2e+04, of which the pattern reads 04. *)
Theorem C92_large_refuted : exists C parse name r r', (forall c, In c (comps r) -> spelled (name c) /\ parse (name c) = Ok c /\ red C c = c /\ (fac C c == 1)%Q)
  /\ clean C r /\ conserving C r /\ (forall k, In k (coeffs r) -> short k)
  /\ to_string C name r = txt "2e+04 Li + 1e+04 O2 -> 2e+04 LiO"%string
  /\ from_string C parse (to_string C name r) = Ok r' /\ coeffs r' = [-(4); -(4); 4]%Q /\ balanced r' = false.
Proof. exact huge_witness. Qed.
Print Assumptions C92_large_refuted.

Theorem C92_thirds_refuted : exists C parse name r r', clean C r /\ conserving C r /\ balanced r = true
  /\ from_string C parse (to_string C name r) = Ok r' /\ basic_eq C r r' = Ok false /\ balanced r' = false.
Proof. exact thirds_witness. Qed.
Print Assumptions C92_thirds_refuted.

Theorem C92_unreduced_refuted : exists C parse name r r', clean C r /\ conserving C r
  /\ from_string C parse (to_string C name r) = Ok r' /\ basic_eq C r r' = Ok false /\ ~ In 13 (comps r') /\ In 13 (comps r).
Proof. exact unreduced_witness. Qed.
Print Assumptions C92_unreduced_refuted.

Theorem C92_polymorphs_refuted : exists C parse name r r', conserving C r
  /\ (forall c, In c (comps r) -> spelled (name c) /\ parse (name c) = Ok c /\ red C c = c /\ (fac C c == 1)%Q)
  /\ from_string C parse (to_string C name r) = Ok r' /\ balanced r' = false /\ length (comps r') < length (comps r).
Proof. exact polymorph_witness. Qed.
Print Assumptions C92_polymorphs_refuted.

Theorem C92_one_sided_refuted : exists C parse name r, clean C r /\ (forall k, In k (coeffs r) -> (k == -1)%Q)
  /\ from_string C parse (to_string C name r) = Err ValueError.
Proof. exact one_sided_witness. Qed.
Print Assumptions C92_one_sided_refuted.

Example C92_demo : clean demo oxide
  /\ (forall c, In c (comps oxide) -> spelled (demo_name c) /\ demo_parse (demo_name c) = Ok c /\ red demo c = c /\ (fac demo c == 1)%Q)
  /\ (forall k, In k (coeffs oxide) -> (1 # 1000000 < Qabs k)%Q /\ (Qabs k < 99995 # 10)%Q /\ short k)
  /\ reactants oxide <> [] /\ products oxide <> [].
Proof. exact oxide_meets. Qed.
Example C92_demo_text : to_string demo demo_name oxide = txt "3.5 Li + 1.5 O2 -> 1.25 Li2O + LiO"%string.
Proof. exact oxide_text. Qed.
(* a spelled formula that starts with E *)
Example C92_demo_E : spelled (txt "Eu2O3"%string) /\ finditer (txt "2.5e-05 Eu2O3 + Er"%string) = [(txt "2.5e-05"%string, txt "Eu2O3"%string); ([], txt "Er"%string)].
Proof. split; [apply spelled_b_ok|]; vm_compute; reflexivity. Qed.
Example C92_demo_brackets : spelled (txt "Mg(HO)2"%string) /\ finditer (txt "2 Mg(HO)2 + CaO"%string) = [(txt "2"%string, txt "Mg(HO)2"%string); ([], txt "CaO"%string)].
Proof. exact brackets. Qed.
