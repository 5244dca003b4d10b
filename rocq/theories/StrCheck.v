(* Concrete reactions and their texts (C92). *)
From Coq Require Import Ascii String Lqa Qpower.
From Verif Require Import Prelude NumQ ReactionModel ReactionSpec ReactionCheck StrModel StrSpec.
Open Scope list_scope.
Open Scope nat_scope.

Definition txt (s : string) : text := list_ascii_of_string s.
(* reduced formula of a composition of the table *)
Definition demo_name (c : nat) : text := txt (demo_formula (red demo c)).
Definition demo_parse (t : text) : result nat :=
  match find (fun c => String.eqb (demo_formula c) (string_of_list_ascii t)) (seq 0 15) with Some c => Ok c | None => Err ValueError end.
(* [spelled], computed *)
Definition one_of (l : text) (c : ascii) : bool := existsb (Ascii.eqb c) l.
Definition spelled_b (f : text) : bool :=
  match f with
  | c :: w => one_of capitals c && forallb (fun d => one_of letters d || one_of numerals d) w && negb (Ascii.eqb c "E"%char && match w with d :: _ => one_of numerals d | [] => false end)
  | [] => false
  end.
Lemma one_of_iff l c : one_of l c = true <-> In c l.
Proof. unfold one_of. rewrite existsb_exists. split; [intros (x & I & E); apply Ascii.eqb_eq in E; subst; exact I|intros I; exists c; split; [exact I|apply Ascii.eqb_refl]]. Qed.
Lemma spelled_b_ok f : spelled_b f = true -> spelled f.
Proof.
  destruct f as [|c w]; [discriminate|]. cbn [spelled_b]. rewrite !andb_true_iff, forallb_forall. intros ((A & B) & D). exists c, w. split; [reflexivity|]. split; [apply one_of_iff; exact A|]. split.
  - intros d I. specialize (B d I). apply orb_true_iff in B as [B|B]; apply one_of_iff in B; tauto.
  - intros -> d w' -> I. apply one_of_iff in I. rewrite I in D. discriminate D.
Qed.
Lemma demo_spelled : forall c, In c (seq 0 15) -> spelled (demo_name c) /\ demo_parse (demo_name c) = Ok (red demo c).
Proof.
  intros c I. cbn in I. repeat (destruct I as [<-|I]; [split; [apply spelled_b_ok; vm_compute; reflexivity|vm_compute; reflexivity]|]). destruct I.
Qed.

(* a reaction with fractions *)
Definition oxide : brxn := basic_init demo [4; 7; 0; 8] [-(7#2); -(3#2); 5#4; 1]%Q None None.
Lemma oxide_text : to_string demo demo_name oxide = txt "3.5 Li + 1.5 O2 -> 1.25 Li2O + LiO"%string.
Proof. vm_compute. reflexivity. Qed.
Lemma oxide_meets : clean demo oxide
  /\ (forall c, In c (comps oxide) -> spelled (demo_name c) /\ demo_parse (demo_name c) = Ok c /\ red demo c = c /\ (fac demo c == 1)%Q)
  /\ (forall k, In k (coeffs oxide) -> (1 # 1000000 < Qabs k)%Q /\ (Qabs k < 99995 # 10)%Q /\ short k)
  /\ reactants oxide <> [] /\ products oxide <> [].
Proof.
  split.
  { exists [4; 7; 0; 8], [-(7#2); -(3#2); 5#4; 1]%Q, None, None. split; [reflexivity|]. split; [repeat constructor; cbn; lia|]. split; [reflexivity|].
    intros k I. cbn in I. repeat (destruct I as [<-|I]; [discriminate|]). destruct I. }
  split.
  { intros c I. assert (J : In c (seq 0 15)) by (cbn in *; lia). destruct (demo_spelled c J) as [A B].
    assert (R : red demo c = c /\ (fac demo c == 1)%Q) by (cbn in I; repeat (destruct I as [<-|I]; [split; reflexivity|]); destruct I).
    split; [exact A|]. split; [rewrite B; f_equal; apply R|exact R]. }
  split; [|split; vm_compute; discriminate].
  intros k I. cbn in I. destruct I as [<-|[<-|[<-|[<-|[]]]]]; (split; [reflexivity|split; [reflexivity|]]).
  - exists (-35)%Z, (-1)%Z. split; reflexivity.
  - exists (-15)%Z, (-1)%Z. split; reflexivity.
  - exists 125%Z, (-2)%Z. split; reflexivity.
  - exists 1%Z, 0%Z. split; reflexivity.
Qed.

(* 20000 Li + 10000 O2 -> 20000 LiO *)
Definition huge : brxn := basic_init demo [4; 7; 8] [-(20000); -(10000); 20000]%Q None None.
Lemma huge_witness : exists C parse name r r', (forall c, In c (comps r) -> spelled (name c) /\ parse (name c) = Ok c /\ red C c = c /\ (fac C c == 1)%Q)
  /\ clean C r /\ conserving C r /\ (forall k, In k (coeffs r) -> short k)
  /\ to_string C name r = txt "2e+04 Li + 1e+04 O2 -> 2e+04 LiO"%string
  /\ from_string C parse (to_string C name r) = Ok r' /\ coeffs r' = [-(4); -(4); 4]%Q /\ balanced r' = false.
Proof.
  exists demo, demo_parse, demo_name, huge. eexists. split.
  { intros c I. assert (J : In c (seq 0 15)) by (cbn in *; lia). destruct (demo_spelled c J) as [A B].
    assert (R : red demo c = c /\ (fac demo c == 1)%Q) by (cbn in I; repeat (destruct I as [<-|I]; [split; reflexivity|]); destruct I).
    split; [exact A|]. split; [rewrite B; f_equal; apply R|exact R]. }
  split.
  { exists [4; 7; 8], [-(20000); -(10000); 20000]%Q, None, None. split; [reflexivity|]. split; [repeat constructor; cbn; lia|]. split; [reflexivity|].
    intros k I. cbn in I. repeat (destruct I as [<-|I]; [discriminate|]). destruct I. }
  split; [intros e; all_elements e|]. split.
  { intros k I. cbn in I. destruct I as [<-|[<-|[<-|[]]]].
    - exists (-2)%Z, 4%Z. split; reflexivity.
    - exists (-1)%Z, 4%Z. split; reflexivity.
    - exists 2%Z, 4%Z. split; reflexivity. }
  split; [vm_compute; reflexivity|]. split; [vm_compute; reflexivity|]. split; vm_compute; reflexivity.
Qed.

(* 2/3 Li + 1/3 O2 -> 2/3 LiO is read as 0.6667 Li + 0.3333 O2 -> 0.6667 LiO *)
Definition thirds : brxn := basic_init demo [4; 7; 8] [-(2#3); -(1#3); 2#3]%Q None None.
Lemma thirds_witness : exists C parse name r r', clean C r /\ conserving C r /\ balanced r = true
  /\ from_string C parse (to_string C name r) = Ok r' /\ basic_eq C r r' = Ok false /\ balanced r' = false.
Proof.
  exists demo, demo_parse, demo_name, thirds. eexists. split.
  { exists [4; 7; 8], [-(2#3); -(1#3); 2#3]%Q, None, None. split; [reflexivity|]. split; [repeat constructor; cbn; lia|]. split; [reflexivity|].
    intros k I. cbn in I. repeat (destruct I as [<-|I]; [discriminate|]). destruct I. }
  split; [intros e; all_elements e|]. split; [vm_compute; reflexivity|]. split; [vm_compute; reflexivity|]. split; vm_compute; reflexivity.
Qed.

(* Ba2O2 + BaCO3 -> 3 BaO + CO2 is printed as 2 BaO + BaCO3 -> 3 BaO + CO2 *)
Definition unreduced : brxn := basic_init demo [13; 9; 14; 12] [-1; -1; 3; 1]%Q None None.
Lemma unreduced_witness : exists C parse name r r', clean C r /\ conserving C r
  /\ from_string C parse (to_string C name r) = Ok r' /\ basic_eq C r r' = Ok false /\ ~ In 13 (comps r') /\ In 13 (comps r).
Proof.
  exists demo, demo_parse, demo_name, unreduced. eexists. split.
  { exists [13; 9; 14; 12], [-1; -1; 3; 1]%Q, None, None. split; [reflexivity|]. split; [repeat constructor; cbn; lia|]. split; [reflexivity|].
    intros k I. cbn in I. repeat (destruct I as [<-|I]; [discriminate|]). destruct I. }
  split; [intros e; all_elements e|]. split; [vm_compute; reflexivity|]. split; [vm_compute; reflexivity|].
  split; [cbn; lia|cbn; lia].
Qed.

(* Li + Li + O2 -> 2 LiO with two polymorphs of Li *)
Definition polymorphs : brxn := basic_init demo [4; 4; 7; 8] [-1; -1; -1; 2]%Q None None.
Lemma polymorph_witness : exists C parse name r r', conserving C r
  /\ (forall c, In c (comps r) -> spelled (name c) /\ parse (name c) = Ok c /\ red C c = c /\ (fac C c == 1)%Q)
  /\ from_string C parse (to_string C name r) = Ok r' /\ balanced r' = false /\ length (comps r') < length (comps r).
Proof.
  exists demo, demo_parse, demo_name, polymorphs. eexists. split; [intros e; all_elements e|]. split.
  { intros c I. assert (J : In c (seq 0 15)) by (cbn in *; lia). destruct (demo_spelled c J) as [A B].
    assert (R : red demo c = c /\ (fac demo c == 1)%Q) by (cbn in I; repeat (destruct I as [<-|I]; [split; reflexivity|]); destruct I).
    split; [exact A|]. split; [rewrite B; f_equal; apply R|exact R]. }
  split; [vm_compute; reflexivity|]. split; [vm_compute; reflexivity|]. vm_compute. lia.
Qed.

(* a reaction without products *)
Lemma one_sided_witness : exists C parse name r, clean C r /\ (forall k, In k (coeffs r) -> (k == -1)%Q)
  /\ from_string C parse (to_string C name r) = Err ValueError.
Proof.
  exists demo, demo_parse, demo_name, (basic_init demo [4] [-1]%Q None None). split.
  { exists [4], [-1]%Q, None, None. split; [reflexivity|]. split; [repeat constructor; cbn; lia|]. split; [reflexivity|]. intros k [<-|[]]. discriminate. }
  split; [intros k [<-|[]]; reflexivity|]. vm_compute. reflexivity.
Qed.

(* magnesium hydroxide *)
Lemma brackets : spelled (txt "Mg(HO)2"%string) /\ finditer (txt "2 Mg(HO)2 + CaO"%string) = [(txt "2"%string, txt "Mg(HO)2"%string); ([], txt "CaO"%string)].
Proof. split; [apply spelled_b_ok; vm_compute; reflexivity|vm_compute; reflexivity]. Qed.
