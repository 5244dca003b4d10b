(* C146, C147: reactions with rounded numbers. *)
From Verif Require Import Prelude NumQ SumQ UtilsModel ReactionModel ReactionSpec LinCheck RoundModel RoundSpec RoundProofs RoundCheck.
Open Scope list_scope.
Open Scope nat_scope.

(* --- C146 --- *)
(* A reaction of at most 20 species with up to a million atoms of an element on a side that conserves all elements up to 1e-7
   (coefficients are rounded themselves) is balanced, and a balanced one conserves all elements up to 2e-6. Every operation
   is rounded, and amounts below 1e-8 are dropped on the way. Missing: larger reactions (refuted below), compositions
   listed twice (C09), overflow. *)
Theorem C146_flag_partial : forall fl, rounds fl -> forall C, wf_chem C -> forall cs ks, NoDup cs -> length cs = length ks -> length cs <= 20 ->
  (forall e, (produced C (combine cs ks) e <= 1000000 /\ consumed C (combine cs ks) e <= 1000000)%Q) ->
  ((forall e, (Qabs (produced C (combine cs ks) e - consumed C (combine cs ks) e) <= 1 # 10000000)%Q) -> rounded_flag fl C cs ks = true)
  /\ (rounded_flag fl C cs ks = true -> forall e, (Qabs (produced C (combine cs ks) e - consumed C (combine cs ks) e) <= 2 # 1000000)%Q).
Proof. exact flag_rounded. Qed.
Print Assumptions C146_flag_partial.

(* Double precision is such a rounding. *)
Theorem C146_binary64 : rounds binary64 /\ even_handed binary64.
Proof. exact (conj binary64_rounds binary64_even). Qed.
Print Assumptions C146_binary64.

Example C146_demo : wf_chem mno /\ NoDup [0; 1; 2] /\ (forall e, (produced mno (combine [0; 1; 2]%nat thirds) e <= 1000000 /\ consumed mno (combine [0; 1; 2]%nat thirds) e <= 1000000)%Q)
  /\ (forall e, (Qabs (produced mno (combine [0; 1; 2]%nat thirds) e - consumed mno (combine [0; 1; 2]%nat thirds) e) <= 1 # 10000000)%Q)
  /\ ~ (produced mno (combine [0; 1; 2]%nat thirds) 0%nat == consumed mno (combine [0; 1; 2]%nat thirds) 0%nat)%Q
  /\ ~ (binary64 (binary64 (1 # 10) + binary64 (2 # 10)) == binary64 (3 # 10))%Q.
Proof. split; [exact mno_wf|]. split; [repeat constructor; cbn; intuition discriminate|]. split; [apply thirds_small|]. split; [apply thirds_small|]. split; [apply thirds_small|apply third_off]. Qed.

(* 2^35 A + 2^-19 A2 + 2^-20 A4 -> (2^32 + 2^-20) A8 loses and makes nothing, all coefficients are double precision numbers, and it
   comes out as not balanced. *)
Theorem C146_size_refuted : exists C cs ks, wf_chem C /\ NoDup cs /\ length cs = length ks /\ length cs <= 20 /\ Forall (fun k => binary64 k == k)%Q ks
  /\ (forall e, (produced C (combine cs ks) e == consumed C (combine cs ks) e)%Q) /\ rounded_flag binary64 C cs ks = false.
Proof.
  exists clusters, [0; 1; 2; 3], huge. split; [exact clusters_wf|]. split; [repeat constructor; cbn; intuition discriminate|]. split; [reflexivity|]. split; [cbn; lia|].
  split; [exact huge_exact|]. split; [exact huge_conserves|exact huge_flag].
Qed.
Print Assumptions C146_size_refuted.

(* --- C147 --- *)
(* The energy of a reaction of up to 1000 entries is off by at most 1e-12 of the sum of the sizes of its terms. *)
Theorem C147_energy : forall fl C, rounds fl -> forall es ks n, length es <= 1000 ->
  exists x x' g, computed_energy C (computed_init C es ks n) = Ok x /\ rounded_energy fl C (computed_init C es ks n) = Ok x'
  /\ (forall c, In c (comps (c_base (computed_init C es ks n))) -> lowest C e_energy es c (g c))
  /\ (Qabs (x' - x) <= (1 # 1000000000000) * sumQ (fun ck => Qabs (snd ck * g (fst ck))) (species (c_base (computed_init C es ks n))))%Q.
Proof. exact energy_rounded. Qed.
Print Assumptions C147_energy.

(* The energy of the reverse is the negative, without any error. *)
Theorem C147_reverse : forall fl C, even_handed fl -> forall es ks n,
  exists x x', rounded_energy fl C (computed_init C es ks n) = Ok x /\ rounded_energy fl C (computed_reverse C (computed_init C es ks n)) = Ok x' /\ (x' == - x)%Q.
Proof. exact reverse_rounded. Qed.
Print Assumptions C147_reverse.

(* Coefficients that are the t-fold of others up to 1e-6 of their size are taken for multiples, with rounding. *)
Theorem C147_multiples : forall fl, rounds fl -> forall t r row, (0 < t)%Q -> length r = length row -> (forall a, In a row -> ~ (a == 0)%Q) ->
  Forall2 (fun b a => (Qabs (b - t * a) <= (1 # 1000000) * Qabs (t * a))%Q) r row -> rounded_multiple fl r row = true.
Proof. exact multiple_rounded. Qed.
Print Assumptions C147_multiples.

Example C147_demo : (exists x x', computed_energy mno heated = Ok x /\ rounded_energy binary64 mno heated = Ok x' /\ ~ (x == x')%Q)
  /\ rounded_multiple binary64 thirds [-1; -1; 3]%Q = true /\ ~ (third * 3 == 1)%Q.
Proof. split; [exact heated_energy|]. split; [vm_compute; reflexivity|vm_compute; discriminate]. Qed.
