(* C155: normalised texts of reactions, and reactions from formulas. *)
From Coq Require Import Ascii String.
From Verif Require Import Prelude NumQ UtilsModel ReactionModel ReactionSpec ReactionCheck LinModel StrModel StrSpec StrCheck NormModel NormSpec NormProofs NormCheck.
Open Scope list_scope.
Open Scope nat_scope.

(* When the amounts of a reaction are whole multiples zs of a unit q above 1e-8, without a common divisor, its normalised
   text has these whole numbers, the reactants on the left, and the factor is 1 / q. Missing: units that are smaller
   (refuted below) and numbers of five digits, of which four are written. *)
Theorem C155_normal_partial : forall C name r q zs, in_units C r q zs -> lowest zs -> (1 # 100000000 < q)%Q -> (forall z, In z zs -> (Z.abs z < 10000)%Z) ->
  exists t f ls rs a b, normalized_repr_and_factor C name r = Ok (t, f) /\ (f * q == 1)%Q /\ t = a ++ list_ascii_of_string " -> "%string ++ b
  /\ sep_by (list_ascii_of_string " + "%string) ls a /\ sep_by (list_ascii_of_string " + "%string) rs b
  /\ Forall2 (fun cz t => counted (- snd cz) (name (fst cz)) t) (filter (fun cz => snd cz <? 0)%Z (combine (comps r) zs)) ls
  /\ Forall2 (fun cz t => counted (snd cz) (name (fst cz)) t) (filter (fun cz => 0 <? snd cz)%Z (combine (comps r) zs)) rs.
Proof. exact normal. Qed.
Print Assumptions C155_normal_partial.
Example C155_demo : in_units demo oxide (1 # 4) [-14; -6; 5; 4]%Z /\ lowest [-14; -6; 5; 4]%Z /\ (forall z, In z [-14; -6; 5; 4]%Z -> (Z.abs z < 10000)%Z).
Proof. exact oxide_units. Qed.
Example C155_demo_run : normalized_repr_and_factor demo demo_name oxide = Ok (txt "14 Li + 6 O2 -> 5 Li2O + 4 LiO"%string, 4%Q).
Proof. exact oxide_normal. Qed.

(* Multiples of a reaction have the same normalised text, and factors that differ by the multiple. Missing as above. *)
Theorem C155_multiples_partial : forall C name r r' s q zs, in_units C r q zs -> lowest zs -> (1 # 100000000 < q)%Q -> multiple C s r r' -> (1 # 100000000 < s * q)%Q ->
  exists t f f', normalized_repr_and_factor C name r = Ok (t, f) /\ normalized_repr_and_factor C name r' = Ok (t, f') /\ (f == s * f')%Q.
Proof. exact same_normal. Qed.
Print Assumptions C155_multiples_partial.
Example C155_multiples_demo : multiple demo (1 # 3) oxide oxide_thirds
  /\ normalized_repr_and_factor demo demo_name oxide_thirds = Ok (txt "14 Li + 6 O2 -> 5 Li2O + 4 LiO"%string, 12%Q).
Proof. exact (conj thirds_multiple thirds_normal). Qed.

(* normalized_repr is the text alone. *)
Theorem C155_repr : forall C name r, (forall t f, normalized_repr_and_factor C name r = Ok (t, f) -> normalized_repr C name r = Ok t)
  /\ (forall e, normalized_repr_and_factor C name r = Err e -> normalized_repr C name r = Err e).
Proof. exact repr_text. Qed.
Print Assumptions C155_repr.

(* A multiple whose amounts are below the tolerance of the divisor has another text. *)
Theorem C155_tiny_refuted : exists C name r r' s, (0 < s)%Q /\ multiple C s r r' /\ conserving C r /\ conserving C r' /\ in_units C r 1 [-4; -1; 2]%Z
  /\ normalized_repr C name r = Ok (txt "4 Li + O2 -> 2 Li2O"%string) /\ normalized_repr C name r' = Ok (txt "2 Li + 0.5 O2 -> Li2O"%string).
Proof. exact tiny_witness. Qed.
Print Assumptions C155_tiny_refuted.

(* There is a text whenever an amount is above 1e-8; without species or with zeros alone there is none (numpy: inf and nan). *)
Theorem C155_total : forall C name r, (exists ca, In ca (amounts C r) /\ (1 # 100000000 < Qabs (snd ca))%Q) -> exists t f, normalized_repr_and_factor C name r = Ok (t, f) /\ (0 < f)%Q.
Proof. exact norm_total. Qed.
Print Assumptions C155_total.
Theorem C155_nothing : forall C name r, (amounts C r = [] -> normalized_repr_and_factor C name r = Err IndexError)
  /\ (amounts C r <> [] -> (forall ca, In ca (amounts C r) -> (snd ca == 0)%Q) -> normalized_repr_and_factor C name r = Err ZeroDivisionError).
Proof. exact norm_nothing. Qed.
Print Assumptions C155_nothing.
Example C155_total_demo : (exists ca, In ca (amounts demo oxide) /\ (1 # 100000000 < Qabs (snd ca))%Q)
  /\ let r := basic_init demo [4; 0] [0; 0]%Q None None in amounts demo r <> [] /\ forall ca, In ca (amounts demo r) -> (snd ca == 0)%Q.
Proof. split; [exists (4, (-(7#2) * 1)%Q); split; [left; reflexivity|reflexivity]|]. split; [discriminate|]. intros ca I. cbn in I. destruct I as [<-|[<-|[]]]; reflexivity. Qed.

(* A reaction made from formulas has their compositions in order, reactants first, and conserves every element if it is
   called balanced; otherwise its coefficients are zero. *)
Theorem C155_formulas : forall C, wf_chem C -> forall parse lsq lrank, (forall rc pc c, length (lsq rc pc c) = length rc + length pc) -> forall rs ps r,
  from_formulas C parse lsq lrank rs ps = Ok r ->
  exists rc pc, Forall2 (fun t c => parse t = Ok c) rs rc /\ Forall2 (fun t c => parse t = Ok c) ps pc /\ comps r = rc ++ pc /\ length (coeffs r) = length (comps r)
  /\ (balanced r = true -> forall e, (Qabs (net C (species r) e) <= 1 # 100000000)%Q)
  /\ (balanced r = false -> forall k, In k (coeffs r) -> k = 0%Q).
Proof. exact formulas_balance. Qed.
Print Assumptions C155_formulas.
(* The first text that is no formula raises its exception, reactants being read first. *)
Theorem C155_unread : forall C parse lsq lrank rs ps t e, parse t = Err e ->
  (forall l l' cs, rs = l ++ t :: l' -> Forall2 (fun t c => parse t = Ok c) l cs -> from_formulas C parse lsq lrank rs ps = Err e)
  /\ (forall l l' cs cs', ps = l ++ t :: l' -> Forall2 (fun t c => parse t = Ok c) rs cs -> Forall2 (fun t c => parse t = Ok c) l cs' -> from_formulas C parse lsq lrank rs ps = Err e).
Proof. exact formulas_unread. Qed.
Print Assumptions C155_unread.
Example C155_formulas_demo : exists r, from_formulas demo demo_parse (exact_solve demo) (exact_rank demo) [txt "Li"%string; txt "O2"%string] [txt "Li2O"%string] = Ok r
  /\ balanced r = true /\ comps r = [4; 7; 0] /\ map Qred (coeffs r) = [-(2); -(1#2); 1]%Q.
Proof. exact oxide_from_formulas. Qed.
Example C155_unread_demo : demo_parse (txt "Xx"%string) = Err ValueError /\ from_formulas demo demo_parse (exact_solve demo) (exact_rank demo) [txt "Li"%string; txt "Xx"%string] [txt "Li2O"%string] = Err ValueError.
Proof. split; vm_compute; reflexivity. Qed.
