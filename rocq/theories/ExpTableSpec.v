(* Vocabulary for the tables of the experimental entries. *)
From Coq Require Import String.
From Verif Require Import Prelude NumQ.
Open Scope string_scope.
Open Scope list_scope.
Open Scope nat_scope.

(* The temperature of the last of so many rows. *)
Definition last_row (vs : list Z) : Q := inject_Z (100 * (3 + (Z.of_nat (length vs) - 1))).

(* The formulas with two neighbouring rows that differ by more than 0.2 eV for each atom. *)
Definition nist_jumps : list string := [
  "H2N"; "HgF"; "SCl"].
Definition freed_jumps : list string := [
  "AgO"; "AlClO"; "AlH3"; "AlHO2"; "BaO"; "Be(HO)2"; "BeH2"; "Bi2S3"; "BiS"; "Ca(HO)2"; "CaF2"; 
  "CdO"; "CdS"; "CeBr3"; "CeCl3"; "CoO"; "Cs2O"; "CuF"; "CuO"; "EuF3"; "EuO"; "GdF3"; "H3C"; "HC"; 
  "HS"; "HgBr"; "HgCl"; "HgF"; "HgI"; "HgS"; "InS"; "K2O2"; "KH"; "LaBr3"; "Li2O2"; "LuF3"; 
  "Mg(HO)2"; "MnS"; "MoBr2"; "MoI2"; "MoO3"; "Na2O2"; "NaH"; "NdCl3"; "NdF3"; "NiS"; "PdO"; "PrF3"; 
  "SCl"; "Sb2S3"; "Sb3S2"; "Sb4S3"; "SbS"; "SbS2"; "SnO"; "Sr(HO)2"; "SrO"; "TePb"; "TiO"; "UF3"; 
  "US2"; "VN"; "VO"; "WCl2"; "WO2"; "YbF3"; "ZnS"; "ZnTe"; "ZrI3"].

(* The formulas for which the two tables differ in one row by more than 0.2 eV for each atom. *)
Definition disputed : list string := [
  "AlC"; "AlClO"; "AlHO"; "AlHO2"; "AlI3"; "AlS"; "B(HO)3"; "BBrF"; "BH2"; "BO"; "BS"; "BaO";
  "Be(HO)2"; "BeBr2"; "BeCl2"; "BeF2"; "BeH2"; "BeI2"; "Ca(HO)2"; "CaF2"; "CoO"; "Cs2O"; "CsF";
  "CsHO"; "CuF"; "CuO"; "FeBr2"; "FeF3"; "H2N"; "H3C"; "HC"; "HS"; "HgBr"; "HgBr2"; "HgCl";
  "HgCl2"; "HgF"; "HgF2"; "HgI"; "HgI2"; "ICl"; "K2O2"; "KH"; "Li2B4O7"; "Li2O2"; "Mg(HO)2";
  "MgI"; "MgI2"; "MoBr2"; "MoI2"; "MoI3"; "MoI4"; "MoO3"; "Na2O2"; "NaAlCl4"; "NaH"; "NiCl2";
  "NiS"; "P4S3"; "PN"; "PbBr2"; "PbCl2"; "PbCl4"; "PbS"; "S2O"; "SCl"; "SiS"; "SiS2"; "Sr(HO)2";
  "SrI"; "SrO"; "TaC"; "TiCl2"; "TiCl2O"; "TiF3"; "TiF4"; "TiI2"; "TiO"; "VN"; "VO"; "WCl2";
  "WCl4"; "WO2"; "ZrBr3"; "ZrC"; "ZrCl3"; "ZrI"; "ZrI2"; "ZrI3"].

(* Two neighbouring rows of one list, and the same row of two lists, differ by more than 0.2 eV
   for each of the n atoms. *)
Definition jumps (n : Z) (vs : list Z) : Prop :=
  exists i a b, nth_error vs i = Some a /\ nth_error vs (S i) = Some b /\ (200000 * n < Z.abs (b - a))%Z.
Definition differs (n : Z) (vs vs' : list Z) : Prop :=
  exists i a b, nth_error vs i = Some a /\ nth_error vs' i = Some b /\ (200000 * n < Z.abs (a - b))%Z.
