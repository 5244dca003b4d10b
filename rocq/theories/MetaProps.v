(* C110, C111: what the entry job starts from, what the enumeration job reports. *)
From Coq Require Import String Ascii.
From Verif Require Import Prelude UtilsModel EnumSpec EntryDbModel EntryDbSpec MetaModel MetaSpec MetaProofs MetaCheck.
Open Scope list_scope.
Open Scope nat_scope.

(* --- C110 --- *)
(* From the Materials Project, for any number of elements: the entries of the materials that
   are not deprecated and made of these elements, and the custom entries. *)
Theorem C110_materials : forall periodic materials in_chemsys pd custom els,
  NoDup (map m_id materials) -> (forall m, In m materials -> incl (m_elements m) periodic) ->
  (forall els, els <> [] -> NoDup els -> Forall symbol els -> incl els periodic ->
     exists es, in_chemsys (join_dash els) = Ok es /\ forall x, In x es <-> available_in materials els x) ->
  els <> [] -> NoDup els -> Forall symbol els -> incl els periodic ->
  exists es, fetch periodic materials in_chemsys pd None custom (join_dash els) = (pd, Ok es)
    /\ forall x, In x es <-> available_in materials els x \/ In x custom.
Proof. exact (fun periodic materials in_chemsys pd custom els H1 H2 H3 => fetch_mp periodic materials H1 H2 in_chemsys H3 pd custom els). Qed.
Print Assumptions C110_materials.

(* A symbol that is not an element raises ValueError. *)
Theorem C110_unknown : forall periodic materials in_chemsys pd custom els, els <> [] -> Forall symbol els ->
  ~ incl els periodic -> snd (fetch periodic materials in_chemsys pd None custom (join_dash els)) = Err ValueError.
Proof. exact fetch_unknown_symbols. Qed.
Print Assumptions C110_unknown.

(* Every name of a chemical system is of this form. *)
Theorem C110_names : forall s, exists els, els <> [] /\ Forall symbol els /\ s = join_dash els.
Proof. exact joined. Qed.
Print Assumptions C110_names.

(* The elements excluded from the search are those that were not asked for. *)
Theorem C110_excluded : forall periodic els x, In x (exclude_elems periodic els) <-> In x periodic /\ ~ In x els.
Proof. exact exclude_complement. Qed.
Print Assumptions C110_excluded.

(* From an entry database: the entries of the documents within the system, each once, and
   the custom entries. If properties are asked for, "theoretical" is added to them. *)
Theorem C110_database : forall periodic materials in_chemsys pd db custom els,
  els <> [] -> NoDup els -> Forall symbol els -> Forall wf_doc db ->
  exists docs out pd', fetch periodic materials in_chemsys pd (Some db) custom (join_dash els) = (pd', Ok (out ++ custom))
    /\ picks (within els) db docs /\ taken docs out /\ asks_for pd pd'.
Proof. exact fetch_db. Qed.
Print Assumptions C110_database.

Example C110_example : NoDup (map m_id library) /\ (forall m, In m library -> incl (m_elements m) lot)
  /\ (forall els, els <> [] -> NoDup els -> Forall symbol els -> incl els lot -> exists es, ask (join_dash els) = Ok es /\ forall x, In x es <-> available_in library els x)
  /\ (letters <> [] /\ NoDup letters /\ Forall symbol letters /\ incl letters lot)
  /\ fetch lot library ask None None [99] (join_dash letters) = (None, Ok [10; 11; 99])
  /\ fetch lot library ask None None [] "A-Fe"%string = (None, Ok [12]) /\ fetch lot library ask None None [] "A-Xx"%string = (None, Err ValueError).
Proof. split; [exact library_ids|]. split; [exact library_elements|]. split; [exact ask_ok|]. split; [exact letters_ok|]. exact letters_run. Qed.

(* The properties asked for are not looked at: the same entries come back whatever the
   field property_data holds. *)
Theorem C110_property_data_refuted : exists periodic db chemsys out, Forall wf_doc db /\ out <> []
  /\ forall materials in_chemsys pd, snd (fetch periodic materials in_chemsys pd (Some db) [] chemsys) = Ok out.
Proof. exact ignored. Qed.
Print Assumptions C110_property_data_refuted.

(* --- C111 --- *)
(* Missing: the name of the chemical system (refuted below). *)
Theorem C111_metadata_partial : forall periodic elements_of arrange els chemsys enumerators, (forall l, Permutation (arrange l) l) ->
  els <> [] -> Forall symbol els -> incl els periodic -> NoDup els -> Permutation chemsys els ->
  exists md, get_metadata periodic elements_of arrange chemsys enumerators = Ok md
    /\ Permutation (md_elements md) els /\ md_chemsys md = join_dash chemsys /\ md_enumerators md = length enumerators
    /\ increasing (md_targets md) /\ enumerates (md_targets md) (fun t => exists en, In en enumerators /\ In t en)
    /\ match md_added md with
       | None => md_targets md = []
       | Some (added, name) =>
           md_targets md <> [] /\ names added name
           /\ enumerates added (fun e => In e els /\ forall t, In t (md_targets md) -> ~ In e (elements_of t))
       end.
Proof. exact (fun periodic elements_of arrange els chemsys enumerators H => metadata_spec periodic elements_of arrange H els chemsys enumerators). Qed.
Print Assumptions C111_metadata_partial.

Example C111_example : (forall l, Permutation (@rev string l) l) /\ few <> [] /\ Forall symbol few /\ incl few few /\ NoDup few /\ Permutation ["Ni"; "O"; "Li"; "Fe"; "H"]%string few
  /\ get_metadata few formula_elements (@rev string) ["Ni"; "O"; "Li"; "Fe"; "H"]%string [["LiFeO2"]; ["Li2O"; "LiFeO2"]]%string
     = Ok {| md_elements := ["Ni"; "O"; "Li"; "Fe"; "H"]; md_chemsys := "Ni-O-Li-Fe-H"; md_enumerators := 2; md_targets := ["Li2O"; "LiFeO2"]; md_added := Some (["H"; "Ni"], "H-Ni") |}%string.
Proof.
  split; [intros l; apply Permutation_sym, Permutation_rev|]. split; [discriminate|]. split; [exact few_symbols|]. split; [apply incl_refl|].
  split; [repeat constructor; cbv; intuition discriminate|]. split; [|exact meta_run].
  apply NoDup_Permutation; [repeat constructor; cbv; intuition discriminate|repeat constructor; cbv; intuition discriminate|]. intros x. cbn. tauto.
Qed.

(* The name of the chemical system depends on the order in which a set is iterated; it may
   differ from the sorted name used in the databases. *)
Theorem C111_chemsys_refuted : exists periodic elements_of els chemsys1 chemsys2 md1 md2,
  Permutation chemsys1 els /\ Permutation chemsys2 els
  /\ get_metadata periodic elements_of (fun l => l) chemsys1 [["Li2O"%string]] = Ok md1
  /\ get_metadata periodic elements_of (fun l => l) chemsys2 [["Li2O"%string]] = Ok md2
  /\ md_chemsys md1 <> md_chemsys md2 /\ names els (md_chemsys md1) /\ ~ names els (md_chemsys md2).
Proof. exact order_matters. Qed.
Print Assumptions C111_chemsys_refuted.
