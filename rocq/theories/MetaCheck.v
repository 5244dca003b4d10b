(* Concrete cases for the first two jobs. *)
From Coq Require Import String Ascii Sorted.
From Verif Require Import Prelude UtilsModel EnumSpec EntryDbModel EntryDbSpec EntryDbProofs MetaModel MetaSpec MetaProofs.
Open Scope list_scope.
Open Scope nat_scope.

Definition few : list string := ["H"; "Li"; "O"; "Fe"; "Ni"]%string.
Lemma few_symbols : Forall symbol few.
Proof. repeat constructor; cbv; intuition discriminate. Qed.

(* 26 made-up elements and a material of the first two and one of a further element *)
Definition letters : list string := map (fun i => String (ascii_of_nat (65 + i)) EmptyString) (seq 0 26).
Definition lot : list string := letters ++ ["Fe"%string].
Definition library : list material :=
  [ {| m_id := 0; m_elements := ["A"; "B"]%string; m_deprecated := false; m_entries := [10; 11] |};
    {| m_id := 1; m_elements := ["A"; "Fe"]%string; m_deprecated := false; m_entries := [12] |};
    {| m_id := 2; m_elements := ["C"]%string; m_deprecated := true; m_entries := [13] |} ].
Definition within_b (els l : list string) : bool := forallb (fun x => memb_str x els) l.
Definition ask (name : string) : result (list nat) :=
  Ok (flat_map m_entries (filter (fun m => negb (m_deprecated m) && within_b (split_dash name) (m_elements m)) library)).

Lemma ask_ok els : els <> [] -> NoDup els -> Forall symbol els -> incl els lot ->
  exists es, ask (join_dash els) = Ok es /\ forall x, In x es <-> available_in library els x.
Proof.
  intros Ne _ Sy _. unfold ask. rewrite (split_join els Ne Sy). eexists. split; [reflexivity|]. intros x. rewrite in_flat_map. split.
  - intros (m & I & Ix). apply filter_In in I as [Im B]. apply andb_true_iff in B as [D B]. apply negb_true_iff in D. exists m. split; [exact Im|]. split; [exact D|]. split; [|exact Ix].
    intros e Ie. unfold within_b in B. rewrite forallb_forall in B. apply memb_str_iff, B. exact Ie.
  - intros (m & Im & D & I & Ix). exists m. split; [|exact Ix]. apply filter_In. split; [exact Im|]. rewrite D. cbn [negb andb]. unfold within_b. apply forallb_forall. intros e Ie. apply memb_str_iff, I, Ie.
Qed.
Lemma library_ids : NoDup (map m_id library).
Proof. repeat constructor; cbn; intuition discriminate. Qed.
Lemma in_lot x : memb_str x lot = true -> In x lot.
Proof. apply memb_str_iff. Qed.
Lemma library_elements m : In m library -> incl (m_elements m) lot.
Proof.
  intros I. cbn in I. destruct I as [<-|[<-|[<-|[]]]]; cbn [m_elements]; intros x Ix; cbn in Ix;
  [destruct Ix as [<-|[<-|[]]]|destruct Ix as [<-|[<-|[]]]|destruct Ix as [<-|[]]]; apply in_lot; vm_compute; reflexivity.
Qed.
Lemma letters_ok : letters <> [] /\ NoDup letters /\ Forall symbol letters /\ incl letters lot.
Proof.
  split; [discriminate|]. split.
  - replace letters with (nodup string_dec letters) by (vm_compute; reflexivity). apply NoDup_nodup.
  - split; [|apply incl_appl, incl_refl]. vm_compute. repeat (constructor; [cbv; intuition discriminate|]). constructor.
Qed.
Lemma letters_run : fetch lot library ask None None [99] (join_dash letters) = (None, Ok [10; 11; 99])
  /\ fetch lot library ask None None [] "A-Fe"%string = (None, Ok [12]) /\ fetch lot library ask None None [] "A-Xx"%string = (None, Err ValueError).
Proof. split; [vm_compute; reflexivity|]. split; vm_compute; reflexivity. Qed.

(* The same entries whatever properties are asked for *)
Definition one_doc : doc := {| doc_chemsys := "Li-O"; doc_elements := ["Li"; "O"]%string; doc_none := false; doc_ggau := Some 5; doc_gga := None |}.
Lemma one_doc_wf : wf_doc one_doc.
Proof.
  constructor; [discriminate|repeat constructor; cbv; intuition discriminate|repeat constructor; cbv; intuition discriminate|].
  exists ["Li"; "O"]%string. split; [reflexivity|]. split; [repeat constructor|reflexivity].
Qed.
Lemma ignored : exists periodic db chemsys out, Forall wf_doc db /\ out <> []
  /\ forall materials in_chemsys pd, snd (fetch periodic materials in_chemsys pd (Some db) [] chemsys) = Ok out.
Proof.
  exists few, [one_doc], "Li-O"%string, [5]. split; [constructor; [exact one_doc_wf|constructor]|]. split; [discriminate|].
  intros materials in_chemsys pd. reflexivity.
Qed.

(* Metadata of one enumerator with the target LiFeO2 *)
Definition formula_elements (f : string) : list string :=
  if String.eqb f "LiFeO2" then ["Li"; "Fe"; "O"]%string else if String.eqb f "Li2O" then ["Li"; "O"]%string else [].
Lemma meta_run : get_metadata few formula_elements (@rev string) ["Ni"; "O"; "Li"; "Fe"; "H"]%string [["LiFeO2"]; ["Li2O"; "LiFeO2"]]%string
  = Ok {| md_elements := ["Ni"; "O"; "Li"; "Fe"; "H"]; md_chemsys := "Ni-O-Li-Fe-H"; md_enumerators := 2; md_targets := ["Li2O"; "LiFeO2"]; md_added := Some (["H"; "Ni"], "H-Ni") |}%string.
Proof. vm_compute. reflexivity. Qed.

Lemma order_matters : exists periodic elements_of els chemsys1 chemsys2 md1 md2,
  Permutation chemsys1 els /\ Permutation chemsys2 els
  /\ get_metadata periodic elements_of (fun l => l) chemsys1 [["Li2O"%string]] = Ok md1
  /\ get_metadata periodic elements_of (fun l => l) chemsys2 [["Li2O"%string]] = Ok md2
  /\ md_chemsys md1 <> md_chemsys md2 /\ names els (md_chemsys md1) /\ ~ names els (md_chemsys md2).
Proof.
  exists few, formula_elements, ["Li"; "O"]%string, ["Li"; "O"]%string, ["O"; "Li"]%string. eexists. eexists.
  split; [reflexivity|]. split; [apply perm_swap|]. split; [vm_compute; reflexivity|]. split; [vm_compute; reflexivity|]. cbn [md_chemsys]. split; [discriminate|].
  split; [apply names_sort; reflexivity|]. intros N. apply names_sort in N. discriminate N.
Qed.
