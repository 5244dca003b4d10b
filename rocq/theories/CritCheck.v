(* C127: some criteria. *)
From Coq Require Import Ascii String.
From Verif Require Import Prelude ListFacts StrModel EntryDbModel EntryDbSpec UtilsModel CritModel CritSpec CritProofs.
Open Scope list_scope.
Open Scope nat_scope.

Definition T (s : string) : text := list_ascii_of_string s.
Definition some_symbols : list text := map T ["H"; "O"; "S"; "Li"; "Mn"; "Fe"]%string.
(* A stand-in for Composition: the symbols in the text, which is its own reduced formula;
   braces are not allowed. *)
Definition toy (t : text) : result (list text * text) :=
  if existsb (is_char 123) t then Err ValueError
  else Ok (nodup (list_eq_dec ascii_dec) (explicit (findall (length t) t)), t).
Definition crit (s : string) : result query := parse_criteria some_symbols toy (T s).

(* Two groups of alternatives are read as one. *)
Lemma greedy_witness : forall symbols compose, (forall t, In "{"%char t -> compose t = Err ValueError) -> (forall s, In s (map T ["Fe"; "Mn"; "O"; "S"]%string) -> In s symbols) ->
  compose (T "Fe3") = Ok ([T "Fe"], T "Fe") ->
  let items := [OneOf [T "Fe"; T "Mn"]; Filler (T "2"); OneOf [T "O"; T "S"]; Filler (T "3")] in
  Forall wf_item items /\ formula_text items = T "{Fe,Mn}2{O,S}3" /\ parse_tok symbols compose (formula_text items) = Err ValueError.
Proof.
  intros symbols compose B V E items. split; [|split; [reflexivity|]].
  - assert (Sy : forall s, In s (map T ["Fe"; "Mn"; "O"; "S"]%string) -> symbol_text s).
    { intros s [<-|[<-|[<-|[<-|[]]]]]; eexists; eexists; (split; [reflexivity|]); (split; [vm_compute; tauto|]); intros d I; repeat (destruct I as [<-|I]; [vm_compute; tauto|]); destruct I. }
    assert (Fi : forall x, In x [T "2"; T "3"] -> x <> [] /\ forall d, In d x -> In d fillers) by (intros x [<-|[<-|[]]]; (split; [discriminate|intros d [<-|[]]; vm_compute; tauto])).
    apply Forall_cons; [split; [discriminate|apply Forall_forall; intros s I; apply Sy; cbn [map In] in *; tauto]|].
    apply Forall_cons; [apply Fi; left; reflexivity|]. apply Forall_cons; [split; [discriminate|apply Forall_forall; intros s I; apply Sy; cbn [map In] in *; tauto]|].
    apply Forall_cons; [apply Fi; right; left; reflexivity|]. apply Forall_nil.
  - change (formula_text items) with (T "{Fe,Mn}2{O,S}3"). unfold parse_tok.
    change (task_like (T "{Fe,Mn}2{O,S}3")) with false. change (existsb (is_char 45) (T "{Fe,Mn}2{O,S}3")) with false. cbv iota.
    change (findall (length (T "{Fe,Mn}2{O,S}3")) (T "{Fe,Mn}2{O,S}3")) with [@None text]. change (parts_of (T "{Fe,Mn}2{O,S}3")) with [T "{Fe,Mn}2{O,S}"; T "3"].
    change (map (parse_sym symbols) [T "{Fe,Mn}2{O,S}"; T "3"]) with [[T "Fe"; T "Mn}2{O"; T "S"]; [T "3"]].
    change (product [[T "Fe"; T "Mn}2{O"; T "S"]; [T "3"]]) with [[T "Fe"; T "3"]; [T "Mn}2{O"; T "3"]; [T "S"; T "3"]].
    cbn [formulas_loop]. change (List.concat [T "Fe"; T "3"]) with (T "Fe3"). rewrite E. cbn [bind fst snd length Nat.eqb wild_cards explicit flat_map filter distinct Nat.add].
    rewrite (mapM_element symbols [T "Fe"]) by (intros s [<-|[]]; apply V; left; reflexivity). cbn [bind].
    rewrite B; [reflexivity|]. vm_compute. tauto.
Qed.
