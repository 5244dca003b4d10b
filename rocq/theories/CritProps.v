(* C127: theorems about criteria texts. *)
From Coq Require Import Ascii String.
From Verif Require Import Prelude StrModel EntryDbModel EntryDbSpec UtilsModel CritModel CritSpec CritProofs CritCheck.
Open Scope list_scope.
Open Scope nat_scope.

(* An identifier such as mp-1234. *)
Theorem C127_identifier : forall symbols compose w d rest, w <> [] -> (forall c, In c w -> In c id_chars) -> In d digit_chars ->
  parse_tok symbols compose (w ++ "-"%char :: d :: rest) = Ok (TaskId (w ++ "-"%char :: d :: rest)).
Proof. exact task_spec. Qed.
Print Assumptions C127_identifier.

(* A chemical system asks for exactly the systems of different elements that its wild
   cards and alternatives allow. *)
Theorem C127_system : forall symbols compose items, 2 <= length items -> Forall (fun i => wf_item i /\ forall f, i <> Filler f) items ->
  (forall i s, In i items -> stands_for symbols i s -> In s symbols) ->
  exists l, parse_tok symbols compose (system_text items) = Ok (Chemsys l)
  /\ forall n, In n l <-> exists cs, choice symbols items cs /\ NoDup cs /\ names (map string_of_list_ascii cs) n.
Proof. exact chemsys_spec. Qed.
Print Assumptions C127_system.

Theorem C127_system_error : forall symbols compose items cs s, 2 <= length items -> Forall (fun i => wf_item i /\ forall f, i <> Filler f) items ->
  choice symbols items cs -> NoDup cs -> In s cs -> ~ In s symbols -> parse_tok symbols compose (system_text items) = Err ValueError.
Proof. exact chemsys_error. Qed.
Print Assumptions C127_system_error.

(* A formula asks for the reduced formulas in which the wild cards stand for different
   elements that are not given. Missing: formulas with more than one list of alternatives. *)
Theorem C127_formula_partial : forall symbols compose items, Forall wf_item items -> length (groups items) <= 1 ->
  (forall cs, choice symbols items cs -> exists els r, compose (List.concat cs) = Ok (els, r) /\ NoDup els /\ (forall e, In e els -> In e symbols)
     /\ forall e, In e els <-> In e (filled items cs) \/ In e (given items)) ->
  exists l, parse_tok symbols compose (formula_text items) = Ok (Formulas l) /\ NoDup l
  /\ forall x, In x l <-> exists cs els, choice symbols items cs /\ NoDup (filled items cs) /\ (forall e, In e (filled items cs) -> ~ In e (given items)) /\ compose (List.concat cs) = Ok (els, x).
Proof. exact formula_spec. Qed.
Print Assumptions C127_formula_partial.

(* {Fe,Mn}2{O,S}3 is read with the one list Fe, Mn}2{O, S and refused. *)
Theorem C127_groups_refuted : forall symbols compose, (forall t, In "{"%char t -> compose t = Err ValueError) -> (forall s, In s (map T ["Fe"; "Mn"; "O"; "S"]%string) -> In s symbols) ->
  compose (T "Fe3") = Ok ([T "Fe"], T "Fe") ->
  let items := [OneOf [T "Fe"; T "Mn"]; Filler (T "2"); OneOf [T "O"; T "S"]; Filler (T "3")] in
  Forall wf_item items /\ formula_text items = T "{Fe,Mn}2{O,S}3" /\ parse_tok symbols compose (formula_text items) = Err ValueError.
Proof. exact greedy_witness. Qed.
Print Assumptions C127_groups_refuted.

(* Words with blanks between them mean any of them. *)
Theorem C127_words : forall symbols compose ws, Forall word ws ->
  parse_criteria symbols compose (join_with " "%char ws)
  = match ws with [w] => parse_tok symbols compose w | _ => bind (mapM (parse_tok symbols compose) ws) (fun l => Ok (AnyOf l)) end.
Proof. exact words_spec. Qed.
Print Assumptions C127_words.

Example C127_example : crit "mp-1234" = Ok (TaskId (T "mp-1234"))
  /\ crit "Li-{Fe,Mn}-O" = Ok (Chemsys ["Fe-Li-O"; "Li-Mn-O"]%string)
  /\ crit "*-O" = Ok (Chemsys ["H-O"; "O-S"; "Li-O"; "Mn-O"; "Fe-O"]%string)
  /\ crit "*2O3" = Ok (Formulas (map T ["H2O3"; "S2O3"; "Li2O3"; "Mn2O3"; "Fe2O3"]%string))
  /\ crit "{Fe,Mn}(OH)2" = Ok (Formulas (map T ["Fe(OH)2"; "Mn(OH)2"]%string))
  /\ crit "mp-1234 FeO" = Ok (AnyOf [TaskId (T "mp-1234"); Formulas [T "FeO"]])
  /\ crit "Xx-O" = Err ValueError /\ crit "" = Ok (AnyOf []) /\ crit "{Fe,Mn}2{O,S}3" = Err ValueError.
Proof. vm_compute. repeat split. Qed.
(* The hypotheses of C127_formula_partial for a wild card and two given elements. *)
Example C127_hypotheses : let items := [Wild; Filler (T "("); Sym (T "O"); Sym (T "H"); Filler (T ")2")] in
  Forall wf_item items /\ length (groups items) <= 1 /\ formula_text items = T "*(OH)2"
  /\ (exists cs, choice some_symbols items cs /\ filled items cs = [T "Mn"] /\ given items = [T "O"; T "H"] /\ toy (List.concat cs) = Ok ([T "Mn"; T "O"; T "H"], T "Mn(OH)2"))
  /\ ~ In (T "O(OH)2") (match crit "*(OH)2" with Ok (Formulas l) => l | _ => [] end).
Proof.
  split; [|split; [cbn; lia|split; [reflexivity|split]]].
  - apply Forall_cons; [exact I|]. apply Forall_cons; [split; [discriminate|intros d [<-|[]]; vm_compute; tauto]|].
    apply Forall_cons; [exists "O"%char, []; split; [reflexivity|split; [vm_compute; tauto|intros d []]]|].
    apply Forall_cons; [exists "H"%char, []; split; [reflexivity|split; [vm_compute; tauto|intros d []]]|].
    apply Forall_cons; [split; [discriminate|intros d [<-|[<-|[]]]; vm_compute; tauto]|]. apply Forall_nil.
  - exists [T "Mn"; T "("; T "O"; T "H"; T ")2"]. split; [repeat constructor; vm_compute; tauto|]. repeat split.
  - vm_compute. intros H. repeat (destruct H as [H|H]; [discriminate|]). exact H.
Qed.
