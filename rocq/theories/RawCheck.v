(* Witnesses for C130. *)
From Coq Require Import String Ascii QArith Sorted.
From Verif Require Import Prelude NumQ RawModel RawSpec.
Open Scope list_scope.
Open Scope nat_scope.

(* Two documents of iron oxides, the second one deprecated, and one of a metastable
   oxide with a primitive cell of two atoms. *)
Definition pots (id : string) : val :=
  if String.eqb id "c" then Vdict [] else Vdict [("functional", Vtext "PBE"); ("labels", Vlist [Vtext "Fe_pv"; Vtext "O"])]%string.
Definition fe_doc (id : string) (dep : val) (energy hull : Q) (s : nat) : document :=
  [("_id", Vtext id); ("task_id", Vtext id); ("final_energy", Vnum energy); ("unit_cell_formula", Vtext "FeO"); ("deprecated", dep);
   ("run_type", Vtext "GGA+U"); ("is_hubbard", Vflag true); ("pseudo_potential", pots id); ("hubbards", Vnone);
   ("potcar_symbols", Vnone); ("oxide_type", Vtext "oxide"); ("e_above_hull", Vnum hull); ("structure", Vstruct s); ("band_gap", Vnum (3 # 2));
   ("entries", Vdict [("GGA+U", Ventry s)])]%string.
Definition docs : list document :=
  [fe_doc "a" (Vflag false) (-10 # 1) (1 # 20) 1; fe_doc "b" (Vflag true) (-11 # 1) 0 2; fe_doc "c" Vnone (-12 # 1) (1 # 50) 3].
Definition doc_query (u : unit) : list document := docs.
Definition show_text (v : val) : string := match v with Vtext s => s | _ => "?" end.
Definition atoms (s : nat) : nat := if Nat.ltb s 10 then 2 else 8.
Definition larger (s : nat) : nat := s + 10.
Definition decode_plain (v : val) : result raw_entry :=
  match v with
  | Ventry n => Ok {| ent_cell := Vstruct n; ent_energy := (-7 # 1); ent_params := []; ent_data := [("oxide_type"%string, Vtext "oxide")]; ent_id := Vtext "x" |}
  | _ => Err TypeError
  end.
Definition run_get (inc : option string) (pd : option (list string)) (premade conv sort : bool) : result (list raw_entry) :=
  get_entries unit doc_query show_text atoms larger decode_plain (fun l => l) (Ok tt) true inc pd premade conv sort.
Definition short (r : result (list raw_entry)) : result (list (val * val * Q)) :=
  match r with Ok l => Ok (map (fun e => (ent_id e, ent_cell e, ent_energy e)) l) | Err e => Err e end.

Lemma docs_once : forall d, In d docs -> named_once d.
Proof.
  intros d I. assert (E : map fst d = map fst (fe_doc "a" Vnone 0 0 0)) by (destruct I as [<-|[<-|[<-|[]]]]; reflexivity).
  unfold named_once. rewrite E. cbn. repeat constructor; cbn; intuition discriminate.
Qed.
Lemma docs_complete : forall w, incl w ["e_above_hull"; "band_gap"]%string -> Forall (complete w) docs.
Proof.
  intros w IW. apply Forall_forall. intros d I. split.
  - exact (docs_once d I).
  - destruct I as [<-|[<-|[<-|[]]]]; eexists; right; right; left; reflexivity.
  - destruct I as [<-|[<-|[<-|[]]]]; eexists; right; right; right; left; reflexivity.
  - destruct I as [<-|[<-|[<-|[]]]]; eexists; right; left; reflexivity.
  - intros k K. destruct I as [<-|[<-|[<-|[]]]]; cbn in K; decompose [or] K; subst; try contradiction; eexists; cbn; eauto 20.
  - destruct I as [<-|[<-|[<-|[]]]].
    1, 2: exists (Vtext "PBE"), [Vtext "Fe_pv"; Vtext "O"], [("functional", Vtext "PBE"); ("labels", Vlist [Vtext "Fe_pv"; Vtext "O"])]%string;
      (split; [do 7 right; left; reflexivity|]); (split; [cbn; repeat constructor; cbn; intuition discriminate|]); left; cbn; eauto.
    exists Vnone, [], []. split; [do 7 right; left; reflexivity|]. split; [constructor|]. right. split; [reflexivity|]. intros v [].
  - intros k K. apply IW in K. destruct I as [<-|[<-|[<-|[]]]]; destruct K as [<-|[<-|[]]]; eexists; cbn; eauto 20.
Qed.
Lemma docs_cells : forall c, Forall (has_cell atoms (Final c)) docs.
Proof.
  intros c. apply Forall_forall. intros d I. right. destruct I as [<-|[<-|[<-|[]]]]; eexists; (split; [cbn; eauto 20|cbn; lia]).
Qed.
Lemma docs_hull : Forall (fun d => exists q, carries d "e_above_hull" (Vnum q)) docs.
Proof. apply Forall_forall. intros d I. destruct I as [<-|[<-|[<-|[]]]]; eexists; cbn; eauto 20. Qed.

(* Entries that are already made do not get the property that orders them. *)
Lemma premade_unsorted : exists docs' : unit -> list document,
  Forall (fun d => named_once d /\ (exists n, stored d n) /\ exists q, carries d "e_above_hull" (Vnum q)) (docs' tt)
  /\ get_entries unit docs' show_text atoms larger decode_plain (fun l => l) (Ok tt) true None None true false true = Err KeyError.
Proof.
  exists (fun _ => [fe_doc "a" (Vflag false) (-10 # 1) (1 # 20) 1]). split; [|vm_compute; reflexivity].
  constructor; [|constructor]. split; [apply docs_once; left; reflexivity|].
  split; [exists 1|eexists; cbn; eauto 20]. eexists. split; [cbn; eauto 20|]. split; [cbn; repeat constructor; cbn; intuition discriminate|].
  right. split; [left; reflexivity|]. intros x [E|[]]. discriminate.
Qed.
(* A document without entries stops the whole query. *)
Lemma premade_empty : exists docs' : unit -> list document,
  In (fe_doc "a" (Vflag false) (-10 # 1) (1 # 20) 1) (docs' tt) /\ Forall named_once (docs' tt)
  /\ get_entries unit docs' show_text atoms larger decode_plain (fun l => l) (Ok tt) true None None true false false = Err AttributeError.
Proof.
  exists (fun _ => [fe_doc "a" (Vflag false) (-10 # 1) (1 # 20) 1; [("_id", Vtext "z"); ("entries", Vnone)]%string]).
  split; [left; reflexivity|]. split.
  - constructor; [apply docs_once; left; reflexivity|]. constructor; [cbv; repeat constructor; cbn; intuition discriminate|constructor].
  - vm_compute. reflexivity.
Qed.
(* The caller's list grows. *)
Lemma caller_grows : exists l, callers_list true (Some l) <> Some l.
Proof. exists ["band_gap"%string]. vm_compute. discriminate. Qed.
