(* Vocabulary for C127: what a criteria text is meant to ask for. *)
From Coq Require Import Ascii String.
From Verif Require Import Prelude StrModel EntryDbModel EntryDbSpec CritModel.
Open Scope list_scope.
Open Scope nat_scope.

(* One item of a chemical system or formula: a wild card, a list of alternatives, a
   symbol, or the numbers and parentheses between symbols. *)
Inductive item := Wild | OneOf (l : list text) | Sym (s : text) | Filler (s : text).

Definition uppers : text := list_ascii_of_string "ABCDEFGHIJKLMNOPQRSTUVWXYZ".
Definition lowers : text := list_ascii_of_string "abcdefghijklmnopqrstuvwxyz".
Definition fillers : text := list_ascii_of_string "0123456789.()[]".
Definition digit_chars : text := list_ascii_of_string "0123456789".
Definition id_chars : text := uppers ++ lowers ++ digit_chars ++ ["_"%char].
(* A capital and small letters. *)
Definition symbol_text (s : text) : Prop := exists c r, s = c :: r /\ In c uppers /\ (forall d, In d r -> In d lowers).
Definition wf_item (i : item) : Prop :=
  match i with
  | Wild => True
  | OneOf l => l <> [] /\ Forall symbol_text l
  | Sym s => symbol_text s
  | Filler s => s <> [] /\ forall d, In d s -> In d fillers
  end.

Fixpoint join_with (sep : ascii) (l : list text) : text :=
  match l with
  | [] => []
  | [x] => x
  | x :: r => x ++ sep :: join_with sep r
  end.
(* How an item is written. *)
Definition written (i : item) : text :=
  match i with
  | Wild => ["*"%char]
  | OneOf l => "{"%char :: join_with ","%char l ++ ["}"%char]
  | Sym s | Filler s => s
  end.
(* What may stand for it. *)
Definition stands_for (symbols : list text) (i : item) (s : text) : Prop :=
  match i with
  | Wild => In s symbols
  | OneOf l => In s l
  | Sym x | Filler x => s = x
  end.
Definition choice (symbols : list text) (items : list item) (cs : list text) : Prop := Forall2 (stands_for symbols) items cs.

(* A chemical system with dashes between its items. *)
Definition system_text (items : list item) : text := join_with "-"%char (map written items).
Definition formula_text (items : list item) : text := List.concat (map written items).

(* The elements that were chosen for wild cards and alternatives, and the given ones. *)
Fixpoint filled (items : list item) (cs : list text) : list text :=
  match items, cs with
  | (Wild | OneOf _) :: r, c :: cs' => c :: filled r cs'
  | _ :: r, _ :: cs' => filled r cs'
  | _, _ => []
  end.
Definition given (items : list item) : list text := flat_map (fun i => match i with Sym s => [s] | _ => [] end) items.
Definition groups (items : list item) : list item := filter (fun i => match i with OneOf _ => true | _ => false end) items.

(* A word of printable characters without blanks. *)
Definition word (w : text) : Prop := w <> [] /\ forall c, In c w -> 33 <= nat_of_ascii c <= 126.
