(* Model of parse_criteria (entries/utils.py:438-505), the text form of a database query. Texts are
   lists of ASCII characters; \w, \d and white space are restricted to ASCII. *)
From Coq Require Import Ascii String.
From Verif Require Import Prelude UtilsModel StrModel EntryDbModel.
Open Scope list_scope.
Open Scope nat_scope.

(* \w *)
Definition word_char (c : ascii) : bool := is_digit c || is_upper c || is_lower c || is_char 95 c.

(* s.split(): the runs of characters that are not white space *)
Fixpoint split_fuel (fuel : nat) (s : text) : list text :=
  match fuel with
  | 0 => []
  | S n =>
      match snd (span is_space s) with
      | [] => []
      | r => let (w, rest) := span (fun c => negb (is_space c)) r in w :: split_fuel n rest
      end
  end.
Definition split_space (s : text) : list text := split_fuel (S (length s)) s.

(* t.split(c) for one character *)
Fixpoint split_char (n : nat) (t : text) : list text :=
  match t with
  | [] => [[]]
  | c :: r => if is_char n c then [] :: split_char n r
              else match split_char n r with [] => [[c]] | x :: l => (c :: x) :: l end
  end.
(* what is before and after the last character n, for the greedy .* *)
Fixpoint split_last (n : nat) (t : text) : option (text * text) :=
  match t with
  | [] => None
  | c :: r => match split_last n r with
              | Some (a, b) => Some (c :: a, b)
              | None => if is_char n c then Some ([], r) else None
              end
  end.
(* an opening brace, anything, the last closing brace: the inside and the rest *)
Definition braces (t : text) : option (text * text) :=
  match t with c :: r => if is_char 123 c then split_last 125 r else None | [] => None end.

(* itertools.product *)
Fixpoint product {A} (ls : list (list A)) : list (list A) :=
  match ls with
  | [] => [[]]
  | l :: r => flat_map (fun x => map (cons x) (product r)) l
  end.

Definition text_eqb (a b : text) : bool := if list_eq_dec ascii_dec a b then true else false.

Inductive query :=
| TaskId (t : text)                                (* {"task_id": t} *)
| Chemsys (l : list string)                        (* {"chemsys": {"$in": l}} *)
| Formulas (l : list text)                         (* {"pretty_formula": {"$in": l}} *)
| AnyOf (l : list query).                          (* {"$or": l} *)

Section Crit.
Variable symbols : list text.                      (* the symbols of Element, in its order *)
(* Composition(text): the symbols of its elements and its reduced formula *)
Variable compose : text -> result (list text * text).

(* Element(s).symbol *)
Definition element (s : text) : result text := if memb text_eqb s symbols then Ok s else Err ValueError.

(* 462-468 parse_sym; s.strip() changes nothing, as the tokens have no white space *)
Definition parse_sym (sym : text) : list text :=
  if text_eqb sym ["*"%char] then symbols
  else match braces sym with
       | Some (inner, _) => split_char 44 inner
       | None => [sym]
       end.

(* 471 re.match(r"\w+-\d+", t); \w does not match the dash, so the longest run is the only one *)
Definition task_like (t : text) : bool :=
  match span word_char t with
  | (_ :: _, d :: c :: _) => is_char 45 d && is_digit c
  | _ => false
  end.

(* 476-480; set(cs) has as many elements as cs *)
Definition chemsys_of (cs : list text) : result (list string) :=
  if nodupb text_eqb cs
  then bind (mapM element cs) (fun l => Ok [join_dash (sort_str (map string_of_list_ascii l))])
  else Ok [].

(* 485 re.findall: the first alternative that matches at a position, otherwise the next
   position. Only what decides between the two lists is kept: None for a wild card, the
   symbol for an explicit element. The digits behind belong to the match. *)
Fixpoint findall (fuel : nat) (t : text) : list (option text) :=
  match fuel with
  | 0 => []
  | S n =>
      match t with
      | [] => []
      | c :: r =>
          if is_char 42 c then None :: findall n (snd (span num_char r))
          else match braces t with
               | Some (_, rest) => None :: findall n (snd (span num_char rest))
               | None =>
                   if is_upper c
                   then let (low, rest) := span is_lower r in Some (c :: low) :: findall n (snd (span num_char rest))
                   else findall n r
               end
      end
  end.
(* 485-491: the number of wild cards and the explicit elements. *)
Definition wild_cards (l : list (option text)) : nat := length (filter (fun x => match x with None => true | _ => false end) l).
Definition explicit (l : list (option text)) : list text := flat_map (fun x => match x with Some s => [s] | None => [] end) l.
(* len(set(l)) *)
Fixpoint distinct (l : list text) : nat :=
  match l with [] => 0 | x :: r => if memb text_eqb x r then distinct r else S (distinct r) end.

(* 493-494 re.split(r"(\*|\{.*\})", t) without the empty parts *)
Fixpoint split_parts (fuel : nat) (cur t : text) : list text :=
  let flush := match cur with [] => [] | _ => [rev cur] end in
  match fuel with
  | 0 => flush
  | S n =>
      match t with
      | [] => flush
      | c :: r =>
          if is_char 42 c then flush ++ [c] :: split_parts n [] r
          else match braces t with
               | Some (inner, rest) => flush ++ (c :: inner ++ ["}"%char]) :: split_parts n [] rest
               | None => split_parts n (c :: cur) r
               end
      end
  end.
Definition parts_of (t : text) : list text := split_parts (length t) [] t.

(* 495-502 *)
Definition add_text (x : text) (l : list text) : list text := if memb text_eqb x l then l else l ++ [x].
Fixpoint formulas_loop (n : nat) (fs : list (list text)) (acc : list text) : result (list text) :=
  match fs with
  | [] => Ok acc
  | f :: r =>
      bind (compose (List.concat f)) (fun c =>
      if Nat.eqb (length (fst c)) n
      then bind (mapM element (fst c)) (fun _ => formulas_loop n r (add_text (snd c) acc))
      else formulas_loop n r acc)
  end.

(* 470-503 parse_tok *)
Definition parse_tok (t : text) : result query :=
  if task_like t then Ok (TaskId t)
  else if existsb (is_char 45) t
  then bind (mapM chemsys_of (product (map parse_sym (split_char 45 t)))) (fun l => Ok (Chemsys (List.concat l)))
  else
    let found := findall (length t) t in
    bind (formulas_loop (wild_cards found + distinct (explicit found)) (product (map parse_sym (parts_of t))) [])
         (fun l => Ok (Formulas l)).

(* 460, 503-505 *)
Definition parse_criteria (s : text) : result query :=
  match split_space s with
  | [t] => parse_tok t
  | ts => bind (mapM parse_tok ts) (fun l => Ok (AnyOf l))
  end.
End Crit.
