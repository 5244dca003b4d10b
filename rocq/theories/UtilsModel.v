(* Model of utils/funcs.py and utils/ray.py. *)
From Verif Require Import Prelude.

Section Utils.
Context {A : Type}.

(* itertools.combinations(l, k), used at utils/funcs.py:27 and in many other
   places: k-element sub-sequences in lexicographic order of positions. *)
Fixpoint combinations (l : list A) (k : nat) {struct l} : list (list A) :=
  match k with
  | 0 => [[]]
  | S k' =>
      match l with
      | [] => []
      | x :: xs => map (cons x) (combinations xs k') ++ combinations xs k
      end
  end.

(* utils/funcs.py:16-27 limited_powerset.
   chain.from_iterable([combinations(iterable, num) for num in range(1, max_size+1)]).
   Simplification: the argument is a re-iterable list, not a one-shot iterator;
   max_size is a natural number (a negative one also gives an empty range). *)
Definition limited_powerset (l : list A) (max_size : nat) : list (list A) :=
  concat (map (combinations l) (seq 1 max_size)).

(* One round of zip_longest over n references to one iterator
   (utils/funcs.py:39-40): n slots, the slots after exhaustion hold fillvalue. *)
Fixpoint round (n : nat) (fill : A) (l : list A) : list A * list A :=
  match n with
  | 0 => ([], l)
  | S n' =>
      match l with
      | [] => let (slots, rest) := round n' fill [] in (fill :: slots, rest)
      | x :: xs => let (slots, rest) := round n' fill xs in (x :: slots, rest)
      end
  end.

Fixpoint grouper_loop (fuel n : nat) (fill : A) (l : list A) : result (list (list A)) :=
  match l with
  | [] => Ok []                      (* every iterator exhausted in slot 0: stop *)
  | _ =>
      match fuel with
      | 0 => Err OutOfFuel
      | S fuel' =>
          let (slots, rest) := round n fill l in
          match grouper_loop fuel' n fill rest with
          | Ok gs => Ok (slots :: gs)
          | Err e => Err e
          end
      end
  end.

(* utils/funcs.py:30-40 grouper: args = [iter(iterable)] * n;
   zip_longest( *args, fillvalue=fillvalue). With n = 0 zip_longest() has no
   iterators and yields nothing. *)
Definition grouper (l : list A) (n : nat) (fill : A) : result (list (list A)) :=
  match n with
  | 0 => Ok []
  | _ => grouper_loop (length l) n fill l
  end.
End Utils.

Section Ray.
Context {Ref V : Type}.
(* ray.wait(obj_ids) (num_returns = 1, no timeout) at the k-th call: the done
   references and the remaining ones. The schedule is arbitrary. *)
Variable wait : nat -> list Ref -> list Ref * list Ref.
Variable get : Ref -> V.                        (* ray.get *)

(* utils/ray.py:47-56 to_iterator with get_obj_ids=True:
   while obj_ids: done, obj_ids = ray.wait(obj_ids); yield done[0], ray.get(done[0]).
   The generator is modelled by the list of everything it yields. *)
Fixpoint to_iterator_ids (fuel k : nat) (obj_ids : list Ref) : result (list (Ref * V)) :=
  match obj_ids with
  | [] => Ok []
  | _ =>
      match fuel with
      | 0 => Err OutOfFuel
      | S fuel' =>
          let (done, rest) := wait k obj_ids in
          match done with
          | [] => Err IndexError                      (* done[0] *)
          | d :: _ =>
              match to_iterator_ids fuel' (S k) rest with
              | Ok out => Ok ((d, get d) :: out)
              | Err e => Err e
              end
          end
      end
  end.

(* utils/ray.py:47-56 to_iterator with get_obj_ids=False. *)
Definition to_iterator (obj_ids : list Ref) : result (list V) :=
  match to_iterator_ids (length obj_ids) 0 obj_ids with
  | Ok out => Ok (map snd out)
  | Err e => Err e
  end.
End Ray.
