(* Model of the colours of network/visualize.py. *)
From Coq Require Import String Ascii.
From Verif Require Import Prelude UtilsModel EntryDbModel LoadModel.
Open Scope list_scope.
Open Scope nat_scope.

(* np.unique of a list of texts: sorted, each one once *)
Fixpoint squeeze (l : list string) : list string :=
  match l with
  | x :: (y :: _) as l' => if String.eqb x y then squeeze l' else x :: squeeze l'
  | _ => l
  end.
Definition unique_str (l : list string) : list string := squeeze (sort_str l).

(* visualize.py:45: {key: i for i, key in enumerate(domain_unique)}; a later key replaces
   an earlier equal one *)
Definition hash_table (l : list string) : list (string * nat) := combine l (seq 0 (List.length l)).
Definition table_get (t : list (string * nat)) (x : string) : result nat :=
  match find (fun p => String.eqb (fst p) x) (rev t) with Some p => Ok (snd p) | None => Err KeyError end.

Section Vis.
Variable C : Type.
(* matplotlib.cm.get_cmap(palette, lut=n) applied to the whole number i: the i-th of the n
   colours of the palette *)
Variable cmap : nat -> nat -> C.

(* visualize.py:40-51 _get_cmap_string *)
Definition cmap_string (domain : list string) (x : string) : result C :=
  let u := unique_str domain in
  match table_get (hash_table u) x with Ok i => Ok (cmap (List.length u) i) | Err e => Err e end.

(* visualize.py:26-28: the colours handed to mpl_draw, one for each node in the order of
   g.nodes(); the drawing itself is not modelled. [names]: e.chemsys of the nodes. *)
Fixpoint colors_of (domain names : list string) : result (list C) :=
  match names with
  | [] => Ok []
  | x :: l => match cmap_string domain x with
              | Err e => Err e
              | Ok c => match colors_of domain l with Err e => Err e | Ok cs => Ok (c :: cs) end
              end
  end.
Definition vertex_colors {E} (nodes : list (nentry E)) : result (list C) :=
  let names := map (ne_chemsys E) nodes in colors_of (sort_str names) names.
End Vis.
