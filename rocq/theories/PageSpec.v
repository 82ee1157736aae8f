(** What is claimed of pages. *)
From stdpp Require Import sorting.
From Verif Require Import Base PageModel.

(** The dictionary order of keys. *)
Inductive lex : key -> key -> Prop :=
| Lex_end x l : lex [] (x :: l)
| Lex_byte x y l l' : (x < y)%N -> lex (x :: l) (y :: l')
| Lex_same x l l' : lex l l' -> lex (x :: l) (x :: l').
Definition before (o : order) (a b : key) : Prop :=
  match o with Ascending => lex a b | Descending => lex b a end.

(** [l] has each entry of [m] meeting [f] and after [start] once, in order, and nothing else. *)
Definition in_order {V} (o : order) (l : list (key * V)) : Prop :=
  StronglySorted (before o) (map fst l).
Definition after (o : order) (start : option key) (k : key) : Prop :=
  match start with Some s => before o s k | None => True end.
Definition listing {V} (o : order) (f : V -> bool) (start : option key) (m : gmap key V)
  (l : list (key * V)) : Prop :=
  in_order o l /\
  forall k v, (k, v) ∈ l <-> m !! k = Some v /\ f v = true /\ after o start k.
Definition anything {V} (_ : V) : bool := true.
