(** Five entries, whose keys are not in the order of their length. *)
From Verif Require Import Base BaseProofs PageModel PageSpec.

Definition five : gmap key Z :=
  list_to_map [([2; 1]%N, 21); ([1]%N, 1); ([]%N, 0); ([1; 9]%N, 19); ([3]%N, 3)].
(** After the first page the entry 1 goes and 1.9.1 and 0 come. *)
Definition six : gmap key Z := <[[1; 9; 1]%N := 191]> (<[[0]%N := 100]> (delete [1]%N five)).
(** An entry is enabled when its value is odd. *)
Definition odd (v : Z) : bool := Z.odd v.
