(** Concrete recorded versions. *)
From Verif Require Import Base VerModel.

Definition ex_at (ma mi pa : N) (pre : string) : recorded := Recorded 1 (Version ma mi pa pre).
Definition ex_shown (r : result recorded) : string :=
  match r with Ok i => render (i_version i) | Err e => e end.
