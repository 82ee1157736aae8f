(** What is claimed of denominations. *)
From stdpp Require Import gmap strings.
From Verif Require Import Base DenModel.

(** The pattern of the Cosmos SDK, [a-zA-Z][a-zA-Z0-9/:._-]{2,127}, by listing characters. *)
Definition small : string := "abcdefghijklmnopqrstuvwxyz".
Definition capital : string := "ABCDEFGHIJKLMNOPQRSTUVWXYZ".
Definition digits : string := "0123456789".
Definition marks : string := "/:._-".
Fixpoint occurs (c : Ascii.ascii) (s : string) : Prop :=
  match s with EmptyString => False | String d s => c = d \/ occurs c s end.
Fixpoint chars (s : string) : list Ascii.ascii :=
  match s with EmptyString => [] | String c s => c :: chars s end.
Definition letter (c : Ascii.ascii) : Prop := occurs c (small ++ capital).
Definition symbol (c : Ascii.ascii) : Prop := occurs c (small ++ capital ++ digits ++ marks).
Definition sdk_denom (s : string) : Prop :=
  exists c l, chars s = c :: l /\ letter c /\ Forall symbol l /\
    (2 <= length l <= 127)%nat.
