(** Concrete upgrades of pre-propose modules. *)
From Verif Require Import Base HooksModel PreModel PreMigModel PreMigSpec.

(** A members-only module of version 2.4.2 for DAO 9 and proposal module 30, with
    a deposit of 100 of token 70, one deposit taken from 1, and a hook. *)
Definition ex_dep : deposit := Deposit (Cw20 70) 100 OnlyPassed.
Definition ex_rest : prest :=
  PRest Plain 30 9 {[1 := (Some ex_dep, 1%N)]} [40%N] 6 ∅ ∅ ∅ 0.
Definition ex_old (v : ver) (open : bool) : pstore :=
  PStore (Some v)
    (SlotOld (Config241 (Some (Deposit241 (Cw20241 70) 100 OnlyPassed241)) open)) ex_rest.
Definition ex_pol : submission := SSpecific false [5%N] [3%N].
Definition ex_new (p : submission) : pstore :=
  PStore (Some (Ver 2 5 0 false)) (SlotNew (Some ex_dep) p) ex_rest.
