(** Specification vocabulary for cw20-stake-reward-distributor. *)
From Verif Require Import Base Exec Plain StoreModel DistModel.

Notation dlog := (log dstate dmsg dsub).
Notation devent := (event dstate dmsg dsub).

Definition dreached (b : block) (s : dstate) (l : dlog) : Prop :=
  exists b0 owner staking token rate valid s0,
    0 <= height b0 /\ d_instantiate b0 owner staking token rate valid = Ok s0 /\
    leads d_handle b0 s0 b s l.

(** Calls that are not interventions of the owner. *)
Definition hands_off (e : devent) : bool :=
  match e with
  | ECall _ _ _ (DUpdateConfig _ _ _ _) _ _ | ECall _ _ _ DWithdraw _ _ => false
  | _ => true
  end.
(** No token arrives. *)
Definition no_gift (e : devent) : bool :=
  match e with ECall _ _ _ (DDonate _ _) _ _ => false | _ => true end.

(** Tokens [t] sent to the staking contract [k] as rewards; transferred out; received. *)
Definition fund_of (t k : addr) (x : dsub) : Z :=
  match x with DFund t' k' n => if (t' =? t)%N && (k' =? k)%N then n else 0 | _ => 0 end.
Definition out_of (t : addr) (x : dsub) : Z :=
  match x with DFund t' _ n | DTransfer t' _ n => if (t' =? t)%N then n else 0 end.
Definition ev_sum (f : dsub -> Z) (e : devent) : Z :=
  match e with ECall _ _ _ _ _ subs => lsum f subs | _ => 0 end.
Definition forwarded (t k : addr) (l : dlog) : Z := lsum (ev_sum (fund_of t k)) l.
Definition spent (t : addr) (l : dlog) : Z := lsum (ev_sum (out_of t)) l.
Definition ev_gift (t : addr) (e : devent) : Z :=
  match e with ECall _ _ _ (DDonate t' n) _ _ => if (t' =? t)%N then n else 0 | _ => 0 end.
Definition received (t : addr) (l : dlog) : Z := lsum (ev_gift t) l.

(** What is due in block [b]: the rate for every block since the last payment, as far as
    the balance goes. *)
Definition due_at (s : dstate) (b : block) : Z :=
  Z.min (d_bal s (d_token s)) (d_rate s * (height b - d_last s)).
