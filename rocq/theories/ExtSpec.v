(** Specification vocabulary for cw20-stake-external-rewards. *)
From Verif Require Import Base Exec Plain StoreModel StakeModel StakeSpec ExtModel.

Notation xlog := (log xstate xmsg xsub).
Notation xevent := (event xstate xmsg xsub).

(** The hook is installed whenever stakes change, once rewards have been funded. *)
Definition stake_change (m : kmsg) : bool :=
  match m with KReceive _ _ stake => stake | KUnstake _ => true | _ => false end.
Definition hooked (e : xevent) : bool :=
  match e with
  | ECall pre _ _ (XStake m) _ _ =>
      negb (stake_change m) || existsb (N.eqb (x_me pre)) (k_hooks (x_stake pre)) ||
      (r_fin (x_rew pre) =? 0)
  | _ => true
  end.
(** A rewards contract made for a staking contract with any past; after the joint history
    [l], seen in block [b], between two transactions. *)
Definition xran (b : block) (s : xstate) (l : xlog) : Prop :=
  exists b0 k0 lk me staking owner token dur s0,
    0 <= height b0 /\ 0 <= dur <= U64_MAX /\ kreached b0 k0 lk /\
    x_instantiate b0 k0 me staking owner token dur = Ok s0 /\
    leads x_handle b0 s0 b s l /\ forallb hooked l = true.
Definition xreached (b : block) (s : xstate) (l : xlog) : Prop := xran b s l /\ x_due s = [].

(** Rewards brought by the owner; reward tokens sent without a call. *)
Definition ev_funded (e : xevent) : Z :=
  match e with
  | ECall _ _ _ (XRew (RFund funds)) _ _ => lsum snd funds
  | ECall _ _ _ (XRew (RReceive _ n)) _ _ => n
  | _ => 0
  end.
Definition funded (l : xlog) : Z := lsum ev_funded l.
Definition ev_given (e : xevent) : Z :=
  match e with ECall _ _ _ (XDonate n) _ _ => n | _ => 0 end.
Definition given (l : xlog) : Z := lsum ev_given l.
(** Rewards paid out: to [a], to anybody. *)
Definition pay_to (a : addr) (x : xsub) : Z :=
  match x with XPay to n => if (to =? a)%N then n else 0 | _ => 0 end.
Definition pay (x : xsub) : Z := match x with XPay _ n => n | _ => 0 end.
Definition ev_paid (e : xevent) : Z :=
  match e with ECall _ _ _ _ _ subs => lsum pay subs | _ => 0 end.
Definition paid (l : xlog) : Z := lsum ev_paid l.

(** What the contract reports as claimable; nothing if the query fails. *)
Definition claimable (s : xstate) (b : block) (a : addr) : Z :=
  match x_pending s b a with Ok n => n | Err _ => 0 end.
(** Rewards the schedule has yet to hand out after block [b]. *)
Definition to_come (s : xstate) (b : block) : Z :=
  r_rate (x_rew s) * (r_fin (x_rew s) - Z.min (height b) (r_fin (x_rew s))).

(** The terms of the rewards: end and rate of the running period, length of the next. *)
Definition terms (s : xstate) : Z * Z * Z := (r_fin (x_rew s), r_rate (x_rew s), r_dur (x_rew s)).
(** On whose behalf a call is made: funding in cw20 tokens comes through the token. *)
Definition acting (sender : addr) (m : xmsg) : addr :=
  match m with XRew (RReceive from _) => from | _ => sender end.
