(** Specification vocabulary for cw-vesting. *)
From Verif Require Import Base Exec Plain StoreModel WormModel VestModel.

Notation vlog := (log vstate vmsg vsub).
Notation vevent := (event vstate vmsg vsub).

(** Integers of the instantiate message are in range; the chain's unbonding period is
    not longer than the configured one. *)
Definition fits_vinit (i : vinit) : bool :=
  fits128 (vi_total i) && (0 <=? vi_dur i) && (0 <=? default 0 (vi_start i)) &&
  (0 <=? vi_chain_ub i) && (vi_chain_ub i <=? vi_ub i).
(** A vest instantiated with [i] some time ago, after the history [l], in block [b]. *)
Definition vreached (i : vinit) (b : block) (s : vstate) (l : vlog) : Prop :=
  exists b0 s0 subs0,
    fits_vinit i = true /\ 0 <= time b0 /\
    v_instantiate b0 i = Ok (s0, subs0) /\ leads v_handle b0 s0 b s l.

(** Paid to the recipient, and to the owner. *)
Definition to_vestee (x : vsub) : Z := match x with VPayVestee _ n => n | _ => 0 end.
Definition to_owner (x : vsub) : Z := match x with VPayOwner _ n => n | _ => 0 end.
Definition ev_subs (f : vsub -> Z) (e : vevent) : Z :=
  match e with ECall _ _ _ _ _ subs => lsum f subs | _ => 0 end.
Definition paid_vestee (l : vlog) : Z := lsum (ev_subs to_vestee) l.
Definition paid_owner (l : vlog) : Z := lsum (ev_subs to_owner) l.
(** Brought in to fund the vest; given without being asked; slashed by the chain while
    bonded; slashed by the chain while unbonding. *)
Definition ev_msgs (f : vmsg -> Z) (e : vevent) : Z :=
  match e with ECall _ _ _ m _ _ => f m | _ => 0 end.
Definition brought (i : vinit) (l : vlog) : Z :=
  match vi_denom i with DNative _ => vi_total i | DCw20 _ => 0 end +
  lsum (ev_msgs (fun m => match m with VReceive n => n | _ => 0 end)) l.
Definition donated (l : vlog) : Z :=
  lsum (ev_msgs (fun m => match m with VDonate n => n | _ => 0 end)) l.
Definition slashed_bonded (l : vlog) : Z :=
  lsum (ev_msgs (fun m => match m with VSlash _ n => n | _ => 0 end)) l.
Definition slashed_unbonding (l : vlog) : Z :=
  lsum (ev_msgs (fun m => match m with VSlashUnb _ n => n | _ => 0 end)) l.
(** No slash of unbonding tokens happened or was registered. *)
Definition no_unb (e : vevent) : bool :=
  match e with
  | ECall _ _ _ (VSlashUnb _ _) _ _ | ECall _ _ _ (VRegisterSlash _ _ _ true) _ _ => false
  | _ => true
  end.
(** The chain's view in block [b]: the contract's balance; tokens bonded; unbonding. *)
Definition holds (s : vstate) (b : block) : Z := ch_held (ch_settle (vs_chain s) (sec (time b))).
Definition bonded (s : vstate) : Z := msum (fun _ n => n) (ch_bonded (vs_chain s)).
Definition unbonding (s : vstate) (b : block) : Z :=
  lsum e_amt (ch_unb (ch_settle (vs_chain s) (sec (time b)))).
(** What the contract's books say. *)
Definition booked_staked (s : vstate) (b : block) : Z := total_staked (vs_tr s) (sec (time b)).
Definition vested_at (s : vstate) (b : block) : Z := vested (vs_vest s) (time b).
Definition slashes (s : vstate) : Z := ve_slashed (vs_vest s).
Definition is_canceled (s : vstate) : Prop := exists ow, ve_status (vs_vest s) = Canceled ow.
