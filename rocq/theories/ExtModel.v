(** Model of contracts/staking/cw20-stake-external-rewards/src/contract.rs joined to the
    cw20-stake contract it serves (StakeModel).

    Line numbers without a file name refer to contract.rs.

    One state holds both contracts.  The stake-change hooks that cw20-stake sends to the
    rewards contract wait in [x_due] until delivered; anything may happen between
    (other receivers of hooks may call both contracts).  A hook is sent without a
    reply, so the transaction only commits with all hooks delivered: no later block
    begins while one is waiting.  [x_held] is the rewards contract's balance of the
    reward token; a transfer out is the last thing a claim does, so the handler
    performs it.  [XDonate] is a third party moving reward tokens to the contract
    without calling it. *)
From Verif Require Import Base Exec HooksModel StoreModel StakeModel.

(** [cosmwasm_std::Uint256]. *)
Definition U256_MAX : Z := 2 ^ 256 - 1.
Definition mul256 (a b : Z) : result Z := if U256_MAX <? a * b then Err "Overflow" else Ok (a * b).
Definition add256 (a b : Z) : result Z := if U256_MAX <? a + b then Err "panic" else Ok (a + b).
Definition sub256 (a b : Z) : result Z := if a <? b then Err "Overflow" else Ok (a - b).
(** [u64] subtraction, addition. *)
Definition sub64 (a b : Z) : result Z := if a <? b then Err "panic" else Ok (a - b).
Definition add64 (a b : Z) : result Z := if U64_MAX <? a + b then Err "panic" else Ok (a + b).

(** cw20 [Denom]. *)
Inductive rdenom := RNative (d : N) | RCw20 (a : addr).

(** state.rs:8-31.  Missing items read as zero (325, 326, 353). *)
Record rstate := RState {
  r_own : own;
  r_token : rdenom;
  r_fin : Z;
  r_rate : Z;
  r_dur : Z;
  r_rpt : Z;
  r_last : Z;
  r_pend : gmap addr Z;
  r_urpt : gmap addr Z }.
Record xstate := XState {
  x_stake : kstate;
  x_rew : rstate;
  x_me : addr;
  x_staking : addr;
  x_held : Z;
  x_due : list addr;
  x_block : Z }.

Inductive rmsg :=
| RHook (staked : bool) (who : addr)
| RClaim
| RFund (funds : list (N * Z))
| RReceive (from : addr) (amount : Z)
| RUpdateDuration (n : Z)
| ROwner (act : own_action).
Inductive xmsg :=
| XStake (m : kmsg)
| XRew (m : rmsg)
| XDonate (n : Z).
Inductive xsub :=
| XPay (to : addr) (n : Z)
| XStakeSub (x : ksub).

(** 411-413 [scale_factor]. *)
Definition SCALE : Z := 10 ^ 39.

(** 32-83 [instantiate]. *)
Definition r_instantiate (owner : option addr) (token : rdenom) (dur : Z) : result rstate :=
  check! negb (dur =? 0) else "ZeroRewardDuration";
  Ok (RState (initialize_owner owner) token 0 0 dur 0 0 ∅ ∅).
(** The pair, from the moment the rewards contract exists. *)
Definition x_instantiate (b : block) (k : kstate) (me staking : addr) (owner : option addr)
    (token : rdenom) (dur : Z) : result xstate :=
  do! r <- r_instantiate owner token dur;
  Ok (XState k r me staking 0 [] (height b)).

(** 362-365 [get_last_time_reward_applicable]. *)
Definition r_until (r : rstate) (b : block) : Z := Z.min (height b) (r_fin r).

(** 367-382: queries for the current height, answered with the value at the start of
    the block. *)
Definition q_total (k : kstate) (b : block) : Z := k_total_at k b None.
Definition q_balance (k : kstate) (b : block) (a : addr) : Z := k_balance_at k b a None.

(** 319-341 [get_reward_per_token]. *)
Definition r_per_token (k : kstate) (r : rstate) (b : block) : result Z :=
  let total := q_total k b in
  let last := r_last r in
  let prev := r_rpt r in
  do! add <-
    (if total =? 0 then Ok 0
     else
       do! n <- sub64 (r_until r b) last;
       do! num <- mul256 (r_rate r * n) SCALE;
       Ok (num / total));
  add256 prev add.

(** 343-360 [get_rewards_earned]. *)
Definition r_user (r : rstate) (a : addr) : Z := default 0 (r_urpt r !! a).
Definition r_earned (k : kstate) (r : rstate) (b : block) (a : addr) (rpt : Z) : result Z :=
  do! f <- sub256 rpt (r_user r a);
  do! n <- mul256 (q_balance k b a) f;
  check! n / SCALE <=? U128_MAX else "ConversionOverflow";
  Ok (n / SCALE).

(** 297-317 [update_rewards]. *)
Definition r_pending (r : rstate) (a : addr) : Z := default 0 (r_pend r !! a).
Definition r_update (k : kstate) (r : rstate) (b : block) (a : addr) : result rstate :=
  do! rpt <- r_per_token k r b;
  do! n <- r_earned k r b a rpt;
  do! p <- add128 (r_pending r a) n;
  Ok (RState (r_own r) (r_token r) (r_fin r) (r_rate r) (r_dur r) rpt (r_until r b)
        (<[a := p]> (r_pend r)) (<[a := rpt]> (r_urpt r))).

(** 173-208 [execute_fund]. *)
Definition r_fund (k : kstate) (r : rstate) (b : block) (sender : addr) (amount : Z)
  : result rstate :=
  check! is_owner (r_own r) sender else "NotOwner";
  do! r <- r_update k r b sender;
  check! negb (height b <? r_fin r) else "RewardPeriodNotFinished";
  do! fin <- add64 (height b) (r_dur r);
  check! negb (r_dur r =? 0) else "DivideByZero";
  let rate := amount / r_dur r in
  check! negb (rate =? 0) else "RewardRateLessThenOnePerBlock";
  Ok (RState (r_own r) (r_token r) fin rate (r_dur r) (r_rpt r) (height b) (r_pend r) (r_urpt r)).

(** 384-409 [execute_update_reward_duration]. *)
Definition r_set_duration (r : rstate) (b : block) (sender : addr) (n : Z) : result rstate :=
  check! is_owner (r_own r) sender else "NotOwner";
  check! negb (height b <? r_fin r) else "RewardPeriodNotFinished";
  check! negb (n =? 0) else "ZeroRewardDuration";
  Ok (RState (r_own r) (r_token r) (r_fin r) (r_rate r) n (r_rpt r) (r_last r) (r_pend r)
        (r_urpt r)).

(** 244-263 [execute_claim]: the new state and the amount to transfer. *)
Definition r_claim (k : kstate) (r : rstate) (b : block) (sender : addr) : result (rstate * Z) :=
  do! r <- r_update k r b sender;
  let n := r_pending r sender in
  check! negb (n =? 0) else "NoRewardsClaimable";
  Ok (RState (r_own r) (r_token r) (r_fin r) (r_rate r) (r_dur r) (r_rpt r) (r_last r)
        (<[sender := 0]> (r_pend r)) (r_urpt r), n).

(** The state with the rewards contract and the balance replaced. *)
Definition x_put (s : xstate) (r : rstate) (held : Z) (due : list addr) : xstate :=
  XState (x_stake s) r (x_me s) (x_staking s) held due (x_block s).

(** 122-138 [execute], 140-155 [execute_receive], 157-171 [execute_fund_native], 210-242
    [execute_stake_changed].  The staking contract sends each hook once. *)
Definition x_rew_handle (s : xstate) (b : block) (sender : addr) (m : rmsg)
  : result (xstate * list xsub) :=
  let k := x_stake s in
  let r := x_rew s in
  match m with
  | RHook _ who =>
      check! (sender =? x_staking s)%N else "InvalidHookSender";
      check! existsb (N.eqb who) (x_due s) else "no such hook was sent";
      do! r' <- r_update k r b who;
      Ok (x_put s r' (x_held s) (remove_first who (x_due s)), [])
  | RClaim =>
      do! ' (r', n) <- r_claim k r b sender;
      check! n <=? x_held s else "insufficient funds";
      Ok (x_put s r' (x_held s - n) (x_due s), [XPay sender n])
  | RFund funds =>
      check! forallb (fun c => fits128 c.2) funds else "parse";
      match r_token r with
      | RNative d =>
          do! n <- must_pay funds d;
          check! x_held s + n <=? U128_MAX else "more tokens than the supply";
          do! r' <- r_fund k r b sender n;
          Ok (x_put s r' (x_held s + n) (x_due s), [])
      | RCw20 _ => Err "InvalidFunds"
      end
  | RReceive from n =>
      check! fits128 n else "parse";
      match r_token r with
      | RCw20 t =>
          check! (sender =? t)%N else "InvalidCw20";
          check! x_held s + n <=? U128_MAX else "more tokens than the supply";
          do! r' <- r_fund k r b from n;
          Ok (x_put s r' (x_held s + n) (x_due s), [])
      | RNative _ => Err "InvalidCw20"
      end
  | RUpdateDuration n =>
      check! (0 <=? n) && (n <=? U64_MAX) else "parse";
      do! r' <- r_set_duration r b sender n;
      Ok (x_put s r' (x_held s) (x_due s), [])
  | ROwner act =>
      do! o <- update_ownership (r_own r) b sender act;
      Ok (x_put s (RState o (r_token r) (r_fin r) (r_rate r) (r_dur r) (r_rpt r) (r_last r)
                     (r_pend r) (r_urpt r)) (x_held s) (x_due s), [])
  end.

(** Members whose hook goes to the rewards contract. *)
Definition hooks_to (me : addr) (subs : list ksub) : list addr :=
  flat_map (fun x => match x with
    | KHook to _ who _ => if (to =? me)%N then [who] else []
    | KPay _ _ => [] end) subs.

Definition x_handle (s : xstate) (b : block) (sender : addr) (m : xmsg)
  : result (xstate * list xsub) :=
  check! (match x_due s with [] => true | _ => false end) || (height b =? x_block s)
    else "a hook was not delivered";
  do! ' (s', subs) <-
    match m with
    | XStake m =>
        do! ' (k, subs) <- k_handle (x_stake s) b sender m;
        Ok (XState k (x_rew s) (x_me s) (x_staking s) (x_held s)
              (x_due s ++ hooks_to (x_me s) subs) (x_block s), map XStakeSub subs)
    | XRew m => x_rew_handle s b sender m
    | XDonate n =>
        check! fits128 n else "parse";
        check! x_held s + n <=? U128_MAX else "more tokens than the supply";
        Ok (x_put s (x_rew s) (x_held s + n) (x_due s), [])
    end;
  Ok (XState (x_stake s') (x_rew s') (x_me s') (x_staking s') (x_held s') (x_due s') (height b),
      subs).

(** 431-457 [query_pending_rewards]. *)
Definition x_pending (s : xstate) (b : block) (a : addr) : result Z :=
  do! rpt <- r_per_token (x_stake s) (x_rew s) b;
  do! n <- r_earned (x_stake s) (x_rew s) b a rpt;
  add128 n (r_pending (x_rew s) a).
