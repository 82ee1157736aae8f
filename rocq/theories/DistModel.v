(** contracts/staking/cw20-stake-reward-distributor/src/contract.rs.

    Simplified: whether the queries that validate the staking contract and the token
    (124-141) succeed is part of the message.  Transfers the contract orders are applied to
    its balances at once; a refused one reverts the call. *)
From Verif Require Import Base StoreModel.

(** state.rs:6-15 [Config], [LAST_PAYMENT_BLOCK]; and the contract's balance of each cw20
    token. *)
Record dstate := DState {
  d_own : own;
  d_staking : addr;
  d_token : addr;
  d_rate : Z;
  d_last : Z;
  d_bals : gmap addr Z;
}.

Inductive dmsg :=
| DUpdateConfig (staking : addr) (rate : Z) (token : addr) (valid : bool)
| DDistribute
| DWithdraw
| DOwner (act : own_action)
(** Somebody transfers tokens to the contract. *)
| DDonate (token : addr) (n : Z).

(** Tokens sent to a staking contract as rewards; tokens transferred. *)
Inductive dsub :=
| DFund (token staking : addr) (n : Z)
| DTransfer (token to : addr) (n : Z).

Definition d_bal (s : dstate) (t : addr) : Z := default 0 (d_bals s !! t).

(** 16-52 [instantiate]. *)
Definition d_instantiate (b : block) (owner staking token : addr) (rate : Z) (valid : bool)
  : result dstate :=
  check! fits128 rate else "parse";
  check! valid else "InvalidStakingContract";
  Ok (DState (initialize_owner (Some owner)) staking token rate (height b) ∅).

(** 142-178 [get_distribution_msg]: the amount to send. *)
Definition d_amount (s : dstate) (b : block) : result Z :=
  check! negb (height b <=? d_last s) else "RewardsDistributedForBlock";
  do! pending <- mul128 (d_rate s) (height b - d_last s);
  let amount := Z.min (d_bal s (d_token s)) pending in
  check! negb (amount =? 0) else "ZeroRewards";
  Ok amount.

(** The balance of the reward token lowered. *)
Definition d_send (s : dstate) (n : Z) : dstate :=
  DState (d_own s) (d_staking s) (d_token s) (d_rate s) (d_last s)
    (<[d_token s := d_bal s (d_token s) - n]> (d_bals s)).

(** 55-71 [execute], 73-114 [execute_update_config], 116-122, 180-186 [execute_distribute],
    188-221 [execute_withdraw]. *)
Definition d_handle (s : dstate) (b : block) (sender : addr) (m : dmsg)
  : result (dstate * list dsub) :=
  match m with
  | DUpdateConfig staking rate token valid =>
      check! fits128 rate else "parse";
      check! is_owner (d_own s) sender else "NotOwner";
      check! valid else "InvalidStakingContract";
      let s1 := DState (d_own s) staking token rate (height b) (d_bals s) in
      match d_amount s1 b with
      | Ok n => Ok (d_send s1 n, [DFund token staking n])
      | Err _ => Ok (s1, [])
      end
  | DDistribute =>
      do! n <- d_amount s b;
      Ok (d_send (DState (d_own s) (d_staking s) (d_token s) (d_rate s) (height b) (d_bals s)) n,
          [DFund (d_token s) (d_staking s) n])
  | DWithdraw =>
      check! is_owner (d_own s) sender else "NotOwner";
      let n := d_bal s (d_token s) in
      Ok (d_send s n, [DTransfer (d_token s) sender n])
  | DOwner act =>
      do! o <- update_ownership (d_own s) b sender act;
      Ok (DState o (d_staking s) (d_token s) (d_rate s) (d_last s) (d_bals s), [])
  | DDonate t n =>
      check! fits128 n else "parse";
      check! d_bal s t + n <=? U128_MAX else "more tokens than the supply";
      Ok (DState (d_own s) (d_staking s) (d_token s) (d_rate s) (d_last s)
            (<[t := d_bal s t + n]> (d_bals s)), [])
  end.
