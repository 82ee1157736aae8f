(** Model of contracts/voting/dao-voting-token-staked/src/{contract,state}.rs.

    Line numbers refer to contract.rs.  [t_held] is the module's bank balance in
    its denomination; bank sends leave with the call that makes them (they are its
    first message and cannot call back).  [TDonate] is anybody sending coins to the
    module without a call.  The supply of the denomination, where asked for, is
    part of the message. *)
From Verif Require Import Base Exec VotingModel HooksModel StoreModel ActiveModel.

(** state.rs:42 *)
Definition TOK_MAX_CLAIMS : Z := 100.
(** state.rs:9-60 *)
Record tstate := TState {
  t_dao : addr;
  t_denom : N;
  t_dur : option duration;
  t_thr : option athreshold;
  t_bals : smap;
  t_total : snap;
  t_claims : claims;
  t_hooks : list addr;
  t_held : Z }.

Inductive tmsg :=
| TStake (funds : list (N * Z))
| TUnstake (amount : Z)
| TUpdateConfig (d : option duration)
| TClaim
| TUpdateThreshold (t : option athreshold) (supply : Z)
| TAddHook (a : addr)
| TRemoveHook (a : addr)
| TDonate (n : Z).
(** Sub-messages: a bank send; a stake-change hook (dao-hooks/src/stake.rs). *)
Inductive tsub :=
| TPay (recipient : addr) (amount : Z)
| THook (receiver : addr) (staked : bool) (who : addr) (amount : Z).
Definition t_hook_msgs (s : tstate) (staked : bool) (who : addr) (n : Z) : list tsub :=
  map (fun a => THook a staked who n) (t_hooks s).

(** How the denomination is chosen (msg.rs [TokenInfo]).  For a new token the
    reply (586-619) sums the initial balances; for a factory token it asks the
    bank (748-774).  Both happen in the transaction that instantiates. *)
Inductive token_source :=
| ExistingToken (supply : Z)
| CreatedToken (initial_supply : Z).
(** 62-159 [instantiate] with 573-802 [reply]. *)
Definition t_instantiate (dao : addr) (denom : N) (src : token_source) (d : option duration)
    (thr : option athreshold) : result tstate :=
  do! _ <- validate_duration d;
  do! _ <- match src with
           | ExistingToken supply => validate_active thr supply
           | CreatedToken initial =>
               do! _ <- validate_active thr initial;
               check! negb (initial =? 0) else "InitialBalancesError"; Ok tt
           end;
  Ok (TState dao denom d thr ∅ snap_empty ∅ [] 0).

(** Coins arriving at the module; the supply fits in 128 bits. *)
Definition t_arrive (s : tstate) (n : Z) : result tstate :=
  check! t_held s + n <=? U128_MAX else "more coins than the supply";
  Ok (TState (t_dao s) (t_denom s) (t_dur s) (t_thr s) (t_bals s) (t_total s) (t_claims s)
        (t_hooks s) (t_held s + n)).
(** Coins leaving it: the bank refuses to overdraw. *)
Definition t_leave (s : tstate) (n : Z) : result tstate :=
  check! n <=? t_held s else "insufficient funds";
  Ok (TState (t_dao s) (t_denom s) (t_dur s) (t_thr s) (t_bals s) (t_total s) (t_claims s)
        (t_hooks s) (t_held s - n)).

(** 181-209 [execute_stake]. *)
Definition t_stake (s : tstate) (b : block) (sender : addr) (funds : list (N * Z))
  : result (tstate * list tsub) :=
  do! n <- must_pay funds (t_denom s);
  do! s <- t_arrive s n;
  do! bal <- add128 (smap_get (t_bals s) sender) n;
  do! tot <- add128 (snap_get (t_total s)) n;
  Ok (TState (t_dao s) (t_denom s) (t_dur s) (t_thr s)
        (smap_save (t_bals s) sender (height b) bal) (snap_save (t_total s) (height b) tot)
        (t_claims s) (t_hooks s) (t_held s),
      t_hook_msgs s true sender n).

(** 211-282 [execute_unstake]. *)
Definition t_unstake (s : tstate) (b : block) (sender : addr) (amount : Z)
  : result (tstate * list tsub) :=
  check! negb (amount =? 0) else "ZeroUnstake";
  do! bal <- sub128 (smap_get (t_bals s) sender) amount;
  do! tot <- sub128 (snap_get (t_total s)) amount;
  let s' := TState (t_dao s) (t_denom s) (t_dur s) (t_thr s)
              (smap_save (t_bals s) sender (height b) bal)
              (snap_save (t_total s) (height b) tot) (t_claims s) (t_hooks s) (t_held s) in
  match t_dur s with
  | None =>
      do! s'' <- t_leave s' amount;
      Ok (s'', TPay sender amount :: t_hook_msgs s false sender amount)
  | Some d =>
      check! Z.of_nat (length (claims_of (t_claims s) sender)) <? TOK_MAX_CLAIMS
        else "TooManyClaims";
      Ok (TState (t_dao s') (t_denom s') (t_dur s') (t_thr s') (t_bals s') (t_total s')
            (create_claim (t_claims s) sender amount (after d b)) (t_hooks s') (t_held s'),
          t_hook_msgs s false sender amount)
  end.

(** 284-303 [execute_update_config]. *)
Definition t_update_config (s : tstate) (sender : addr) (d : option duration)
  : result (tstate * list tsub) :=
  check! (sender =? t_dao s)%N else "Unauthorized";
  do! _ <- validate_duration d;
  Ok (TState (t_dao s) (t_denom s) d (t_thr s) (t_bals s) (t_total s) (t_claims s)
        (t_hooks s) (t_held s), []).

(** 305-326 [execute_claim]. *)
Definition t_claim (s : tstate) (b : block) (sender : addr) : result (tstate * list tsub) :=
  do! ' (n, cs) <- claim_tokens (t_claims s) sender b;
  check! negb (n =? 0) else "NothingToClaim";
  do! s' <- t_leave (TState (t_dao s) (t_denom s) (t_dur s) (t_thr s) (t_bals s) (t_total s)
                       cs (t_hooks s) (t_held s)) n;
  Ok (s', [TPay sender n]).

(** 328-356 [execute_update_active_threshold]. *)
Definition t_update_threshold (s : tstate) (sender : addr) (t : option athreshold) (supply : Z)
  : result (tstate * list tsub) :=
  check! (sender =? t_dao s)%N else "Unauthorized";
  do! _ <- validate_active t supply;
  Ok (TState (t_dao s) (t_denom s) (t_dur s) t (t_bals s) (t_total s) (t_claims s)
        (t_hooks s) (t_held s), []).

(** 358-392 [execute_add_hook], [execute_remove_hook]. *)
Definition t_set_hooks (s : tstate) (sender : addr) (r : result (list addr))
  : result (tstate * list tsub) :=
  check! (sender =? t_dao s)%N else "Unauthorized";
  do! h <- r;
  Ok (TState (t_dao s) (t_denom s) (t_dur s) (t_thr s) (t_bals s) (t_total s) (t_claims s)
        h (t_held s), []).

(** 162-179 [execute]. *)
Definition t_handle (s : tstate) (b : block) (sender : addr) (m : tmsg)
  : result (tstate * list tsub) :=
  match m with
  | TStake funds =>
      check! forallb (fun c => fits128 c.2) funds else "parse"; t_stake s b sender funds
  | TUnstake n => check! fits128 n else "parse"; t_unstake s b sender n
  | TUpdateConfig d => check! fits_dur d else "parse"; t_update_config s sender d
  | TClaim => t_claim s b sender
  | TUpdateThreshold t supply =>
      check! fits_active t && fits128 supply else "parse"; t_update_threshold s sender t supply
  | TAddHook a => t_set_hooks s sender (add_hook (t_hooks s) a)
  | TRemoveHook a => t_set_hooks s sender (remove_hook (t_hooks s) a)
  | TDonate n => check! fits128 n else "parse"; do! s' <- t_arrive s n; Ok (s', [])
  end.

(** 422-446 queries; a missing height is the current one. *)
Definition t_power_at (s : tstate) (b : block) (who : addr) (h : option Z) : Z :=
  smap_at (t_bals s) who (default (height b) h).
Definition t_total_at (s : tstate) (b : block) (h : option Z) : Z :=
  snap_get_at (t_total s) (default (height b) h).
(** 485-545 [query_is_active]. *)
Definition t_is_active (s : tstate) (supply : Z) : result bool :=
  is_active (t_thr s) (snap_get (t_total s)) supply.
