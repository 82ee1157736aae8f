(** Model of contracts/staking/cw20-stake/src/{contract,math,state}.rs.

    Line numbers without a file name refer to contract.rs.

    The staked token is a cw20 contract: it calls [Receive] only together with
    tokens it has just moved to this contract, its supply fits in 128 bits, and a
    transfer makes no call back.  [k_held] is this contract's balance there;
    outgoing transfers are the first sub-message of a call, so the handler
    performs them.  [KDonate] is a third party moving tokens to the contract
    without calling it. *)
From Verif Require Import Base Exec HooksModel StoreModel.

(** math.rs:13-27 [amount_to_stake].  ["unwrap"] is the panic of the conversion
    to 128 bits. *)
Definition amount_to_stake (total pool sent : Z) : result Z :=
  if (total =? 0) || (pool =? 0) then Ok sent
  else
    let n := total * sent / pool in
    check! n <=? U128_MAX else "unwrap"; Ok n.
(** math.rs:49-70 [amount_to_claim]; division by zero panics too. *)
Definition amount_to_claim (total pool ask : Z) : result Z :=
  check! negb (total =? 0) else "unwrap";
  let n := ask * pool / total in
  check! n <=? U128_MAX else "unwrap"; Ok n.

(** state.rs *)
Definition MAX_CLAIMS : Z := 100.
Record kstate := KState {
  k_token : addr;
  k_dur : option duration;
  k_own : own;
  k_bals : smap;
  k_total : snap;
  k_pool : Z;
  k_claims : claims;
  k_hooks : list addr;
  k_held : Z }.

Inductive kmsg :=
| KReceive (from : addr) (amount : Z) (stake : bool)
| KUnstake (amount : Z)
| KClaim
| KUpdateConfig (d : option duration)
| KAddHook (a : addr)
| KRemoveHook (a : addr)
| KOwner (act : own_action)
| KDonate (n : Z).
(** Sub-messages: a cw20 transfer; a stake-change hook (dao-hooks/src/stake.rs). *)
Inductive ksub :=
| KPay (recipient : addr) (amount : Z)
| KHook (receiver : addr) (staked : bool) (who : addr) (amount : Z).

Definition k_hook_msgs (s : kstate) (staked : bool) (who : addr) (n : Z) : list ksub :=
  map (fun a => KHook a staked who n) (k_hooks s).

(** 39-73 [instantiate]. *)
Definition k_instantiate (b : block) (token : addr) (d : option duration) (owner : option addr)
  : result kstate :=
  do! _ <- validate_duration d;
  Ok (KState token d (initialize_owner owner) ∅ (snap_save snap_empty (height b) 0) 0 ∅ [] 0).

(** 140-173 [execute_stake]. *)
Definition k_stake (s : kstate) (b : block) (who : addr) (amount : Z)
  : result (kstate * list ksub) :=
  do! n <- amount_to_stake (snap_get (k_total s)) (k_pool s) amount;
  do! bal <- add128 (smap_get (k_bals s) who) n;
  do! tot <- add128 (snap_get (k_total s)) n;
  do! pool <- add128 (k_pool s) amount;
  Ok (KState (k_token s) (k_dur s) (k_own s)
        (smap_save (k_bals s) who (height b) bal) (snap_save (k_total s) (height b) tot)
        pool (k_claims s) (k_hooks s) (k_held s),
      k_hook_msgs s true who n).

(** 283-296 [execute_fund]. *)
Definition k_fund (s : kstate) (amount : Z) : result (kstate * list ksub) :=
  do! pool <- add128 (k_pool s) amount;
  Ok (KState (k_token s) (k_dur s) (k_own s) (k_bals s) (k_total s) pool (k_claims s)
        (k_hooks s) (k_held s), []).

(** Tokens arriving at the contract; the supply fits in 128 bits. *)
Definition k_arrive (s : kstate) (n : Z) : result kstate :=
  check! k_held s + n <=? U128_MAX else "more tokens than the supply";
  Ok (KState (k_token s) (k_dur s) (k_own s) (k_bals s) (k_total s) (k_pool s) (k_claims s)
        (k_hooks s) (k_held s + n)).
(** Tokens leaving it: the token contract refuses to overdraw. *)
Definition k_leave (s : kstate) (n : Z) : result kstate :=
  check! n <=? k_held s else "insufficient tokens";
  Ok (KState (k_token s) (k_dur s) (k_own s) (k_bals s) (k_total s) (k_pool s) (k_claims s)
        (k_hooks s) (k_held s - n)).

(** 117-138 [execute_receive]. *)
Definition k_receive (s : kstate) (b : block) (sender from : addr) (amount : Z) (stake : bool)
  : result (kstate * list ksub) :=
  check! (sender =? k_token s)%N else "InvalidToken";
  do! s <- k_arrive s amount;
  if stake then k_stake s b from amount else k_fund s amount.

(** 175-255 [execute_unstake]; [saturating_add(balance) == MAX]. *)
Definition k_unstake (s : kstate) (b : block) (sender : addr) (amount : Z)
  : result (kstate * list ksub) :=
  check! negb (snap_get (k_total s) =? 0) else "NothingStaked";
  check! amount + k_pool s <? U128_MAX else "Cw20InvaraintViolation";
  check! amount <=? snap_get (k_total s) else "ImpossibleUnstake";
  do! n <- amount_to_claim (snap_get (k_total s)) (k_pool s) amount;
  do! bal <- sub128 (smap_get (k_bals s) sender) amount;
  do! tot <- sub128 (snap_get (k_total s)) amount;
  do! pool <- sub128 (k_pool s) n;
  let s' := KState (k_token s) (k_dur s) (k_own s)
              (smap_save (k_bals s) sender (height b) bal)
              (snap_save (k_total s) (height b) tot) pool (k_claims s) (k_hooks s) (k_held s) in
  match k_dur s with
  | None =>
      do! s'' <- k_leave s' n;
      Ok (s'', KPay sender n :: k_hook_msgs s false sender amount)
  | Some d =>
      check! Z.of_nat (length (claims_of (k_claims s) sender)) + 1 <=? MAX_CLAIMS
        else "TooManyClaims";
      Ok (KState (k_token s') (k_dur s') (k_own s') (k_bals s') (k_total s') (k_pool s')
            (create_claim (k_claims s) sender n (after d b)) (k_hooks s') (k_held s'),
          k_hook_msgs s false sender amount)
  end.

(** 257-281 [execute_claim]. *)
Definition k_claim (s : kstate) (b : block) (sender : addr) : result (kstate * list ksub) :=
  do! ' (n, cs) <- claim_tokens (k_claims s) sender b;
  check! negb (n =? 0) else "NothingToClaim";
  do! s' <- k_leave (KState (k_token s) (k_dur s) (k_own s) (k_bals s) (k_total s) (k_pool s)
                       cs (k_hooks s) (k_held s)) n;
  Ok (s', [KPay sender n]).

(** 94-115 [execute_update_config]. *)
Definition k_update_config (s : kstate) (sender : addr) (d : option duration)
  : result (kstate * list ksub) :=
  check! is_owner (k_own s) sender else "NotOwner";
  do! _ <- validate_duration d;
  Ok (KState (k_token s) d (k_own s) (k_bals s) (k_total s) (k_pool s) (k_claims s)
        (k_hooks s) (k_held s), []).

(** 298-324 [execute_add_hook], [execute_remove_hook]. *)
Definition k_set_hooks (s : kstate) (sender : addr) (r : result (list addr))
  : result (kstate * list ksub) :=
  check! is_owner (k_own s) sender else "NotOwner";
  do! h <- r;
  Ok (KState (k_token s) (k_dur s) (k_own s) (k_bals s) (k_total s) (k_pool s) (k_claims s)
        h (k_held s), []).

(** 326-334 [execute_update_owner]. *)
Definition k_owner (s : kstate) (b : block) (sender : addr) (act : own_action)
  : result (kstate * list ksub) :=
  do! o <- update_ownership (k_own s) b sender act;
  Ok (KState (k_token s) (k_dur s) o (k_bals s) (k_total s) (k_pool s) (k_claims s)
        (k_hooks s) (k_held s), []).

(** 75-92 [execute].  Integers in a message are in range, or it does not parse. *)
Definition k_handle (s : kstate) (b : block) (sender : addr) (m : kmsg)
  : result (kstate * list ksub) :=
  match m with
  | KReceive from n stake =>
      check! fits128 n else "parse"; k_receive s b sender from n stake
  | KUnstake n => check! fits128 n else "parse"; k_unstake s b sender n
  | KClaim => k_claim s b sender
  | KUpdateConfig d => check! fits_dur d else "parse"; k_update_config s sender d
  | KAddHook a => k_set_hooks s sender (add_hook (k_hooks s) a)
  | KRemoveHook a => k_set_hooks s sender (remove_hook (k_hooks s) a)
  | KOwner act => k_owner s b sender act
  | KDonate n =>
      check! fits128 n else "parse"; do! s' <- k_arrive s n; Ok (s', [])
  end.

(** Queries: 359-372, 374-384, 386-408, 410-413. *)
Definition k_balance_at (s : kstate) (b : block) (who : addr) (h : option Z) : Z :=
  smap_at (k_bals s) who (default (height b) h).
Definition k_total_at (s : kstate) (b : block) (h : option Z) : Z :=
  snap_get_at (k_total s) (default (height b) h).
Definition k_staked_value (s : kstate) (who : addr) : result Z :=
  let staked := smap_get (k_bals s) who in
  if (k_pool s =? 0) || (staked =? 0) || (snap_get (k_total s) =? 0) then Ok 0
  else do! n <- mul128 staked (k_pool s); Ok (n / snap_get (k_total s)).
