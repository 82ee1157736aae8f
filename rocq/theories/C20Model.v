(** Model of contracts/voting/dao-voting-cw20-staked/src/contract.rs, joined to the model of
    cw20-stake and to the cw20 token both speak to.

    The token is a standard cw20 contract (cw20-base, external): balances, a minter, a supply
    that is the sum of the balances and fits in 128 bits.  Left out: allowances - instead
    anybody may move, send and burn the tokens of anybody except the staking contract, which
    grants no allowance -, the cap of a minter, names, decimals, marketing and code ids.  One
    call of [c_handle] is a call of the token (with the [Receive] it makes), of the staking
    contract (with the payment it makes) or of the voting module.  Tokens sent out of another
    account are the caller's stake: cw20-base names the spender in [Receive]. *)
From Verif Require Import Base Exec StoreModel StakeModel ActiveModel.

(** state.rs:5-12; [c_minter], [c_bals] belong to the token, [c_stake] to the contract at
    [c_staker]. *)
Record cstate := CState {
  c_dao : addr;
  c_active : option athreshold;
  c_token : addr;
  c_minter : option addr;
  c_bals : gmap addr Z;
  c_staker : addr;
  c_stake : kstate }.
Inductive cmsg :=
| CActive (t : option athreshold)
| CTransfer (from to : addr) (n : Z)
| CSend (from : addr) (n : Z) (stake : bool)
| CMint (to : addr) (n : Z)
| CBurn (from : addr) (n : Z)
| CMinter (a : option addr)
| CStake (m : kmsg).

Definition cbal (m : gmap addr Z) (a : addr) : Z := default 0 (m !! a).
Definition csupply (m : gmap addr Z) : Z := msum (fun _ n => n) m.
Definition cadd (m : gmap addr Z) (a : addr) (n : Z) : gmap addr Z := <[a := cbal m a + n]> m.
(** cw20-base: a transfer; one to oneself changes nothing. *)
Definition cmove (m : gmap addr Z) (from to : addr) (n : Z) : result (gmap addr Z) :=
  check! n <=? cbal m from else "Overflow";
  Ok (cadd (cadd m from (- n)) to n).
(** cw20-base: initial accounts; an address may be listed once, and the supply fits. *)
Definition caccounts (l : list (addr * Z)) : result (gmap addr Z) :=
  check! bool_decide (NoDup (map fst l)) else "DuplicateInitialBalanceAddresses";
  check! lsum snd l <=? U128_MAX else "panic";
  Ok (list_to_map l).

(** msg.rs:13-59 [StakingInfo], [TokenInfo].  What exists already is given with its state: the
    token with minter and balances, the staking contract with its address.  [CNew] carries
    the initial balances and that of the DAO. *)
Inductive cstaking :=
| CStaked (at_ : addr) (k : kstate)
| CFresh (d : option duration).
Inductive cinfo :=
| COld (token : addr) (minter : option addr) (bals : gmap addr Z) (st : cstaking)
| CNew (bals : list (addr * Z)) (dao_bal : option Z) (d : option duration).

(** A new staking contract at [at_], owned by the DAO; tokens that are at its address
    already arrive without a call. *)
Definition c_fresh (b : block) (dao token at_ : addr) (d : option duration) (m : gmap addr Z)
  : result kstate :=
  do! k <- k_instantiate b token d (Some dao);
  k_arrive k (cbal m at_).
(** 141-158 [assert_valid_absolute_count_threshold]; 41-48, 202-205 the percentage. *)
Definition c_count_ok (t : option athreshold) (supply : Z) : result unit :=
  match t with Some (ACount n) => assert_valid_absolute_count n supply | _ => Ok tt end.
Definition c_percent_ok (t : option athreshold) : result unit :=
  match t with Some (APercent p) => assert_valid_percentage p | _ => Ok tt end.

(** 32-139 [instantiate] with the replies 380-450; [sender] is the DAO; [ntoken] and [nstaker]
    are the addresses the chain gives to new contracts. *)
Definition c_instantiate (b : block) (sender : addr) (t : option athreshold) (i : cinfo)
    (ntoken nstaker : addr) : result cstate :=
  check! fits_active t else "parse";
  do! _ <- c_percent_ok t;
  match i with
  | COld token minter m st =>
      do! _ <- c_count_ok t (csupply m);
      match st with
      | CStaked a k =>
          check! (token =? k_token k)%N else "StakingContractMismatch";
          Ok (CState sender t token minter m a k)
      | CFresh d =>
          check! fits_dur d else "parse";
          do! k <- c_fresh b sender token nstaker d m;
          Ok (CState sender t token minter m nstaker k)
      end
  | CNew l dao_bal d =>
      check! forallb (fun x => fits128 x.2) l && match dao_bal with Some n => fits128 n | None => true end
        && fits_dur d else "parse";
      check! lsum snd l <=? U128_MAX else "panic";
      check! negb (lsum snd l =? 0) else "InitialBalancesError";
      let l' := match dao_bal with
                | Some n => if 0 <? n then l ++ [(sender, n)] else l
                | None => l
                end in
      do! m <- caccounts l';
      do! _ <- c_count_ok t (csupply m);
      do! k <- c_fresh b sender ntoken nstaker d m;
      Ok (CState sender t ntoken (Some sender) m nstaker k)
  end.

Definition c_set (s : cstate) (m : gmap addr Z) (k : kstate) : cstate :=
  CState (c_dao s) (c_active s) (c_token s) (c_minter s) m (c_staker s) k.
(** Payments of the staking contract. *)
Fixpoint cpay (m : gmap addr Z) (from : addr) (subs : list ksub) : result (gmap addr Z) :=
  match subs with
  | [] => Ok m
  | KPay to n :: l => do! m' <- cmove m from to n; cpay m' from l
  | KHook _ _ _ _ :: l => cpay m from l
  end.
(** Tokens arriving at the staking contract, if that is where they go. *)
Definition carrive (s : cstate) (to : addr) (n : Z) : result kstate :=
  if (to =? c_staker s)%N then k_arrive (c_stake s) n else Ok (c_stake s).

(** 160-218 [execute]; the token; the staking contract. *)
Definition c_handle (s : cstate) (b : block) (sender : addr) (m : cmsg)
  : result (cstate * list ksub) :=
  check! negb (sender =? c_staker s)%N && negb (sender =? c_token s)%N
    else "makes no such calls";
  match m with
  | CActive t =>
      check! (sender =? c_dao s)%N else "Unauthorized";
      check! fits_active t else "parse";
      do! _ <- c_percent_ok t;
      do! _ <- c_count_ok t (csupply (c_bals s));
      Ok (CState (c_dao s) t (c_token s) (c_minter s) (c_bals s) (c_staker s) (c_stake s), [])
  | CTransfer from to n =>
      check! fits128 n else "parse";
      check! negb (from =? c_staker s)%N else "no allowance";
      do! m <- cmove (c_bals s) from to n;
      do! k <- carrive s to n;
      Ok (c_set s m k, [])
  | CSend from n stake =>
      check! fits128 n else "parse";
      check! negb (from =? c_staker s)%N else "no allowance";
      do! m <- cmove (c_bals s) from (c_staker s) n;
      do! ' (k, subs) <- k_handle (c_stake s) b (c_token s) (KReceive sender n stake);
      Ok (c_set s m k, subs)
  | CMint to n =>
      check! fits128 n else "parse";
      check! bool_decide (c_minter s = Some sender) else "Unauthorized";
      check! csupply (c_bals s) + n <=? U128_MAX else "Overflow";
      do! k <- carrive s to n;
      Ok (c_set s (cadd (c_bals s) to n) k, [])
  | CBurn from n =>
      check! fits128 n else "parse";
      check! negb (from =? c_staker s)%N else "no allowance";
      check! n <=? cbal (c_bals s) from else "Overflow";
      Ok (c_set s (cadd (c_bals s) from (- n)) (c_stake s), [])
  | CMinter a =>
      check! bool_decide (c_minter s = Some sender) else "Unauthorized";
      Ok (CState (c_dao s) (c_active s) (c_token s) a (c_bals s) (c_staker s) (c_stake s), [])
  | CStake m =>
      check! match m with KDonate _ => false | _ => true end else "no such message";
      do! ' (k, subs) <- k_handle (c_stake s) b sender m;
      do! m' <- cpay (c_bals s) (c_staker s) subs;
      Ok (c_set s m' k, subs)
  end.

(** Queries: 256-296 power and total; 303-365 whether the DAO is active. *)
Definition c_power (s : cstate) (b : block) (a : addr) (h : option Z) : Z :=
  k_balance_at (c_stake s) b a h.
Definition c_total (s : cstate) (b : block) (h : option Z) : Z := k_total_at (c_stake s) b h.
Definition c_is_active (s : cstate) (b : block) : result bool :=
  is_active (c_active s) (c_total s b None) (csupply (c_bals s)).
