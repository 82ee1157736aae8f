(** A cw20-stake-reward-distributor (DistModel.v) that serves a cw20-stake contract (StakeModel.v).

    The distributor sends the reward token to its staking contract with the message [Fund]
    (contracts/staking/cw20-stake-reward-distributor/src/contract.rs:165-176), without a reply; the
    token contract moves the tokens and calls the staking contract's [Receive]
    (contracts/staking/cw20-stake/src/contract.rs:117-138, 283-296).  So the funding is part of the
    distributor's call, and its failure reverts it.

    Everybody else is outside: they call either contract, move tokens to it, and receive what it
    pays.  The supply of the staking contract's token fits in 128 bits. *)
From Verif Require Import Base Exec StoreModel StakeModel DistModel.

(** The two contracts and their addresses. *)
Record fstate := FState { f_d : dstate; f_k : kstate; f_dist : addr; f_stk : addr }.
Inductive fmsg := FDist (m : dmsg) | FStake (m : kmsg).
Inductive fsub := FD (x : dsub) | FK (x : ksub).

Definition f_outside (s : fstate) (a : addr) : bool :=
  negb (a =? f_dist s)%N && negb (a =? f_stk s)%N.
(** Tokens of the staking contract's kind held by the two. *)
Definition f_held (s : fstate) : Z := d_bal (f_d s) (k_token (f_k s)) + k_held (f_k s).

(** The distributor's messages are executed. *)
Fixpoint f_deliver (k : kstate) (b : block) (dist stk : addr) (l : list dsub)
  : result (kstate * list fsub) :=
  match l with
  | [] => Ok (k, [])
  | DFund t a n :: l =>
      do! ' (k1, out) <- (if (a =? stk)%N then k_handle k b t (KReceive dist n false) else Ok (k, []));
      do! ' (k2, rest) <- f_deliver k1 b dist stk l;
      Ok (k2, FD (DFund t a n) :: map FK out ++ rest)
  | x :: l =>
      do! ' (k2, rest) <- f_deliver k b dist stk l; Ok (k2, FD x :: rest)
  end.
Definition f_handle (s : fstate) (b : block) (sender : addr) (m : fmsg)
  : result (fstate * list fsub) :=
  check! f_outside s sender else "not outside";
  do! ' (s', out) <-
    match m with
    | FDist m =>
        do! ' (d, l) <- d_handle (f_d s) b sender m;
        do! ' (k, out) <- f_deliver (f_k s) b (f_dist s) (f_stk s) l;
        Ok (FState d k (f_dist s) (f_stk s), out)
    | FStake m =>
        check! (match m with KReceive from _ _ => f_outside s from | _ => true end) else "not outside";
        do! ' (k, l) <- k_handle (f_k s) b sender m;
        Ok (FState (f_d s) k (f_dist s) (f_stk s), map FK l)
    end;
  check! f_held s' <=? U128_MAX else "more tokens than the supply";
  Ok (s', out).
