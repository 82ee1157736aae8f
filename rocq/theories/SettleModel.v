(** A pre-propose module (dao-pre-propose-single or dao-pre-propose-approval-single) joined to its
    proposal module as in [PreModel], with the tokens the pre-propose module holds.

    - Coins sent with a call belong to the module before its code runs (CosmWasm); anybody may send
      it coins and tokens at any time.
    - A payment (packages/dao-voting/src/deposit.rs:216-223, packages/dao-pre-propose-base/src/
      execute.rs:313-348) is a bank transfer or a transfer of a cw20; it fails if the module holds
      less.  A bank transfer fails for no other reason.  A cw20 may refuse for reasons of its own.
    - The balance asked for at execute.rs:329-333 is what the module holds.
    - The completion hook (packages/dao-hooks/src/proposal.rs:100-124) is delivered with
      [reply_on_error]; it fails exactly if the module refuses it or the payment fails.

    The module sends the proposal module nothing but what [PreModel] says, and does not call itself.
    The chain's refusal to pay certain accounts of its own is not modelled: deposits are returned
    to accounts that called the module, and to the DAO. *)
From Verif Require Import Base Exec VotingModel HooksModel SingleModel PreModel.

Record zstate := ZState { z_j : jstate; z_held : denom -> Z }.
Inductive zmsg :=
| ZSingle (m : msg)                                  (* somebody calls the proposal module *)
| ZPre (funds : list (N * Z)) (power : Z) (m : pmsg) (* somebody calls the pre-propose module *)
| ZGift (d : denom) (n : Z).                         (* somebody sends it tokens *)

Definition receive (h : denom -> Z) (d : denom) (n : Z) : denom -> Z :=
  fun x => if decide (x = d) then h x + n else h x.
Definition receive_coins (h : denom -> Z) (l : list (N * Z)) : denom -> Z :=
  fold_left (fun h c => receive h (Native c.1) c.2) l h.
Definition spend (h : denom -> Z) (d : denom) (n : Z) : result (denom -> Z) :=
  check! n <=? h d else "insufficient funds"; Ok (receive h d (- n)).
Fixpoint spend_all (h : denom -> Z) (l : list paid) : result (denom -> Z) :=
  match l with
  | [] => Ok h
  | p :: t => do! h' <- spend h (pd_denom p) (pd_amount p); spend_all h' t
  end.

(** execute.rs:322-333: the balance a withdrawal asks for. *)
Definition asked (q : pstate) (h : denom -> Z) (m : pmsg) : Z :=
  match m with
  | PWithdraw (Some d) => h d
  | PWithdraw None => match q_deposit q with Some d => h (d_denom d) | None => 0 end
  | _ => 0
  end.

Definition zhandle (O : oracle) (s : zstate) (b : block) (sender : addr) (m : zmsg)
  : result (zstate * list jsub) :=
  match m with
  | ZSingle m =>
      check! negb (sender =? j_self (z_j s))%N else "the module sends only its messages";
      do! ' (j, subs) <- jhandle O (z_j s) b sender (JSingle m);
      Ok (ZState j (z_held s), subs)
  | ZPre funds power m =>
      check! negb (sender =? j_self (z_j s))%N else "the module sends only its messages";
      check! forallb (fun c => 0 <=? c.2) funds else "coins are unsigned";
      let h := receive_coins (z_held s) funds in
      do! ' (j, subs) <- jhandle O (z_j s) b sender
                           (JPre (PEnv funds power (asked (j_q (z_j s)) h m) 0) m);
      Ok (ZState j h, subs)
  | ZGift d n =>
      check! 0 <=? n else "amounts are unsigned";
      Ok (ZState (z_j s) (receive (z_held s) d n), [])
  end.

(** What a sub-message of the joint module pays, when it succeeds. *)
Definition new_paid (j j' : jstate) : list paid := drop (length (j_paid j)) (j_paid j').
Definition zon_ok (s : zstate) (b : block) (x : jsub) (d : addr) : result zstate :=
  do! j <- jon_ok (z_j s) b x d;
  do! h <- spend_all (z_held s) (new_paid (z_j s) j);
  Ok (ZState j
        match x with FromPre (XTake _ t _ n) => receive h (Cw20 t) n | _ => h end).

(** Nothing can make the delivery fail: the module accepts it, and holds the coins it pays. *)
Definition sure (s : zstate) (b : block) (x : jsub) : bool :=
  match zon_ok s b x 0%N with
  | Ok s' =>
      forallb (fun p => match pd_denom p with Native _ => true | Cw20 _ => false end)
        (new_paid (z_j s) (z_j s'))
  | Err _ => false
  end.
Definition zon_fail (s : zstate) (b : block) (x : jsub) : result zstate :=
  check! negb match x with
              | FromSingle (SCompleted a _ _) => (a =? j_self (z_j s))%N && sure s b x
              | _ => false
              end else "does not fail";
  do! j <- jon_fail (z_j s) b x;
  Ok (ZState j (z_held s)).
