(** dao-pre-propose-multiple joined to its proposal module as in [PreMultModel], with the tokens it
    holds; as [SettleModel] for single choice, whose accounts ([receive], [spend], [asked]) are used.

    The contract hands everything but the making of a proposal to packages/dao-pre-propose-base
    (contracts/pre-propose/dao-pre-propose-multiple/src/contract.rs:73-92), so payments are those of
    packages/dao-voting/src/deposit.rs:216-223 and packages/dao-pre-propose-base/src/
    execute.rs:313-348, and the balance asked for is that of execute.rs:329-333. *)
From Verif Require Import Base Exec VotingModel HooksModel PreModel.
From Verif Require SettleModel.
From Verif Require Import MultModel PreMultModel.

Record mzstate := MZState { mz_j : mjstate; mz_held : denom -> Z }.
Inductive mzmsg :=
| MZMult (m : msg)                                     (* somebody calls the proposal module *)
| MZPre (funds : list (N * Z)) (power : Z) (m : mpmsg) (* somebody calls the pre-propose module *)
| MZGift (d : denom) (n : Z).                          (* somebody sends it tokens *)

Definition masked (q : pstate) (h : denom -> Z) (m : mpmsg) : Z :=
  match m with MOther m => SettleModel.asked q h m | MPropose _ => 0 end.

Definition mzhandle (O : oracle) (s : mzstate) (b : block) (sender : addr) (m : mzmsg)
  : result (mzstate * list mjsub) :=
  match m with
  | MZMult m =>
      check! negb (sender =? mj_self (mz_j s))%N else "the module sends only its messages";
      do! ' (j, subs) <- mjhandle O (mz_j s) b sender (MMult m);
      Ok (MZState j (mz_held s), subs)
  | MZPre funds power m =>
      check! negb (sender =? mj_self (mz_j s))%N else "the module sends only its messages";
      check! forallb (fun c => 0 <=? c.2) funds else "coins are unsigned";
      let h := SettleModel.receive_coins (mz_held s) funds in
      do! ' (j, subs) <- mjhandle O (mz_j s) b sender
                           (MPre (PEnv funds power (masked (mj_q (mz_j s)) h m) 0) m);
      Ok (MZState j h, subs)
  | MZGift d n =>
      check! 0 <=? n else "amounts are unsigned";
      Ok (MZState (mz_j s) (SettleModel.receive (mz_held s) d n), [])
  end.

(** What a sub-message of the joint module pays, when it succeeds. *)
Definition mnew_paid (j j' : mjstate) : list paid := drop (length (mj_paid j)) (mj_paid j').
Definition mzon_ok (s : mzstate) (b : block) (x : mjsub) (d : addr) : result mzstate :=
  do! j <- mjon_ok (mz_j s) b x d;
  do! h <- SettleModel.spend_all (mz_held s) (mnew_paid (mz_j s) j);
  Ok (MZState j
        match x with
        | FromBase (XTake _ t _ n) => SettleModel.receive h (Cw20 t) n
        | _ => h
        end).

(** Nothing can make the delivery fail: the module accepts it, and holds the coins it pays. *)
Definition msure (s : mzstate) (b : block) (x : mjsub) : bool :=
  match mzon_ok s b x 0%N with
  | Ok s' =>
      forallb (fun p => match pd_denom p with Native _ => true | Cw20 _ => false end)
        (mnew_paid (mz_j s) (mz_j s'))
  | Err _ => false
  end.
Definition mzon_fail (s : mzstate) (b : block) (x : mjsub) : result mzstate :=
  check! negb match x with
              | FromMult (SCompleted a _ _) => (a =? mj_self (mz_j s))%N && msure s b x
              | _ => false
              end else "does not fail";
  do! j <- mjon_fail (mz_j s) b x;
  Ok (MZState j (mz_held s)).
