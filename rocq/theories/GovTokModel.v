(** dao-voting-token-staked (TokModel.v) joined to cw-tokenfactory-issuer and the chain's token
    factory and bank (IssuerModel.v), when the token staked is the issuer's.

    Coins sent with a stake are moved by the bank before the module is called, what the module
    pays out is moved by the bank after it; the bank asks the issuer first where the issuer
    has made itself the hook of the token (contracts/external/cw-tokenfactory-issuer/src/
    hooks.rs).  If the bank refuses, the call fails.  Coins the module gets otherwise are
    bank transfers ([XSend]) and not [TDonate].  [t_held] is what the bank says.  The
    supply the module asks for (contract.rs:342-350) is the bank's.

    The module at [md] calls neither itself nor, once set up, the issuer.  Other tokens are not
    followed.  The receivers of stake hooks may do anything: that is, make further calls. *)
From Verif Require Import Base Exec StoreModel ActiveModel TokModel IssuerModel.

Record gstate := GS { g_t : tstate; g_i : istate }.
Inductive gmsg :=
| GTok (m : tmsg)
| GIss (m : imsg).
Inductive gsub :=
| GT (x : tsub)
| GI (x : isub).

Definition hold (t : tstate) (n : Z) : tstate :=
  TState (t_dao t) (t_denom t) (t_dur t) (t_thr t) (t_bals t) (t_total t) (t_claims t) (t_hooks t) n.
Definition i_supply (i : istate) : Z := msum (fun _ n => n) (i_bal i).
(** The coins sent with a call. *)
Definition pay_in (md : addr) (i : istate) (sender : addr) (m : tmsg) : result istate :=
  match m with
  | TStake [(d, n)] => if (d =? i_denom i)%N then bank_send i sender md n else Ok i
  | _ => Ok i
  end.
(** The payments of a call. *)
Fixpoint pay_out (md : addr) (i : istate) (subs : list tsub) : result istate :=
  match subs with
  | [] => Ok i
  | TPay to n :: subs => do! i' <- bank_send i md to n; pay_out md i' subs
  | _ :: subs => pay_out md i subs
  end.
Definition apart (i : istate) (m : tmsg) : bool :=
  match m with
  | TDonate _ => false
  | TUpdateThreshold _ n => n =? i_supply i
  | _ => true
  end.
(** What the module has when it looks: stakes are counted beside it (t_arrive). *)
Definition has (md : addr) (i : istate) (m : tmsg) : Z :=
  match m with TStake _ => 0 | _ => i_bal_of i md end.
Definition g_handle (md : addr) (s : gstate) (b : block) (sender : addr) (m : gmsg)
  : result (gstate * list gsub) :=
  check! negb (sender =? md)%N else "not the module";
  match m with
  | GTok m =>
      check! apart (g_i s) m else "not so";
      do! i1 <- pay_in md (g_i s) sender m;
      do! ' (t', subs) <- t_handle (hold (g_t s) (has md i1 m)) b sender m;
      do! i2 <- pay_out md i1 subs;
      Ok (GS (hold t' (i_bal_of i2 md)) i2, map GT subs)
  | GIss m =>
      do! ' (i', subs) <- i_handle (g_i s) b sender m;
      Ok (GS (hold (g_t s) (i_bal_of i' md)) i', map GI subs)
  end.
(** Both just set up. *)
Definition g_start (md : addr) (t : tstate) (i : istate) : gstate := GS (hold t (i_bal_of i md)) i.
