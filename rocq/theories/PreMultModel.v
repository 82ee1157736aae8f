(** Model of contracts/pre-propose/dao-pre-propose-multiple/src/contract.rs joined
    to a dao-proposal-multiple module.

    The contract hands every message to packages/dao-pre-propose-base
    ([PreModel.pre_handle] with kind [Plain]), which is generic in the message
    that makes a proposal and never looks into it.  [PreModel] fixes that message
    to the single-choice one; here the base is given [stub] in its place, and the
    joint handler sends the multiple-choice message instead.  What the receivers
    of the submitted hook are told is therefore not modelled. *)
From Verif Require Import Base Exec VotingModel HooksModel StoreModel PreModel.
From Verif Require SingleModel.
From Verif Require Import MultModel.

Definition stub : SingleModel.propose_msg := SingleModel.ProposeMsg [] None None true true.

(** contract.rs:23-34 [ProposeMessage], [ExecuteMsg]: a proposal without its
    proposer, or another message of the base. *)
Inductive mpmsg := MPropose (pm : propose_msg) | MOther (m : pmsg).
Definition to_base (m : mpmsg) : result pmsg :=
  match m with
  | MPropose _ => Ok (PPropose stub)
  | MOther (PPropose _) => Err "parse"
  | MOther m => Ok m
  end.

(** contract.rs:73-92 [execute], the proposer is the sender. *)
Definition with_sender (pm : propose_msg) (a : addr) : propose_msg :=
  ProposeMsg (pm_options pm) (Some a) (pm_vote pm) (pm_active pm) (pm_fits pm).

(** The joint system, as in [PreModel] for the single-choice module. *)
Record mjstate := MJState {
  mj_self : addr;
  mj_s : state;
  mj_q : pstate;
  mj_taken : list taken;
  mj_paid : list paid }.

Inductive mjmsg := MMult (m : msg) | MPre (e : penv) (m : mpmsg).
Inductive mjsub := FromMult (x : psub ovote) | FromBase (x : xsub).

Definition mjhandle (O : oracle) (j : mjstate) (b : block) (sender : addr) (m : mjmsg)
  : result (mjstate * list mjsub) :=
  match m with
  | MMult m =>
      do! ' (s', subs) <- handle O (mj_s j) b sender m;
      Ok (MJState (mj_self j) s' (mj_q j) (mj_taken j) (mj_paid j), map FromMult subs)
  | MPre e0 m =>
      (* the proposal module calls the pre-propose module only through its
         completion hook, see [mjon_ok] *)
      check! negb (sender =? q_module (mj_q j))%N else "not a proposal module call";
      let e := PEnv (e_funds e0) (e_power e0) (e_balance e0) (s_count (mj_s j) + 1) in
      do! m' <- to_base m;
      do! ' (q', subs) <- pre_handle (mj_q j) e sender m';
      let tk := mj_taken j ++ native_taken (mj_q j) e sender m' in
      match m, subs with
      | MPropose pm, XPropose _ :: rest =>
          do! ' (s', ssubs) <- handle O (mj_s j) b (mj_self j) (Propose (with_sender pm sender));
          Ok (MJState (mj_self j) s' q' tk (mj_paid j),
              map FromMult ssubs ++ map FromBase rest)
      | _, _ => Ok (MJState (mj_self j) (mj_s j) q' tk (mj_paid j), map FromBase subs)
      end
  end.

Definition mjon_fail (j : mjstate) (b : block) (x : mjsub) : result mjstate :=
  match x with
  | FromMult x =>
      do! s' <- on_fail (mj_s j) b x;
      Ok (MJState (mj_self j) s' (mj_q j) (mj_taken j) (mj_paid j))
  | FromBase _ => Err "sub-message failed"
  end.

Definition mjon_ok (j : mjstate) (b : block) (x : mjsub) (d : addr) : result mjstate :=
  match x with
  | FromMult x =>
      do! s' <- on_ok (mj_s j) b x d;
      match x with
      | SCompleted a id st =>
          if (a =? mj_self j)%N then
            do! ' (q', subs) <- pre_handle (mj_q j) (PEnv [] 0 0 0) (q_module (mj_q j))
                                  (PCompleted id st);
            Ok (MJState (mj_self j) s' q' (mj_taken j) (mj_paid j ++ pays subs))
          else Ok (MJState (mj_self j) s' (mj_q j) (mj_taken j) (mj_paid j))
      | _ => Ok (MJState (mj_self j) s' (mj_q j) (mj_taken j) (mj_paid j))
      end
  | FromBase (XTake k t o n) =>
      Ok (MJState (mj_self j) (mj_s j) (mj_q j) (mj_taken j ++ [Taken k (Cw20 t) o n])
            (mj_paid j))
  | FromBase (XPay w dn a n) =>
      Ok (MJState (mj_self j) (mj_s j) (mj_q j) (mj_taken j) (mj_paid j ++ [Paid w dn a n]))
  | FromBase _ => Ok j
  end.
