(** Two DAOs, one of which decides what is proposed in the other:
    - a dao-proposal-single module whose pre-propose module is a dao-pre-propose-approval-single
      (PreModel.v), and
    - the dao-proposal-single module of the approving DAO, whose pre-propose module is a
      dao-pre-propose-approver (ApproverModel.v).

    The two pre-propose modules talk to each other.  The approval contract sends the id of every
    submission to its hooks (approval-single/src/contract.rs:118-139), and the approver makes a
    proposal of it in its own DAO (approver/src/contract.rs:108-151).  When that proposal is
    executed or closed, the approver is told by the proposal module and tells the approval
    contract to approve or reject the submission (approver/src/contract.rs:153-198).

    What is dispatched and not finished is one list ([t_todo]), first to be executed first, as in
    DaoModel.v.  Everybody but the two pre-propose modules is outside - the DAOs too - and calls
    what they like, also in the middle of a transaction.  A failing sub-message that its sender
    catches is undone and its sender told; a failure that is not caught undoes the transaction.
    So histories hold no steps of undone calls.

    Simplified: whether the DAO of the submission is active, and whether its proposal fits, at the
    time of the approval is part of the message submitted ([pm_active] and [pm_fits] of
    [propose_msg]).  The two modules' answers to other contracts' hooks are left open, except for
    the two messages named above. *)
From stdpp Require Import gmap strings.
From Verif Require Import Base Exec VotingModel HooksModel SingleModel PreModel ApproverModel.

(** A message of one of the two systems, or the end of its execution. *)
Inductive titem := TJ (x : jsub) | TJEnd (x : jsub) | TV (x : ajsub) | TVEnd (x : ajsub).
Record two := Two { t_j : jstate; t_v : ajstate; t_todo : list titem }.
(** The approval contract, and the approver. *)
Definition t_appr (s : two) : addr := j_self (t_j s).
Definition t_boss (s : two) : addr := aj_self (t_v s).

Inductive tevent :=
| TJoint (a : addr) (m : jmsg)        (* somebody outside calls the first system *)
| TAppr (a : addr) (m : ajmsg)        (* somebody outside calls the approver's *)
| TRun (active fits : bool)           (* a message is executed *)
| TFail                               (* a message fails *)
| TOver (d : addr).                   (* a message has been executed *)

Definition t_outside (s : two) (a : addr) : bool :=
  negb (a =? t_appr s)%N && negb (a =? t_boss s)%N.
Definition env0 : penv := PEnv [] 0 0 0.

(** The messages of the approver to the approval contract; approver/src/contract.rs:153-235. *)
Definition v_call (y : vsub) : option pmsg :=
  match y with
  | VSReject i => Some (PReject i)
  | VSApprove i => Some (PApprove i)
  | VSRemoveHook a => Some (PRemoveHook a)
  | VSSetApprover a => Some (PUpdateApprover a)
  | _ => None
  end.

(** The first system is called. *)
Definition to_j (O1 : oracle) (s : two) (b : block) (a : addr) (m : jmsg) (rest : list titem)
  : result two :=
  do! ' (j, l) <- jhandle O1 (t_j s) b a m; Ok (Two j (t_v s) (map TJ l ++ rest)).
(** The second is. *)
Definition to_v (O2 : oracle) (s : two) (b : block) (a : addr) (m : ajmsg) (rest : list titem)
  : result two :=
  do! ' (v, l) <- ajhandle O2 (t_v s) b a m; Ok (Two (t_j s) v (map TV l ++ rest)).

Definition t_run (O1 O2 : oracle) (s : two) (b : block) (active fits : bool) : result two :=
  match t_todo s with
  | TJ (FromPre (XHook r (HApproval i)) as x) :: t =>
      if (r =? t_boss s)%N
      then to_v O2 s b (t_appr s) (AJAppr env0 (VPropose i active fits)) t
      else Ok (Two (t_j s) (t_v s) (TJEnd x :: t))
  | TJ x :: t => Ok (Two (t_j s) (t_v s) (TJEnd x :: t))
  | TV (AFromSingle (SCompleted r id st) as x) :: t =>
      if (r =? t_boss s)%N then
        do! ' (v, l) <- v_handle (aj_v (t_v s)) (t_boss s) env0
                          (q_module (v_base (aj_v (t_v s)))) (VCompleted id st);
        Ok (Two (t_j s) (AJState (t_boss s) (aj_s (t_v s)) v)
              (map (fun y => TV (AFromAppr y)) l ++ TVEnd x :: t))
      else Ok (Two (t_j s) (t_v s) (TVEnd x :: t))
  | TV (AFromAppr y as x) :: t =>
      match v_call y with
      | Some m => to_j O1 s b (t_boss s) (JPre env0 m) t
      | None => Ok (Two (t_j s) (t_v s) (TVEnd x :: t))
      end
  | TV x :: t => Ok (Two (t_j s) (t_v s) (TVEnd x :: t))
  | _ => Err "nothing to execute"
  end.
Definition t_event (O1 O2 : oracle) (s : two) (b : block) (e : tevent) : result two :=
  match e with
  | TJoint a m => check! t_outside s a else "not outside"; to_j O1 s b a m (t_todo s)
  | TAppr a m => check! t_outside s a else "not outside"; to_v O2 s b a m (t_todo s)
  | TRun active fits => t_run O1 O2 s b active fits
  | TFail =>
      match t_todo s with
      | TJ x :: t => do! j <- jon_fail (t_j s) b x; Ok (Two j (t_v s) t)
      | TV x :: t => do! v <- ajon_fail (t_v s) b x; Ok (Two (t_j s) v t)
      | _ => Err "nothing to fail"
      end
  | TOver d =>
      (* a contract instantiated is new *)
      check! t_outside s d else "not new";
      match t_todo s with
      | TJEnd x :: t => do! j <- jon_ok (t_j s) b x d; Ok (Two j (t_v s) t)
      | TVEnd x :: t => do! v <- ajon_ok (t_v s) b x d; Ok (Two (t_j s) v t)
      | _ => Err "nothing executed"
      end
  end.
