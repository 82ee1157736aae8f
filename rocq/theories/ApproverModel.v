(** Model of contracts/pre-propose/dao-pre-propose-approver/src/contract.rs, and of
    that module joined to the approver DAO's dao-proposal-single module.  Line
    numbers refer to that file. *)
From Verif Require Import Base Exec VotingModel HooksModel SingleModel PreModel.

(** The storage of the base module (plain kind) and src/state.rs: the approval
    contract served, and the two maps between its submissions and the proposals
    of the approver DAO. *)
Record vstate := VState {
  v_base : pstate;
  v_approval : addr;
  v_by_prop : gmap Z Z;
  v_by_pre : gmap Z Z }.

(** [ExecuteMsg].  The two flags of [VPropose] are those of [propose_msg]: the
    voting module's answer to [IsActive], and whether the proposal fits. *)
Inductive vmsg :=
| VPropose (approval_id : Z) (active fits : bool)
| VCompleted (id : Z) (st : status)
| VReset
| VBase (m : pmsg).

(** Messages emitted, all with [add_message]; the last four go to the approval
    contract. *)
Inductive vsub :=
| VSPropose (pm : propose_msg)
| VSBase (x : xsub)
| VSReject (id : Z)
| VSApprove (id : Z)
| VSRemoveHook (a : addr)
| VSSetApprover (a : addr).

(** 31-81 [instantiate]: no deposit, members of the DAO, nobody else. *)
Definition v_instantiate (pm_addr dao approval : addr) : result vstate :=
  do! q <- pre_instantiate Plain pm_addr dao None (SSpecific true [] []) 0%N;
  Ok (VState q approval ∅ ∅).

(** 108-151 [execute_propose]: the proposal carries no messages. *)
Definition v_propose (v : vstate) (next : Z) (sender : addr) (aid : Z) (active fits : bool)
  : result (vstate * list vsub) :=
  check! (sender =? v_approval v)%N else "Unauthorized";
  Ok (VState (v_base v) (v_approval v) (<[next := aid]> (v_by_prop v))
        (<[aid := next]> (v_by_pre v)),
      [VSPropose (ProposeMsg [] (Some sender) None active fits)]).

(** 153-198 [execute_proposal_completed]. *)
Definition v_completed (v : vstate) (sender : addr) (id : Z) (st : status)
  : result (vstate * list vsub) :=
  check! (sender =? q_module (v_base v))%N else "NotModule";
  some! aid <- v_by_prop v !! id else "not found";
  match st with
  | Closed => Ok (v, [VSReject aid])
  | Executed => Ok (v, [VSApprove aid])
  | _ => Err "NotCompleted"
  end.

(** 200-235 [execute_reset_approver]. *)
Definition v_reset (v : vstate) (self sender : addr) : result (vstate * list vsub) :=
  check! (sender =? q_dao (v_base v))%N else "Unauthorized";
  Ok (v, [VSRemoveHook self; VSSetApprover (q_dao (v_base v))]).

(** 84-106 [execute].  Proposing, completing and the approval extensions of the
    base module are not reachable through [VBase]. *)
Definition v_handle (v : vstate) (self : addr) (e : penv) (sender : addr) (m : vmsg)
  : result (vstate * list vsub) :=
  match m with
  | VPropose aid active fits => v_propose v (e_next e) sender aid active fits
  | VCompleted id st => v_completed v sender id st
  | VReset => v_reset v self sender
  | VBase (PWithdraw _ as m) | VBase (PAddHook _ as m) | VBase (PRemoveHook _ as m) =>
      do! ' (q', xs) <- pre_handle (v_base v) e sender m;
      Ok (VState q' (v_approval v) (v_by_prop v) (v_by_pre v), map VSBase xs)
  | VBase _ => Err "Unsupported"
  end.

(** ** Joined to the proposal module, as in PreModel.v *)
Record ajstate := AJState { aj_self : addr; aj_s : state; aj_v : vstate }.
Inductive ajmsg := AJSingle (m : msg) | AJAppr (e : penv) (m : vmsg).
Inductive ajsub := AFromSingle (x : psub vote) | AFromAppr (x : vsub).

Definition ajhandle (O : oracle) (j : ajstate) (b : block) (sender : addr) (m : ajmsg)
  : result (ajstate * list ajsub) :=
  match m with
  | AJSingle m =>
      do! ' (s', subs) <- handle O (aj_s j) b sender m;
      Ok (AJState (aj_self j) s' (aj_v j), map AFromSingle subs)
  | AJAppr e0 m =>
      check! negb (sender =? q_module (v_base (aj_v j)))%N else "not a proposal module call";
      let e := PEnv (e_funds e0) (e_power e0) (e_balance e0) (s_count (aj_s j) + 1) in
      do! ' (v', subs) <- v_handle (aj_v j) (aj_self j) e sender m;
      match subs with
      | VSPropose pm :: rest =>
          do! ' (s', ssubs) <- handle O (aj_s j) b (aj_self j) (Propose pm);
          Ok (AJState (aj_self j) s' v', map AFromSingle ssubs ++ map AFromAppr rest)
      | _ => Ok (AJState (aj_self j) (aj_s j) v', map AFromAppr subs)
      end
  end.

Definition ajon_fail (j : ajstate) (b : block) (x : ajsub) : result ajstate :=
  match x with
  | AFromSingle x =>
      do! s' <- on_fail (aj_s j) b x; Ok (AJState (aj_self j) s' (aj_v j))
  | AFromAppr _ => Err "sub-message failed"
  end.

(** A completion hook delivered to the module succeeds only if its handler does. *)
Definition ajon_ok (j : ajstate) (b : block) (x : ajsub) (d : addr) : result ajstate :=
  match x with
  | AFromSingle x =>
      do! s' <- on_ok (aj_s j) b x d;
      match x with
      | SCompleted a id st =>
          if (a =? aj_self j)%N then
            do! ' (v', _) <- v_handle (aj_v j) (aj_self j) (PEnv [] 0 0 0)
                               (q_module (v_base (aj_v j))) (VCompleted id st);
            Ok (AJState (aj_self j) s' v')
          else Ok (AJState (aj_self j) s' (aj_v j))
      | _ => Ok (AJState (aj_self j) s' (aj_v j))
      end
  | AFromAppr _ => Ok j
  end.
