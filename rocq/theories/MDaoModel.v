(** A DAO as a whole: dao-dao-core (contracts/dao-dao-core/src/contract.rs) together with one
    of its modules, a dao-proposal-multiple
    (contracts/proposal/dao-proposal-multiple/src/contract.rs).

    Both dispatch messages, and the chain executes them depth first; so there is one list of
    what is dispatched and not finished ([d_todo]), first to be executed first.  When the
    module dispatches the messages of a proposal to the DAO (contract.rs:536-565 of the
    module), the DAO is called with [ExecuteProposalHook] (215-232 of the core) by the module,
    and dispatches them itself.  When the DAO's message is for the module, the module is
    called by the DAO.  Everybody else is outside: they call the DAO and the module when they
    like, also in the middle of a transaction.

    A failing sub-message that its sender catches is undone and its sender told; a failure
    that is not caught undoes the transaction.  So histories hold no steps of undone calls.

    Not modelled: the messages' encodings.  [act_of] reads the numbers that stand for messages
    in proposals, [call_of] the messages of the DAO that are for the module.  Voting powers are
    an oracle, as in the model of the module; other modules, the voting module and the
    contracts called by hooks are outside. *)
From stdpp Require Import gmap strings.
From Verif Require Import Base VotingModel HooksModel MultModel CoreModel.

Record codes := Codes { act_of : Z -> kact; call_of : N -> option msg }.
(** A message of the DAO, a message of the module, the end of the latter. *)
Inductive ditem := DK (x : ksub) | DP (x : sub) | DEnd (x : sub).
(** [d_at] is the address of the module. *)
Record dao := Dao { d_core : core; d_at : addr; d_prop : state; d_todo : list ditem }.

Inductive devent :=
| DCore (a : addr) (m : kmsg)             (* somebody outside calls the DAO *)
| DProp (a : addr) (m : msg)              (* somebody outside calls the module *)
| DSelf                                   (* the DAO executes its message to itself *)
| DSend                                   (* the DAO's message to another is executed *)
| DReply (a : addr) (msgs : list kact)    (* a module of the DAO has been created *)
| DRun                                    (* a message of the module is executed *)
| DFail                                   (* a message of the module fails *)
| DOver (a : addr).                       (* a message of the module has been executed *)

Definition outside (s : dao) (a : addr) : bool :=
  negb (a =? k_self (d_core s))%N && negb (a =? d_at s)%N.
(** The DAO is called; contract.rs:102-160 of the core. *)
Definition to_core (s : dao) (b : block) (a : addr) (m : kmsg) (rest : list ditem) : result dao :=
  do! ' (c, l) <- k_execute (d_core s) b a m;
  Ok (Dao c (d_at s) (d_prop s) (map DK l ++ rest)).
(** The module is called; contract.rs:92-147 of the module. *)
Definition to_prop (O : oracle) (s : dao) (b : block) (a : addr) (m : msg) (rest : list ditem)
  : result dao :=
  do! ' (p, l) <- handle O (d_prop s) b a m;
  Ok (Dao (d_core s) (d_at s) p (map DP l ++ rest)).
Definition with_prop (s : dao) (p : state) (rest : list ditem) : dao :=
  Dao (d_core s) (d_at s) p rest.

Definition d_event (K : codes) (O : oracle) (s : dao) (b : block) (e : devent) : result dao :=
  match e with
  | DCore a m => check! outside s a else "not outside"; to_core s b a m (d_todo s)
  | DProp a m => check! outside s a else "not outside"; to_prop O s b a m (d_todo s)
  | DSelf =>
      match d_todo s with
      | DK (KSend (inl m)) :: t => to_core s b (k_self (d_core s)) m t
      | _ => Err "nothing to execute"
      end
  | DSend =>
      match d_todo s with
      | DK (KSend (inr n)) :: t =>
          match call_of K n with
          | Some m => to_prop O s b (k_self (d_core s)) m t
          | None => Ok (with_prop s (d_prop s) t)
          end
      | _ => Err "nothing to execute"
      end
  | DReply a msgs =>
      match d_todo s with
      | DK (KInst id _) :: t =>
          check! match k_mods (d_core s) !! a with Some _ => false | None => true end
            else "address in use";
          check! outside s a else "address in use";
          do! ' (c, l) <- k_reply (d_core s) id a msgs;
          Ok (Dao c (d_at s) (d_prop s) (map DK l ++ t))
      | _ => Err "nothing to reply to"
      end
  | DRun =>
      match d_todo s with
      | DP x :: t =>
          match x with
          | SExec d _ msgs _ =>
              if (d =? k_self (d_core s))%N
              then to_core s b (d_at s) (KHook (map (act_of K) msgs)) (DEnd x :: t)
              else Ok (with_prop s (d_prop s) (DEnd x :: t))
          | _ => Ok (with_prop s (d_prop s) (DEnd x :: t))
          end
      | _ => Err "nothing to execute"
      end
  | DFail =>
      match d_todo s with
      | DP x :: t => do! p <- on_fail (d_prop s) b x; Ok (with_prop s p t)
      | _ => Err "nothing to fail"
      end
  | DOver a =>
      match d_todo s with
      | DEnd x :: t => do! p <- on_ok (d_prop s) b x a; Ok (with_prop s p t)
      | _ => Err "nothing to end"
      end
  end.
