(** A DAO as a whole with any number of modules of any kind: dao-dao-core
    (contracts/dao-dao-core/src/contract.rs) together with modules each of which is a
    dao-proposal-single, a dao-proposal-multiple or a dao-proposal-condorcet
    (contracts/proposal/dao-proposal-{single,multiple,condorcet}/src/contract.rs), and which
    the DAO adds and disables as its proposals say (contract.rs:353-412 and 954-975 of the
    core).

    As in the models of a DAO with one module there is one list of what is dispatched and not
    finished ([q_todo]), first to be executed first, because the chain executes messages depth
    first.  A module that dispatches the messages of a proposal to the DAO calls it with
    [ExecuteProposalHook] (215-232 of the core).  The DAO's messages may be for any of the
    modules.  Everybody else is outside, and calls the DAO and the modules when they like,
    also in the middle of a transaction.

    Not modelled: the messages' encodings ([act_of] reads the numbers that stand for messages
    in proposals, [call_of] the DAO's messages that are for a module), what a module sends
    while it is created, calls of a module by another one (their hooks), modules of other
    kinds (they are outside), the voting module (an oracle for each kind, as in the models
    of the modules). *)
From stdpp Require Import gmap strings.
From Verif Require Import Base VotingModel HooksModel CoreModel.
From Verif Require SingleModel MultModel CondModel.

(** ** Modules of the three kinds *)
Inductive pmodule :=
| PSingle (s : SingleModel.state) | PMult (s : MultModel.state) | PCond (s : CondModel.state).
Inductive pcall :=
| CSingle (m : SingleModel.msg) | CMult (m : MultModel.msg) | CCond (m : CondModel.msg).
Inductive pout :=
| OSingle (x : psub vote) | OMult (x : psub nat) | OCond (x : CondModel.sub).
Record powers := Powers {
  o_single : SingleModel.oracle; o_mult : MultModel.oracle; o_cond : CondModel.oracle }.
(** contract.rs:94-150 of the single-choice module, 92-147 of the multiple-choice module, 83-98
    of the Condorcet module.  A message of another kind is not understood. *)
Definition p_handle (Q : powers) (p : pmodule) (b : block) (a : addr) (m : pcall)
  : result (pmodule * list pout) :=
  match p, m with
  | PSingle s, CSingle m =>
      do! ' (s', l) <- SingleModel.handle (o_single Q) s b a m; Ok (PSingle s', map OSingle l)
  | PMult s, CMult m =>
      do! ' (s', l) <- MultModel.handle (o_mult Q) s b a m; Ok (PMult s', map OMult l)
  | PCond s, CCond m =>
      do! ' (s', l) <- CondModel.handle (o_cond Q) s b a m; Ok (PCond s', map OCond l)
  | _, _ => Err "unknown message"
  end.
(** A message of the module fails, or has been executed: the replies of the three. *)
Definition p_fail (p : pmodule) (b : block) (x : pout) : result pmodule :=
  match p, x with
  | PSingle s, OSingle x => do! s' <- SingleModel.on_fail s b x; Ok (PSingle s')
  | PMult s, OMult x => do! s' <- MultModel.on_fail s b x; Ok (PMult s')
  | PCond s, OCond x => do! s' <- CondModel.on_fail s b x; Ok (PCond s')
  | _, _ => Err "not its message"
  end.
Definition p_ok (p : pmodule) (b : block) (x : pout) (a : addr) : result pmodule :=
  match p, x with
  | PSingle s, OSingle x => do! s' <- SingleModel.on_ok s b x a; Ok (PSingle s')
  | PMult s, OMult x => do! s' <- MultModel.on_ok s b x a; Ok (PMult s')
  | PCond s, OCond x => do! s' <- CondModel.on_ok s b x a; Ok (PCond s')
  | _, _ => Err "not its message"
  end.
(** Whom a message gives the messages of which proposal to execute. *)
Definition p_exec (x : pout) : option (addr * Z * list Z) :=
  match x with
  | OSingle (SExec d id ms _) | OMult (SExec d id ms _) => Some (d, id, ms)
  | OCond (CondModel.SExec d id ms _) => Some (d, id, ms)
  | _ => None
  end.
Definition p_sends (p : pmodule) (x : pout) : bool :=
  match p, x with
  | PSingle _, OSingle _ | PMult _, OMult _ | PCond _, OCond _ => true | _, _ => false
  end.

(** ** The DAO *)
Record codes := Codes { act_of : Z -> kact; call_of : N -> option (addr * pcall) }.
(** A message of the DAO, a message of a module, the end of the latter. *)
Inductive qitem := QK (x : ksub) | QP (q : addr) (x : pout) | QEnd (q : addr) (x : pout).
Record many := Many { q_core : core; q_mods : gmap addr pmodule; q_todo : list qitem }.

Inductive qevent :=
| QCore (a : addr) (m : kmsg)             (* somebody outside calls the DAO *)
| QProp (a q : addr) (m : pcall)          (* somebody outside calls module [q] *)
| QSelf                                   (* the DAO executes its message to itself *)
| QSend                                   (* the DAO's message to another is executed *)
| QReply (a : addr) (new : option pmodule) (msgs : list kact)
                                          (* a module of the DAO has been created; if it is
                                             a proposal module of the three kinds, its state *)
| QRun                                    (* a message of a module is executed *)
| QFail                                   (* a message of a module fails *)
| QOver (a : addr).                       (* a message of a module has been executed *)

Definition known (s : many) (a : addr) : bool :=
  match q_mods s !! a with Some _ => true | None => false end.
Definition outside (s : many) (a : addr) : bool :=
  negb (a =? k_self (q_core s))%N && negb (known s a).
(** What is created on the DAO's order may be: a proposal module of the three kinds gives no
    messages back when it is created (contract.rs:47-92 of the single-choice module, 44-89 of the
    multiple-choice module, 23-37 of the Condorcet module). *)
Definition can_be (id : Z) (new : option pmodule) (msgs : list kact) : bool :=
  match new, msgs with
  | Some _, [] => id =? PROPOSAL_ID
  | Some _, _ :: _ => false
  | None, _ => true
  end.
(** The DAO is called; contract.rs:102-160 of the core. *)
Definition to_core (s : many) (b : block) (a : addr) (m : kmsg) (rest : list qitem)
  : result many :=
  do! ' (c, l) <- k_execute (q_core s) b a m;
  Ok (Many c (q_mods s) (map QK l ++ rest)).
(** Module [q] is called. *)
Definition to_mod (Q : powers) (s : many) (b : block) (a q : addr) (m : pcall)
    (rest : list qitem) : result many :=
  some! p <- q_mods s !! q else "no such module";
  do! ' (p', l) <- p_handle Q p b a m;
  Ok (Many (q_core s) (<[q := p']> (q_mods s)) (map (QP q) l ++ rest)).

Definition q_event (K : codes) (Q : powers) (s : many) (b : block) (e : qevent) : result many :=
  match e with
  | QCore a m => check! outside s a else "not outside"; to_core s b a m (q_todo s)
  | QProp a q m => check! outside s a else "not outside"; to_mod Q s b a q m (q_todo s)
  | QSelf =>
      match q_todo s with
      | QK (KSend (inl m)) :: t => to_core s b (k_self (q_core s)) m t
      | _ => Err "nothing to execute"
      end
  | QSend =>
      match q_todo s with
      | QK (KSend (inr n)) :: t =>
          match call_of K n with
          | Some (q, m) =>
              if known s q then to_mod Q s b (k_self (q_core s)) q m t
              else Ok (Many (q_core s) (q_mods s) t)
          | None => Ok (Many (q_core s) (q_mods s) t)
          end
      | _ => Err "nothing to execute"
      end
  | QReply a new msgs =>
      match q_todo s with
      | QK (KInst id _) :: t =>
          check! match k_mods (q_core s) !! a with Some _ => false | None => true end
            else "address in use";
          check! outside s a else "address in use";
          check! can_be id new msgs else "no such module";
          do! ' (c, l) <- k_reply (q_core s) id a msgs;
          Ok (Many c (match new with Some p => <[a := p]> (q_mods s) | None => q_mods s end)
                (map QK l ++ t))
      | _ => Err "nothing to reply to"
      end
  | QRun =>
      match q_todo s with
      | QP q x :: t =>
          some! p <- q_mods s !! q else "no such module";
          check! p_sends p x else "not its message";
          match p_exec x with
          | Some (d, _, msgs) =>
              if (d =? k_self (q_core s))%N
              then to_core s b q (KHook (map (act_of K) msgs)) (QEnd q x :: t)
              else Ok (Many (q_core s) (q_mods s) (QEnd q x :: t))
          | None => Ok (Many (q_core s) (q_mods s) (QEnd q x :: t))
          end
      | _ => Err "nothing to execute"
      end
  | QFail =>
      match q_todo s with
      | QP q x :: t =>
          some! p <- q_mods s !! q else "no such module";
          do! p' <- p_fail p b x; Ok (Many (q_core s) (<[q := p']> (q_mods s)) t)
      | _ => Err "nothing to fail"
      end
  | QOver a =>
      match q_todo s with
      | QEnd q x :: t =>
          some! p <- q_mods s !! q else "no such module";
          do! p' <- p_ok p b x a; Ok (Many (q_core s) (<[q := p']> (q_mods s)) t)
      | _ => Err "nothing to end"
      end
  end.
