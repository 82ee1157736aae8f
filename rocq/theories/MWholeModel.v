(** A DAO as a whole with its voting module: the DAO and its dao-proposal-multiple
    of [MDaoModel], and a voting module that answers from its own state, as in [JointModel].

    The module asks the voting module for the powers at the height at which a proposal starts,
    and for the total when it is created (packages/dao-voting/src/voting.rs:203-225, contract.rs:202
    of the module); asked without a height the voting modules answer for the present one.  The voting module is called by anybody
    outside, and by the DAO when it sends a message that is for the voting module
    (contracts/dao-dao-core/src/contract.rs:181-232); [for_v] reads these.

    [handle_v], [power] and [total] are the voting module's: those of dao-voting-token-staked,
    dao-voting-cw20-staked with cw20-stake, dao-voting-cw721-staked, dao-voting-cw4 with
    cw4-group, dao-voting-cw721-roles with its extension and dao-voting-onft-staked.

    Not modelled: what the voting module sends (see the models of the modules), and its
    answer to [IsActive], for which messages carry any answer. *)
From stdpp Require Import gmap strings.
From Verif Require Import Base VotingModel HooksModel MultModel CoreModel MDaoModel JointModel.

Section whole.
  Context {T MV XV : Type}.
  Variable handle_v : T -> block -> addr -> MV -> result (T * list XV).
  Variable power : T -> addr -> Z -> Z.
  Variable total : T -> Z -> Z.
  (** The messages of the DAO that are for the voting module. *)
  Variable for_v : N -> option MV.

  Record whole := Whole { w_dao : dao; w_v : T }.
  Inductive wevent :=
  | WDao (e : devent)               (* a step of the DAO and its proposal module *)
  | WVote (a : addr) (m : MV).      (* somebody outside calls the voting module *)

  (** What a step of the DAO says to the voting module. *)
  Definition said (K : codes) (d : dao) (e : devent) : option MV :=
    match e, d_todo d with
    | DSend, DK (KSend (inr n)) :: _ =>
        match call_of K n with Some _ => None | None => for_v n end
    | _, _ => None
    end.
  Definition w_event (K : codes) (s : whole) (b : block) (e : wevent) : result whole :=
    match e with
    | WDao e =>
        do! d <- d_event K (mult_ask power total (w_v s)) (w_dao s) b e;
        match said K (w_dao s) e with
        | Some m =>
            do! ' (t, _) <- handle_v (w_v s) b (k_self (d_core (w_dao s))) m;
            Ok (Whole d t)
        | None => Ok (Whole d (w_v s))
        end
    | WVote a m =>
        check! outside (w_dao s) a else "not outside";
        do! ' (t, _) <- handle_v (w_v s) b a m;
        Ok (Whole (w_dao s) t)
    end.
End whole.
Arguments Whole {T}.
Arguments w_dao {T}.
Arguments w_v {T}.
Arguments WDao {MV}.
Arguments WVote {MV}.
