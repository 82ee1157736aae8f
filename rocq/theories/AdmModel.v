(** Model of contracts/external/cw-admin-factory/src/contract.rs and state.rs.

    The contract being made may call the factory back while it is instantiated, that is
    between the factory's entry point and its reply.  Code ids, labels, salts, messages and
    funds are handed on unchanged; [code] stands for them.  [a_chain] is the chain's record of
    the admins of the contracts made. *)
From Verif Require Import Base Exec.

Record astate := AState {
  a_self : addr;
  a_admin : option addr;
  a_expect : option addr;
  a_chain : gmap addr addr }.
Inductive amsg :=
| AInst (code : Z)
| AInst2 (code : Z) (expect : option addr).
(** The instantiation under way: whether the second message is used (reply id), the code, and,
    for the specification only, the address the caller expects; [a_reply] does not look at
    the latter. *)
Inductive asub := AMake (two : bool) (code : Z) (wanted : option addr).

(** 22-37 [instantiate]. *)
Definition a_instantiate (self : addr) (admin : option addr) : astate := AState self admin None ∅.
Definition a_allowed (s : astate) (sender : addr) : bool :=
  match a_admin s with Some x => (x =? sender)%N | None => true end.
(** 39-59 [execute], 61-90 [instantiate_contract], 92-132 [instantiate2_contract]. *)
Definition a_handle (s : astate) (b : block) (sender : addr) (m : amsg)
  : result (astate * list asub) :=
  match m with
  | AInst code =>
      check! a_allowed s sender else "Unauthorized";
      Ok (s, [AMake false code None])
  | AInst2 code expect =>
      check! a_allowed s sender else "Unauthorized";
      let s1 := match expect with
                | Some e => AState (a_self s) (a_admin s) (Some e) (a_chain s)
                | None => s
                end in
      Ok (s1, [AMake true code expect])
  end.
(** 144-179 [reply], for a contract made at the unused address [d].  Made with the factory as
    its admin, the contract becomes its own. *)
Definition a_reply (s : astate) (b : block) (x : asub) (d : addr) : result astate :=
  match x with
  | AMake two code _ =>
      check! bool_decide (a_chain s !! d = None) else "address taken";
      let made := <[d := a_self s]> (a_chain s) in
      do! e <- (if two then
                  match a_expect s with
                  | Some e => check! (d =? e)%N else "UnexpectedContractAddress"; Ok None
                  | None => Ok None
                  end
                else Ok (a_expect s));
      Ok (AState (a_self s) (a_admin s) e (<[d := d]> made))
  end.
(** A failed instantiation fails the call. *)
Definition a_fail (s : astate) (b : block) (x : asub) : result astate := Err "sub-message failed".
