(** Model of contracts/external/cw-payroll-factory/src/contract.rs and state.rs, joined to
    the model of cw-vesting.

    One call of [y_handle] runs the whole transaction: the factory's entry point, the
    instantiation of the vesting contract (sub-message with a reply on success), the reply
    and the message that funds the vesting contract.  Each of these reverts the call when it
    fails.  A call back into the factory by a token that misbehaves comes when the reply has
    been handled and the factory has nothing left to do, so it is the next call of the
    history.

    Cw20 tokens in [y_honest] are standard ones: their balances are [y_bal], and they call
    [Receive] of the factory only when tokens were sent to it.  Any other account may call
    [Receive] and say what it likes.  The label of the new contract is left out. *)
From Verif Require Import Base Exec StoreModel WormModel VestModel VestSpec.

(** state.rs:6-16; the list is indexed by contract, with instantiator and recipient. *)
Record ystate := YState {
  y_self : addr;
  y_own : own;
  y_code : Z;
  y_tmp : option addr;
  y_list : gmap addr (addr * addr);
  y_honest : gset addr;
  y_bal : gmap (addr * addr) Z }.

(** [new] is the address the chain gives the new contract.  [ans] is what a token that is
    not an honest one does when told to send: it fails ([None]), or it succeeds and calls
    the vesting contract ([Some true]) or does not ([Some false]). *)
Inductive ymsg :=
| YSend (token : addr) (n : Z) (i : vinit) (new : addr) (ans : option bool)
| YReceive (who : addr) (n : Z) (i : vinit) (new : addr) (ans : option bool)
| YNative (i : vinit) (new : addr) (ans : option bool)
| YOwn (a : own_action)
| YCode (n : Z)
| YTransfer (token to : addr) (n : Z).
(** A new vesting contract: its address, the code it runs, its admin, the message it was
    instantiated with, its state when the call ends. *)
Inductive ysub := YMade (new : addr) (code : Z) (admin : option addr) (i : vinit) (v : vstate).

Definition ybal (m : gmap (addr * addr) Z) (token who : addr) : Z := default 0 (m !! (token, who)).
(** A transfer of a cw20 token: nothing happens when it is to oneself. *)
Definition ymove (m : gmap (addr * addr) Z) (token from to : addr) (n : Z)
  : result (gmap (addr * addr) Z) :=
  check! n <=? ybal m token from else "insufficient funds";
  let m1 := <[(token, from) := ybal m token from - n]> m in
  Ok (<[(token, to) := ybal m1 token to + n]> m1).

Definition y_set_tmp (s : ystate) (t : option addr) : ystate :=
  YState (y_self s) (y_own s) (y_code s) t (y_list s) (y_honest s) (y_bal s).
Definition y_set_bal (s : ystate) (m : gmap (addr * addr) Z) : ystate :=
  YState (y_self s) (y_own s) (y_code s) (y_tmp s) (y_list s) (y_honest s) m.

(** contract.rs:31-44 [instantiate]. *)
Definition y_instantiate (self : addr) (owner : option addr) (code : Z) (honest : gset addr)
    (m : gmap (addr * addr) Z) : ystate :=
  YState self (initialize_owner owner) code None ∅ honest m.

(** contract.rs:295-348 [reply], with the message it sends. *)
Definition y_reply (s : ystate) (new : addr) (v : vstate) (ans : option bool)
  : result (ystate * vstate) :=
  some! inst <- y_tmp s else "not found";
  let s1 := YState (y_self s) (y_own s) (y_code s) None
              (<[new := (inst, ve_recipient (vs_vest v))]> (y_list s)) (y_honest s) (y_bal s) in
  match ve_denom (vs_vest v) with
  | DNative _ => Ok (s1, v)
  | DCw20 t =>
      let n := ve_total (vs_vest v) in
      if bool_decide (t ∈ y_honest s) then
        do! m <- ymove (y_bal s) t (y_self s) new n;
        do! ' (v', _) <- v_receive v t n;
        Ok (y_set_bal s1 m, v')
      else
        match ans with
        | None => Err "the token failed"
        | Some false => Ok (s1, v)
        | Some true => do! ' (v', _) <- v_receive v t n; Ok (s1, v')
        end
  end.
(** contract.rs:118-151 [instantiate_contract], and all that follows. *)
Definition y_create (s : ystate) (b : block) (sender : addr) (i : vinit) (new : addr)
    (ans : option bool) : result (ystate * list ysub) :=
  check! (match o_owner (y_own s) with Some o => (o =? sender)%N | None => true end)
    else "Unauthorized";
  check! fits_vinit i else "parse";
  check! bool_decide (y_list s !! new = None) && negb (new =? y_self s)%N else "address taken";
  do! ' (v, _) <- v_instantiate b i;
  do! ' (s', v') <- y_reply s new v ans;
  Ok (s', [YMade new (y_code s) (vi_owner i) i v']).
(** contract.rs:65-100 [execute_receive_cw20]; the caller is not checked. *)
Definition y_receive (s : ystate) (b : block) (who : addr) (n : Z) (i : vinit) (new : addr)
    (ans : option bool) : result (ystate * list ysub) :=
  check! (match vi_funds i with [] => true | _ => false end) else "NonPayable";
  check! bool_decide (y_tmp s = None) else "Reentrancy";
  let s1 := y_set_tmp s (Some who) in
  check! n =? vi_total i else "WrongFundAmount";
  y_create s1 b who i new ans.
(** contract.rs:102-112 [execute_instantiate_native_payroll_contract]; the funds of the call
    are those of the vesting contract. *)
Definition y_native (s : ystate) (b : block) (sender : addr) (i : vinit) (new : addr)
    (ans : option bool) : result (ystate * list ysub) :=
  y_create (y_set_tmp s (Some sender)) b sender i new ans.

(** contract.rs:46-63 [execute]; 153-161 [execute_update_owner]; 163-173
    [execute_update_code_id].  In [YSend] and [YTransfer] it is the token that is called. *)
Definition y_handle (s : ystate) (b : block) (sender : addr) (m : ymsg)
  : result (ystate * list ysub) :=
  match m with
  | YSend token n i new ans =>
      check! bool_decide (token ∈ y_honest s) else "not an honest token";
      check! 0 <=? n else "parse";
      do! m <- ymove (y_bal s) token sender (y_self s) n;
      y_receive (y_set_bal s m) b sender n i new ans
  | YReceive who n i new ans =>
      check! bool_decide (sender ∉ y_honest s) else "an honest token";
      y_receive s b who n i new ans
  | YNative i new ans => y_native s b sender i new ans
  | YOwn a =>
      do! o <- update_ownership (y_own s) b sender a;
      Ok (YState (y_self s) o (y_code s) (y_tmp s) (y_list s) (y_honest s) (y_bal s), [])
  | YCode n =>
      check! is_owner (y_own s) sender else "NotOwner";
      Ok (YState (y_self s) (y_own s) n (y_tmp s) (y_list s) (y_honest s) (y_bal s), [])
  | YTransfer token to n =>
      check! bool_decide (token ∈ y_honest s) else "not an honest token";
      check! 0 <=? n else "parse";
      do! m <- ymove (y_bal s) token sender to n;
      Ok (y_set_bal s m, [])
  end.

(** contract.rs:206-277, the queries by instantiator and by recipient, without their pages:
    an index of the map holds the entries with the value asked for. *)
Definition y_of_instantiator (s : ystate) (a : addr) : list addr :=
  map fst (base.filter (fun p => p.2.1 = a) (map_to_list (y_list s))).
Definition y_of_recipient (s : ystate) (a : addr) : list addr :=
  map fst (base.filter (fun p => p.2.2 = a) (map_to_list (y_list s))).
