(** Model of contracts/external/cw-token-swap/src/contract.rs and state.rs.

    [w_held] is the contract's balance of each token.  A transfer out is the last thing a
    handler does, so the handler performs it; a transfer that fails reverts the call.
    [WDonate] is a third party moving tokens to the contract without calling it, or coins
    attached to a call that ignores them.  The counterparties are other accounts than the
    contract; the cw20 tokens transfer what they say. *)
From Verif Require Import Base Exec StoreModel.

(** state.rs:12-29: a native denomination, or (true) a cw20 contract, and an amount. *)
Record party := Party {
  pa_addr : addr;
  pa_token : bool * N;
  pa_amount : Z;
  pa_provided : bool }.
Record wstate := WState { w_one : party; w_two : party; w_held : gmap (bool * N) Z }.

Inductive wmsg :=
| WReceive (from : addr) (n : Z)
| WFund (funds : list (N * Z))
| WWithdraw
| WDonate (t : bool * N) (n : Z).
Inductive wsub := WPay (t : bool * N) (to : addr) (n : Z).

(** state.rs:34-75 [into_checked]; [valid] is the outcome of the query for cw20 tokens. *)
Definition checked (a : addr) (t : bool * N) (n : Z) (valid : bool) : result party :=
  check! fits128 n else "parse";
  check! negb (n =? 0) else "ZeroTokens";
  check! negb t.1 || valid else "query failed";
  Ok (Party a t n false).
(** 20-42 [instantiate]. *)
Definition w_instantiate (a1 : addr) (t1 : bool * N) (n1 : Z) (v1 : bool)
    (a2 : addr) (t2 : bool * N) (n2 : Z) (v2 : bool) : result wstate :=
  do! p1 <- checked a1 t1 n1 v1;
  do! p2 <- checked a2 t2 n2 v2;
  check! negb (a1 =? a2)%N else "NonDistinctCounterparties";
  Ok (WState p1 p2 ∅).

Definition w_bal (m : gmap (bool * N) Z) (t : bool * N) : Z := default 0 (m !! t).
(** 64-85 [get_counterparty]: the party, the other, and whether it is the first. *)
Definition get_party (s : wstate) (a : addr) : result (party * party * bool) :=
  if (a =? pa_addr (w_one s))%N then Ok (w_one s, w_two s, true)
  else if (a =? pa_addr (w_two s))%N then Ok (w_two s, w_one s, false)
  else Err "Unauthorized".
Definition save (s : wstate) (first : bool) (p : party) (held : gmap (bool * N) Z) : wstate :=
  if first then WState p (w_two s) held else WState (w_one s) p held.
Definition provide (p : party) (x : bool) : party :=
  Party (pa_addr p) (pa_token p) (pa_amount p) x.
(** state.rs:77-103 [into_send_message], performed. *)
Definition pay_out (m : gmap (bool * N) Z) (p : party) : result (gmap (bool * N) Z) :=
  check! pa_amount p <=? w_bal m (pa_token p) else "insufficient funds";
  Ok (<[pa_token p := w_bal m (pa_token p) - pa_amount p]> m).
Definition take_in (m : gmap (bool * N) Z) (t : bool * N) (n : Z) : result (gmap (bool * N) Z) :=
  check! w_bal m t + n <=? U128_MAX else "more tokens than the supply";
  Ok (<[t := w_bal m t + n]> m).
(** 91-131 [do_fund]; the tokens have arrived before. *)
Definition do_fund (s : wstate) (m : gmap (bool * N) Z) (p o : party) (first : bool) (paid : Z)
  : result (wstate * list wsub) :=
  check! negb (pa_provided p) else "AlreadyProvided";
  check! paid =? pa_amount p else "InvalidAmount";
  let p' := provide p true in
  if pa_provided p' && pa_provided o then
    do! m1 <- pay_out m p';
    do! m2 <- pay_out m1 o;
    Ok (save s first p' m2,
        [WPay (pa_token p') (pa_addr o) (pa_amount p'); WPay (pa_token o) (pa_addr p') (pa_amount o)])
  else Ok (save s first p' m, []).

Definition w_handle (s : wstate) (b : block) (sender : addr) (m : wmsg)
  : result (wstate * list wsub) :=
  match m with
  (* 133-168 [execute_receive]; the sender is the token contract *)
  | WReceive from n =>
      check! fits128 n else "parse";
      do! ' (p, o, first) <- get_party s from;
      match pa_token p with
      | (true, t) =>
          check! (t =? sender)%N else "InvalidFunds";
          do! h <- take_in (w_held s) (true, t) n;
          do_fund s h p o first n
      | (false, _) => Err "InvalidFunds"
      end
  (* 170-194 [execute_fund] *)
  | WFund funds =>
      check! forallb (fun c => fits128 c.2) funds else "parse";
      do! ' (p, o, first) <- get_party s sender;
      match pa_token p with
      | (false, t) =>
          do! n <- must_pay funds t;
          do! h <- take_in (w_held s) (false, t) n;
          do_fund s h p o first n
      | (true, _) => Err "InvalidFunds"
      end
  (* 196-230 [execute_withdraw] *)
  | WWithdraw =>
      do! ' (p, o, first) <- get_party s sender;
      check! pa_provided p else "NoProvision";
      check! negb (pa_provided p && pa_provided o) else "Complete";
      do! h <- pay_out (w_held s) p;
      Ok (save s first (provide p false) h, [WPay (pa_token p) (pa_addr p) (pa_amount p)])
  | WDonate t n =>
      check! fits128 n else "parse";
      do! h <- take_in (w_held s) t n;
      Ok (WState (w_one s) (w_two s) h, [])
  end.
