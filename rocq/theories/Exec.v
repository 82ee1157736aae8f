(** CosmWasm transaction semantics for one contract (external platform
    behaviour, see the CosmWasm SEMANTICS document): a call runs the entry
    point, then its sub-messages in order, depth first.  A sub-message either
    succeeds - and while running may call back into this contract any number
    of times - or fails, in which case everything it did is reverted.  The
    contract's [reply] then runs if the sub-message asked for it; a failure
    that is not caught reverts the whole call. *)
From Verif Require Import Base.

Section Exec.
  Context {State Msg Sub : Type}.
  (** Entry point: new state and emitted sub-messages, or an error. *)
  Variable handle : State -> block -> addr -> Msg -> result (State * list Sub).
  (** What happens when an emitted sub-message fails: the error reply
      ([reply_on_error]), or an error if it is not caught. *)
  Variable on_fail : State -> block -> Sub -> result State.
  (** What happens when it succeeds: the success reply (with the address of an
      instantiated contract as data), or nothing. *)
  Variable on_ok : State -> block -> Sub -> addr -> result State.

  (** A call and, for each sub-message it emits, its fate: [None] = fails,
      [Some (data, inner)] = succeeds after making the calls [inner] back into
      this contract (each of which may itself fail and be caught). *)
  Inductive call :=
  | Call (sender : addr) (m : Msg) (outs : list (option (addr * list call))).

  (** Committed steps, with the state before and after. *)
  Inductive event :=
  | ECall (pre : State) (b : block) (sender : addr) (m : Msg)
          (post : State) (subs : list Sub)
  | ESub (pre : State) (b : block) (sub : Sub) (ok : bool) (post : State).
  Definition log := list event.

  (** Sub-messages without a listed fate succeed quietly. *)
  Fixpoint run_quiet (b : block) (s : State) (subs : list Sub)
    : result (State * log) :=
    match subs with
    | [] => Ok (s, [])
    | sub :: subs' =>
        do! s' <- on_ok s b sub 0%N;
        do! ' (s'', l) <- run_quiet b s' subs';
        Ok (s'', ESub s b sub true s' :: l)
    end.

  Fixpoint run_call (b : block) (s : State) (c : call) {struct c}
    : result (State * log) :=
    match c with
    | Call sender m outs =>
        do! ' (s1, subs) <- handle s b sender m;
        let run_calls :=
          fix run_calls (s : State) (cs : list call) : State * log :=
            match cs with
            | [] => (s, [])
            | c :: cs' =>
                match run_call b s c with
                | Ok (s', l) =>
                    let '(s'', l') := run_calls s' cs' in (s'', l ++ l')
                | Err _ => run_calls s cs'
                end
            end in
        let run_subs :=
          fix run_subs (s : State) (subs : list Sub)
              (outs : list (option (addr * list call))) {struct outs}
            : result (State * log) :=
            match outs with
            | [] => run_quiet b s subs
            | o :: outs' =>
                match subs with
                | [] => Ok (s, [])
                | sub :: subs' =>
                    match o with
                    | None =>
                        do! s' <- on_fail s b sub;
                        do! ' (s'', l) <- run_subs s' subs' outs';
                        Ok (s'', ESub s b sub false s' :: l)
                    | Some (d, inner) =>
                        let '(s1, l1) := run_calls s inner in
                        do! s' <- on_ok s1 b sub d;
                        do! ' (s'', l) <- run_subs s' subs' outs';
                        Ok (s'', l1 ++ ESub s1 b sub true s' :: l)
                    end
                end
            end in
        do! ' (s2, l) <- run_subs s1 subs outs;
        Ok (s2, ECall s b sender m s1 subs :: l)
    end.

  (** The two local loops, as stand-alone functions (used to state lemmas). *)
  Definition run_calls (b : block) : State -> list call -> State * log :=
    fix run_calls (s : State) (cs : list call) : State * log :=
      match cs with
      | [] => (s, [])
      | c :: cs' =>
          match run_call b s c with
          | Ok (s', l) =>
              let '(s'', l') := run_calls s' cs' in (s'', l ++ l')
          | Err _ => run_calls s cs'
          end
      end.
  Definition run_subs (b : block)
    : State -> list Sub -> list (option (addr * list call)) -> result (State * log) :=
    fix run_subs (s : State) (subs : list Sub)
        (outs : list (option (addr * list call))) {struct outs}
      : result (State * log) :=
      match outs with
      | [] => run_quiet b s subs
      | o :: outs' =>
          match subs with
          | [] => Ok (s, [])
          | sub :: subs' =>
              match o with
              | None =>
                  do! s' <- on_fail s b sub;
                  do! ' (s'', l) <- run_subs s' subs' outs';
                  Ok (s'', ESub s b sub false s' :: l)
              | Some (d, inner) =>
                  let '(s1, l1) := run_calls b s inner in
                  do! s' <- on_ok s1 b sub d;
                  do! ' (s'', l) <- run_subs s' subs' outs';
                  Ok (s'', l1 ++ ESub s1 b sub true s' :: l)
              end
          end
      end.

  (** A history: transactions in blocks.  A transaction that errors leaves the
      state unchanged and commits nothing. *)
  Fixpoint run_hist (s : State) (h : list (block * call)) : State * log :=
    match h with
    | [] => (s, [])
    | (b, c) :: h' =>
        match run_call b s c with
        | Ok (s', l) => let '(s'', l') := run_hist s' h' in (s'', l ++ l')
        | Err _ => run_hist s h'
        end
    end.

  (** Blocks never go backwards. *)
  Fixpoint hist_ok (b0 : block) (h : list (block * call)) : Prop :=
    match h with
    | [] => True
    | (b, _) :: h' => block_le b0 b /\ hist_ok b h'
    end.
  (** The last block of a history. *)
  Fixpoint hist_end (b0 : block) (h : list (block * call)) : block :=
    match h with [] => b0 | (b, _) :: h' => hist_end b h' end.
End Exec.

Arguments call : clear implicits.
Arguments Call {Msg} sender m outs.
Arguments event : clear implicits.
Arguments log : clear implicits.
Arguments ECall {State Msg Sub} pre b sender m post subs.
Arguments ESub {State Msg Sub} pre b sub ok post.
