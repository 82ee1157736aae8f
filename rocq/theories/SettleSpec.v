(** What it means that deposits are settled. *)
From Verif Require Import Base Exec ExecProofs VotingModel HooksModel SingleModel SingleSpec PreModel PreSpec
  SettleModel.

Notation zrun O := (run_hist (zhandle O) zon_fail zon_ok).
Notation zlog := (log zstate zmsg jsub).

(** A pre-propose module at [j_self], just set up by a proposal module with any past, with any
    tokens sent there before; after a history [l], observed in block [b]. *)
Definition zstart (O : oracle) (b0 : block) (s : zstate) : Prop :=
  exists l0 k pm d p approver,
    reached O b0 (j_s (z_j s)) l0 /\
    pre_instantiate k pm (c_dao (s_cfg (j_s (z_j s)))) d p approver = Ok (j_q (z_j s)) /\
    s_policy (j_s (z_j s)) = Module (j_self (z_j s)) /\
    j_taken (z_j s) = [] /\ j_paid (z_j s) = [] /\ forall d, 0 <= z_held s d.
Definition zreached (O : oracle) (b0 : block) (s0 : zstate) (b : block) (s : zstate) (l : zlog) : Prop :=
  zstart O b0 s0 /\
  exists h, hist_ok b0 h /\ zrun O s0 h = (s, l) /\ block_le (hist_end b0 h) b.

(** The deposits the module has taken in coins of [x] and not paid out. *)
Definition paid_out (j : jstate) (w : reason) : bool :=
  existsb (fun p => bool_decide (pd_why p = w)) (j_paid j).
Definition coins_of (x : N) (o : option deposit) : Z :=
  match o with
  | Some d => if decide (d_denom d = Native x) then d_amount d else 0
  | None => 0
  end.
Definition unreturned (j : jstate) (x : N) : Z :=
  (* of proposals *)
  msum (fun id r => if paid_out j (RCompleted id) then 0 else coins_of x r.1) (q_deposits (j_q j)) +
  (* of submissions that wait *)
  msum (fun _ r => coins_of x (a_deposit r)) (q_pending (j_q j)) +
  (* of rejected submissions *)
  msum (fun i r => match a_status r with
                   | ARejected => if paid_out j (RRejected i) then 0 else coins_of x (a_deposit r)
                   | _ => 0
                   end) (q_completed (j_q j)).

(** The DAO takes no coins of [x] out of the module. *)
Definition left_alone (x : N) (l : zlog) : Prop :=
  forall pre b a f v d post subs,
    ECall pre b a (ZPre f v (PWithdraw d)) post subs ∈ l ->
    match d with
    | Some d => d <> Native x
    | None => forall e, q_deposit (j_q (z_j pre)) = Some e -> d_denom e <> Native x
    end.
(** The DAO takes nothing out, asks for deposits in coins only, and keeps the module. *)
Definition kept (l : zlog) : Prop :=
  forall pre b a m post subs, ECall pre b a m post subs ∈ l ->
    match m with
    | ZPre _ _ (PWithdraw _) => False
    | ZPre _ _ (PUpdateConfig (Some d) _) => exists x, d_denom d = Native x
    | ZSingle (UpdatePreProposeInfo _) => False
    | _ => True
    end.
Definition in_coins (o : option deposit) : Prop :=
  match o with Some d => exists x, d_denom d = Native x | None => True end.

(** The coins paid out for proposal [id]. *)
Definition refund_of (j : jstate) (id : Z) : list (denom * Z) :=
  map (fun p => (pd_denom p, pd_amount p)) (paid_for j (RCompleted id)).
