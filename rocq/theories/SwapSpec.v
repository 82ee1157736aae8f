(** What is claimed of the token swap. *)
From Verif Require Import Base Exec Plain StoreModel SwapModel.

Notation wlog := (log wstate wmsg wsub).
Notation wevent := (event wstate wmsg wsub).

(** The agreement: who promises how much of what. *)
Record deal := Deal {
  d_a1 : addr; d_t1 : bool * N; d_n1 : Z;
  d_a2 : addr; d_t2 : bool * N; d_n2 : Z }.
Definition wreached (d : deal) (b : block) (s : wstate) (l : wlog) : Prop :=
  exists b0 v1 v2 s0,
    w_instantiate (d_a1 d) (d_t1 d) (d_n1 d) v1 (d_a2 d) (d_t2 d) (d_n2 d) v2 = Ok s0 /\
    leads w_handle b0 s0 b s l.

(** Tokens [t] brought by [a] in calls, and sent to [a]. *)
Definition coins (t : bool * N) (funds : list (N * Z)) : Z :=
  lsum (fun c => if decide (t = (false, c.1)) then c.2 else 0) funds.
Definition ev_in (a : addr) (t : bool * N) (e : wevent) : Z :=
  match e with
  | ECall _ _ sender (WReceive from n) _ _ =>
      if decide (from = a /\ t = (true, sender)) then n else 0
  | ECall _ _ sender (WFund funds) _ _ => if decide (sender = a) then coins t funds else 0
  | _ => 0
  end.
Definition out_to (a : addr) (t : bool * N) (x : wsub) : Z :=
  match x with WPay t' a' n => if decide (a' = a /\ t' = t) then n else 0 end.
Definition ev_out (a : addr) (t : bool * N) (e : wevent) : Z :=
  match e with ECall _ _ _ _ _ subs => lsum (out_to a t) subs | _ => 0 end.
Definition brought (a : addr) (t : bool * N) (l : wlog) : Z := lsum (ev_in a t) l.
Definition got (a : addr) (t : bool * N) (l : wlog) : Z := lsum (ev_out a t) l.
Definition gift (t : bool * N) (e : wevent) : Z :=
  match e with
  | ECall _ _ _ (WDonate t' n) _ _ => if decide (t' = t) then n else 0
  | _ => 0
  end.
Definition given (t : bool * N) (l : wlog) : Z := lsum (gift t) l.
(** What a party is out of pocket. *)
Definition spent (a : addr) (t : bool * N) (l : wlog) : Z := brought a t l - got a t l.
(** [n] of [u], nothing of anything else. *)
Definition only (u : bool * N) (n : Z) (t : bool * N) : Z := if decide (t = u) then n else 0.

(** Nothing is in the contract of a party, or exactly its promise. *)
Definition escrow (d : deal) (x1 x2 : bool) (l : wlog) : Prop :=
  forall t, spent (d_a1 d) t l = (if x1 then only (d_t1 d) (d_n1 d) t else 0) /\
            spent (d_a2 d) t l = (if x2 then only (d_t2 d) (d_n2 d) t else 0).
(** Each has given its promise and has received the other's. *)
Definition swapped (d : deal) (l : wlog) : Prop :=
  forall t, spent (d_a1 d) t l = only (d_t1 d) (d_n1 d) t - only (d_t2 d) (d_n2 d) t /\
            spent (d_a2 d) t l = only (d_t2 d) (d_n2 d) t - only (d_t1 d) (d_n1 d) t.
