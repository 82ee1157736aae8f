(** Specification vocabulary for a reward distributor that serves a staking contract. *)
From Coq Require Import QArith.
From Verif Require Import Base Exec Plain StoreModel StakeModel StakeSpec DistModel DistSpec FlowModel.
Local Open Scope Z_scope.

Notation flog := (log fstate fmsg fsub).
Notation fevent := (event fstate fmsg fsub).

(** Both contracts have any past; then they are used together, with the log [l]. *)
Definition freached (b : block) (s : fstate) (l : flog) : Prop :=
  exists b0 s0 ld lk,
    dreached b0 (f_d s0) ld /\ kreached b0 (f_k s0) lk /\ f_dist s0 <> f_stk s0 /\
    f_held s0 <= U128_MAX /\ leads f_handle b0 s0 b s l.
(** The distributor is set to pay this staking contract in its token. *)
Definition serves (s : fstate) : Prop :=
  d_staking (f_d s) = f_stk s /\ d_token (f_d s) = k_token (f_k s).

(** What one share is worth. *)
Definition price (s : fstate) : Q := (inject_Z (k_pool (f_k s)) / inject_Z (total_staked (f_k s)))%Q.
(** What a call of the distributor brings to one share. *)
Definition brings (stk : addr) (x : fsub) : Z :=
  match x with FD (DFund _ a n) => if (a =? stk)%N then n else 0 | _ => 0 end.
Definition ev_brings (e : fevent) : Z :=
  match e with ECall pre _ _ _ _ subs => lsum (brings (f_stk pre)) subs | _ => 0 end.
Definition per_share (e : fevent) : Q :=
  match e with
  | ECall pre _ _ _ _ _ => (inject_Z (ev_brings e) / inject_Z (total_staked (f_k pre)))%Q
  | _ => 0%Q
  end.
Definition rewards (l : flog) : Q := fold_right (fun e q => (per_share e + q)%Q) 0%Q l.
(** Everything the distributor brought. *)
Definition brought (l : flog) : Z := lsum ev_brings l.
