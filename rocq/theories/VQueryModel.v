(** Model of the queries of contracts/external/cw-vesting/src/contract.rs (466-484) about the
    schedule, with vesting.rs.  [Ownership], [Info] and [Stake] return stored values and are
    not modelled here (the latter's functions are in WormModel.v). *)
From Verif Require Import Base Exec StoreModel WormModel VestModel.

(** contract.rs:470-474 [Distributable]; vesting.rs:157-168. *)
Definition q_distributable (s : vstate) (b : block) (t : option Z) : result Z :=
  distributable (vs_vest s) (vs_tr s) (default (time b) t).
(** contract.rs:476-480 [Vested]; vesting.rs:438-442. *)
Definition q_vested (s : vstate) (b : block) (t : option Z) : Z :=
  vested (vs_vest s) (default (time b) t).
(** contract.rs:481 [TotalToVest]; vesting.rs:432-435. *)
Definition q_total (s : vstate) : Z := ve_total (vs_vest s).
(** vesting.rs:453-462 [Vest::duration]; a piecewise curve has at least two points. *)
Definition curve_duration (c : curve) : option Z :=
  match c with
  | CConst _ => None
  | CLinear x0 _ x1 _ => Some (x1 - x0)
  | CPiece steps =>
      let x0 := match steps with p :: _ => p.1 | [] => 0 end in
      let x1 := match last steps with Some p => p.1 | None => 0 end in
      Some (x1 - x0)
  end.
(** contract.rs:482 [VestDuration]; vesting.rs:403-405. *)
Definition q_duration (s : vstate) : option Z := curve_duration (ve_curve (vs_vest s)).
