(** cw-vesting: theorems.  Each is followed by what it rests on and by a concrete case
    meeting its hypotheses. *)
From Verif Require Import Base BaseProofs Exec ExecProofs Plain StoreModel WormModel
  VestModel VestSpec VestProofs VestClaims VestExamples.

(** * C45 *)
Theorem C45_paid_at_most_vested i b s l :
  vreached i b s l ->
  ve_claimed (vs_vest s) = paid_vestee l /\ 0 <= paid_vestee l <= vested_at s b /\
  vested_at s b <= vi_total i.
Proof. exact (c45_paid i b s l). Qed.
Print Assumptions C45_paid_at_most_vested.
Theorem C45_each_payment i b s l a m s' subs r n :
  vreached i b s l -> v_handle s b a m = Ok (s', subs) -> VPayVestee r n ∈ subs ->
  r = vi_recipient i /\ 0 < n /\ paid_vestee l + n + slashes s <= vested_at s b.
Proof. exact (c45_payment i b s l a m s' subs r n). Qed.
Print Assumptions C45_each_payment.
Theorem C45_everything_in_the_end i b s l a :
  vreached i b s l -> ve_status (vs_vest s) = Funded ->
  vested_at s b = vi_total i -> slashes s = 0 -> booked_staked s b = 0 -> slashed_unbonding l = 0 ->
  v_distributable s b = Ok (vi_total i - paid_vestee l) /\
  (paid_vestee l < vi_total i ->
   exists s', v_handle s b a (VDistribute None) =
     Ok (s', [VPayVestee (vi_recipient i) (vi_total i - paid_vestee l)])).
Proof. exact (c45_full i b s l a). Qed.
Print Assumptions C45_everything_in_the_end.
Theorem C45_schedule_grows i b s l b' :
  vreached i b s l -> block_le b b' -> vested_at s b <= vested_at s b'.
Proof. exact (c45_grows i b s l b'). Qed.
Print Assumptions C45_schedule_grows.
(** [elapsed]: whole seconds since the start.  Linear schedules lose less than one token
    and a 10^-18th of the total to rounding. *)
Theorem C45_schedule_linear i b s l :
  vreached i b s l -> ~ is_canceled s -> vi_schedule i = SLinear ->
  (vi_dur i <= elapsed s b -> vested_at s b = vi_total i) /\
  (elapsed s b <= vi_dur i ->
   vested_at s b * vi_dur i <= vi_total i * elapsed s b /\
   vi_total i * elapsed s b * 10 ^ 18 <
     (vested_at s b + 1) * vi_dur i * 10 ^ 18 + vi_total i * vi_dur i).
Proof. exact (c45_linear i b s l). Qed.
Print Assumptions C45_schedule_linear.
Theorem C45_schedule_piecewise i b s l steps y :
  vreached i b s l -> ~ is_canceled s -> vi_schedule i = SPiece steps ->
  (elapsed s b, y) ∈ steps -> vested_at s b = y.
Proof. exact (c45_piecewise i b s l steps y). Qed.
Print Assumptions C45_schedule_piecewise.
(** Tokens slashed after a payment are not taken back. *)
Theorem C45_later_slash_refuted :
  exists i b s l, vreached i b s l /\ vested_at s b - slashes s < paid_vestee l.
Proof. exact c45_later_slash_refuted. Qed.
Print Assumptions C45_later_slash_refuted.
Example C45_case :
  vreached lin (vb 55) (fst ex_v1) (snd ex_v1) /\ paid_vestee (snd ex_v1) = 45 /\
  vested_at (fst ex_v1) (vb 55) = 55 /\ slashes (fst ex_v1) = 5 /\
  (exists s', v_handle (fst ex_v1) (vb 55) 5%N (VDistribute None) = Ok (s', [VPayVestee 2%N 5])) /\
  v_handle (fst ex_v1) (vb 55) 5%N (VDistribute (Some 6)) = Err "InvalidWithdrawal" /\
  (* all of it *)
  vreached lin (vb 100) (fst ex_v3) (snd ex_v3) /\ ve_status (vs_vest (fst ex_v3)) = Funded /\
  vested_at (fst ex_v3) (vb 100) = 100 /\ slashes (fst ex_v3) = 0 /\
  booked_staked (fst ex_v3) (vb 100) = 0 /\ slashed_unbonding (snd ex_v3) = 0 /\
  paid_vestee (snd ex_v3) = 25 /\
  (* one second earlier *)
  vested_at (fst ex_v3) (vb 99) = 99 /\
  (* a cw20 vest *)
  vreached (vin SLinear (DCw20 70%N)) (vb 20) (fst ex_v4) (snd ex_v4) /\ paid_vestee (snd ex_v4) = 20.
Proof.
  split; [exact ex_v1_reached|]. split; [vm_compute; reflexivity|]. split; [vm_compute; reflexivity|].
  split; [vm_compute; reflexivity|]. split; [eexists; vm_compute; reflexivity|].
  split; [vm_compute; reflexivity|]. split; [vreach|].
  vcase.
Qed.
Example C45_schedule_case :
  vreached stepped (vb 65) (vini stepped) [] /\ ~ is_canceled (vini stepped) /\
  elapsed (vini stepped) (vb 40) = 40 /\ vested_at (vini stepped) (vb 40) = 20 /\
  vested_at (vini stepped) (vb 65) = 60 /\ vested_at (vini stepped) (vb 5) = 8 /\
  vested_at (vini stepped) (vb 200) = 100.
Proof.
  split; [apply (vreached_run stepped [] (vb 65)); vside|].
  split; [intros [ow H]; vm_compute in H; discriminate|]. repeat split; vm_compute; reflexivity.
Qed.

(** * C46 *)
Theorem C46_tokens_add_up i b s l :
  vreached i b s l ->
  paid_vestee l + paid_owner l + bonded s + unbonding s b + slashed_bonded l + slashed_unbonding l +
    holds s b = brought i l + donated l /\
  (brought i l = 0 \/ brought i l = vi_total i).
Proof. exact (c46_adds_up i b s l). Qed.
Print Assumptions C46_tokens_add_up.
Theorem C46_books_match_balance i b s l :
  vreached i b s l -> ve_status (vs_vest s) = Funded -> vi_chain_ub i = vi_ub i ->
  forallb no_unb l = true ->
  paid_vestee l + booked_staked s b + slashes s + holds s b = vi_total i + donated l.
Proof. exact (c46_exact i b s l). Qed.
Print Assumptions C46_books_match_balance.
(** The last summand: tokens the chain slashed while they were unbonding. *)
Theorem C46_covered_before_cancellation_partial i b s l d :
  vreached i b s l -> ~ is_canceled s -> v_distributable s b = Ok d ->
  d + donated l <= holds s b + slashed_unbonding l.
Proof. exact (c46_covered i b s l d). Qed.
Print Assumptions C46_covered_before_cancellation_partial.
Theorem C46_unreported_slash_refuted :
  exists i b s l d, vreached i b s l /\ ve_status (vs_vest s) = Funded /\
    v_distributable s b = Ok d /\ holds s b < d /\
    forall a, v_handle s b a (VDistribute None) = Err "bank: insufficient funds".
Proof. exact c46_unreported_refuted. Qed.
Print Assumptions C46_unreported_slash_refuted.
Example C46_case :
  vreached lin (vb 55) (fst ex_v1) (snd ex_v1) /\ paid_vestee (snd ex_v1) = 45 /\
  bonded (fst ex_v1) = 35 /\ unbonding (fst (vrun lin (take 7 ex_vh1))) (vb 40) = 10 /\ unbonding (fst ex_v1) (vb 55) = 0 /\
  slashed_bonded (snd ex_v1) = 5 /\ holds (fst ex_v1) (vb 55) = 18 /\ brought lin (snd ex_v1) = 100 /\
  donated (snd ex_v1) = 3 /\ ve_status (vs_vest (fst ex_v1)) = Funded /\
  booked_staked (fst ex_v1) (vb 55) = 35 /\ forallb no_unb (snd ex_v1) = true /\
  v_distributable (fst ex_v1) (vb 55) = Ok 5 /\
  vreached lin (vb 80) (fst ex_v2) (snd ex_v2) /\ paid_vestee (snd ex_v2) = 55 /\
  paid_owner (snd ex_v2) = 40 /\ holds (fst ex_v2) (vb 80) = 3.
Proof.
  split; [exact ex_v1_reached|].
  vcase.
Qed.

(** * C47 *)
Theorem C47_each_side_bounded i b s l pre b1 a post subs :
  vreached i b s l -> ECall pre b1 a VCancel post subs ∈ l ->
  paid_vestee l <= vested_at pre b1 /\ paid_owner l <= vi_total i - vested_at pre b1 /\
  forall b', vested_at s b' = vested_at pre b1.
Proof. exact (c47_bounds i b s l pre b1 a post subs). Qed.
Print Assumptions C47_each_side_bounded.
Theorem C47_recipient_gets_vested i b s l a :
  vreached i b s l -> is_canceled s -> booked_staked s b = 0 -> slashed_unbonding l = 0 ->
  let owed := vested_at s b - paid_vestee l - slashes s in
  0 < owed ->
  exists s', v_handle s b a (VDistribute None) = Ok (s', [VPayVestee (vi_recipient i) owed]).
Proof. exact (c47_settles i b s l a). Qed.
Print Assumptions C47_recipient_gets_vested.
Theorem C47_only_unbonding_matters i b s l b1 b2 :
  vreached i b s l -> is_canceled s -> booked_staked s b1 = booked_staked s b2 ->
  v_distributable s b1 = v_distributable s b2.
Proof. exact (c47_no_clock i b s l b1 b2). Qed.
Print Assumptions C47_only_unbonding_matters.
Example C47_case :
  vreached lin (vb 80) (fst ex_v2) (snd ex_v2) /\
  (exists pre post subs, ECall pre (vb 60) 1%N VCancel post subs ∈ snd ex_v2 /\
     vested_at pre (vb 60) = 60) /\
  paid_vestee (snd ex_v2) = 55 /\ paid_owner (snd ex_v2) = 40 /\ vested_at (fst ex_v2) (vb 5000) = 60 /\
  (* 50 vested, 25 of them paid, 25 still to come *)
  vreached lin (vb 70) (fst ex_v5) (snd ex_v5) /\ is_canceled (fst ex_v5) /\
  booked_staked (fst ex_v5) (vb 70) = 0 /\ slashed_unbonding (snd ex_v5) = 0 /\
  vested_at (fst ex_v5) (vb 70) - paid_vestee (snd ex_v5) - slashes (fst ex_v5) = 25 /\
  v_distributable (fst ex_v5) (vb 70) = Ok 25 /\ v_distributable (fst ex_v5) (vb 7000) = Ok 25.
Proof.
  split; [exact ex_v2_reached|].
  split. { do 3 eexists. split; [apply (elem_of_list_lookup_2 _ 15); vm_compute; reflexivity|].
    vm_compute. reflexivity. }
  split; [vm_compute; reflexivity|]. split; [vm_compute; reflexivity|]. split; [vm_compute; reflexivity|].
  split; [vreach|]. split; [exists 50; vm_compute; reflexivity|]. repeat split; vm_compute; reflexivity.
Qed.

(** * C48 *)
Theorem C48_covered_partial i b s l ow d :
  vreached i b s l -> ve_status (vs_vest s) = Canceled ow -> v_distributable s b = Ok d ->
  slashes s = 0 \/ booked_staked s b <= ow ->
  d <= holds s b + slashed_unbonding l.
Proof. exact (c48_covered i b s l ow d). Qed.
Print Assumptions C48_covered_partial.
Theorem C48_covered_refuted :
  exists i b s l d, vreached i b s l /\ is_canceled s /\ slashed_unbonding l = 0 /\
    v_distributable s b = Ok d /\ holds s b < d /\
    forall a, v_handle s b a (VDistribute None) = Err "bank: insufficient funds".
Proof. exact c48_refuted. Qed.
Print Assumptions C48_covered_refuted.
Example C48_case :
  vreached lin (vb 70) (fst ex_v5) (snd ex_v5) /\ ve_status (vs_vest (fst ex_v5)) = Canceled 50 /\
  v_distributable (fst ex_v5) (vb 70) = Ok 25 /\ slashes (fst ex_v5) = 0 /\
  holds (fst ex_v5) (vb 70) = 75 /\
  (* with slashes, all of it unbonded *)
  vreached lin (vb 80) (fst ex_v2) (snd ex_v2) /\ slashes (fst ex_v2) = 5 /\
  booked_staked (fst ex_v2) (vb 80) = 0.
Proof.
  split; [vreach|].
  vcase.
Qed.

(** * C76 *)
Theorem C76_can_cancel_partial i b s l a :
  vreached i b s l -> ve_status (vs_vest s) = Funded -> is_owner (vs_own s) a = true ->
  vi_chain_ub i = vi_ub i -> forallb no_unb l = true -> donated l = 0 ->
  exists s' subs, v_handle s b a VCancel = Ok (s', subs).
Proof. exact (c76_cancel i b s l a). Qed.
Print Assumptions C76_can_cancel_partial.
Theorem C76_recipient_blocks_refuted :
  exists i b s l, vreached i b s l /\ ve_status (vs_vest s) = Funded /\
    is_owner (vs_own s) 1%N = true /\ v_handle s b 1%N VCancel = Err "panic".
Proof. exact c76_blocked_refuted. Qed.
Print Assumptions C76_recipient_blocks_refuted.
Theorem C76_unfunded_refuted :
  exists i b s l, vreached i b s l /\ ve_status (vs_vest s) = Unfunded /\
    is_owner (vs_own s) 1%N = true /\ v_handle s b 1%N VCancel = Err "panic".
Proof. exact c76_unfunded_refuted. Qed.
Print Assumptions C76_unfunded_refuted.
Example C76_case :
  vreached lin (vb 50) (fst (vrun lin (take 7 ex_vh1))) (snd (vrun lin (take 7 ex_vh1))) /\
  ve_status (vs_vest (fst (vrun lin (take 7 ex_vh1)))) = Funded /\
  forallb no_unb (snd (vrun lin (take 7 ex_vh1))) = true /\ donated (snd (vrun lin (take 7 ex_vh1))) = 0 /\
  (exists s', v_handle (fst (vrun lin (take 7 ex_vh1))) (vb 50) 1%N VCancel =
     Ok (s', [VRewardsTo 1%N; VPayOwner 1%N 15; VPayVestee 2%N 35])) /\
  (* a blocked cancellation: the recipient ends up with the whole vest *)
  vreached lin (vb 100) (fst ex_v6) (snd ex_v6) /\ paid_vestee (snd ex_v6) = 100 /\
  paid_owner (snd ex_v6) = 0.
Proof.
  split; [vreach|]. split; [vm_compute; reflexivity|]. split; [vm_compute; reflexivity|].
  split; [vm_compute; reflexivity|]. split; [eexists; vm_compute; reflexivity|]. split; [vreach|].
  split; vm_compute; reflexivity.
Qed.
