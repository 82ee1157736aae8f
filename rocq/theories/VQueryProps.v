(** The queries of cw-vesting: theorems.  Each is followed by what it rests on and by a
    concrete case meeting its hypotheses. *)
From Verif Require Import Base BaseProofs Exec ExecProofs Plain StoreModel WormModel
  VestModel VestSpec VestProofs VestClaims VestExamples VQueryModel VQueryClaims VQueryExamples.

(** * C143 *)
Theorem C143_total_before i b s l : vreached i b s l -> ~ is_canceled s -> q_total s = vi_total i.
Proof. exact (total_before i b s l). Qed.
Print Assumptions C143_total_before.
Theorem C143_total_after i b s l pre b1 a post subs :
  vreached i b s l -> ECall pre b1 a VCancel post subs ∈ l ->
  q_total s = q_vested pre b1 None /\ (forall b' t, q_vested s b' t = q_total s) /\ q_duration s = None.
Proof. exact (total_after i b s l pre b1 a post subs). Qed.
Print Assumptions C143_total_after.
Theorem C143_vested_most i b s l b' t :
  vreached i b s l ->
  0 <= q_vested s b' t <= q_total s /\
  (forall u, default (time b') t <= u -> q_vested s b' t <= q_vested s b' (Some u)) /\
  exists u, forall u', u <= u' -> q_vested s b' (Some u') = q_total s.
Proof. exact (vested_most i b s l b' t). Qed.
Print Assumptions C143_vested_most.
Theorem C143_vested_start i b s l b' t :
  vreached i b s l -> ~ is_canceled s -> t <= ve_start (vs_vest s) -> q_vested s b' (Some t) = 0.
Proof. exact (vested_start i b s l b' t). Qed.
Print Assumptions C143_vested_start.
(** The answer for a time that has not passed is what can be paid then, if nothing happens
    meanwhile and the contract holds it. *)
Theorem C143_distributable i b s l b' d a :
  vreached i b s l -> block_le b b' -> q_distributable s b (Some (time b')) = Ok d -> d <= holds s b' ->
  (0 < d -> exists s', v_handle s b' a (VDistribute None) = Ok (s', [VPayVestee (vi_recipient i) d])) /\
  (forall r, fits128 r = true ->
     (0 < r <= d -> exists s', v_handle s b' a (VDistribute (Some r)) = Ok (s', [VPayVestee (vi_recipient i) r])) /\
     (r = 0 \/ d < r -> is_ok (v_handle s b' a (VDistribute (Some r))) = false)) /\
  (d = 0 -> is_ok (v_handle s b' a (VDistribute None)) = false).
Proof. exact (distributable_now i b s l b' d a). Qed.
Print Assumptions C143_distributable.
Theorem C143_duration_none i b s l : vreached i b s l -> q_duration s = None <-> is_canceled s.
Proof. exact (duration_none i b s l). Qed.
Print Assumptions C143_duration_none.
Theorem C143_duration_linear i b s l :
  vreached i b s l -> ~ is_canceled s -> vi_schedule i = SLinear ->
  q_duration s = Some (vi_dur i) /\
  forall t, q_vested s b (Some t) = q_total s <-> vi_dur i <= sec t - sec (ve_start (vs_vest s)).
Proof. exact (duration_linear i b s l). Qed.
Print Assumptions C143_duration_linear.
(** For a schedule in steps, [VestDuration] is too short by the time of the first step. *)
Theorem C143_duration_partial i b s l p steps :
  vreached i b s l -> ~ is_canceled s -> vi_schedule i = SPiece (p :: steps) ->
  0 < p.1 /\
  exists d, q_duration s = Some d /\ 0 <= d /\
    forall t, p.1 + d <= sec t - sec (ve_start (vs_vest s)) -> q_vested s b (Some t) = q_total s.
Proof. exact (duration_piecewise i b s l p steps). Qed.
Print Assumptions C143_duration_partial.
Theorem C143_duration_refuted :
  exists i b s l d, vreached i b s l /\ ~ is_canceled s /\ q_duration s = Some d /\
    sec (time b) - sec (ve_start (vs_vest s)) = d /\ q_vested s b None < q_total s /\ d <> vi_dur i.
Proof. exact duration_refuted. Qed.
Print Assumptions C143_duration_refuted.
(** [Distributable] does not answer for times before a payment. *)
Theorem C143_past_refuted :
  exists i b s l t, vreached i b s l /\ ve_status (vs_vest s) = Funded /\ 0 <= t <= time b /\
    0 < q_vested s b (Some t) /\ is_ok (q_distributable s b (Some t)) = false.
Proof. exact past_refuted. Qed.
Print Assumptions C143_past_refuted.
(** What starts now or later has vested nothing when it is made.  What started earlier may
    have vested entirely, the check at instantiation notwithstanding. *)
Theorem C143_new_partial b i s subs :
  fits_vinit i = true -> 0 <= time b -> v_instantiate b i = Ok (s, subs) ->
  time b <= default (time b) (vi_start i) -> vested_at s b = 0.
Proof. exact (new_nothing b i s subs). Qed.
Print Assumptions C143_new_partial.
Theorem C143_instavest_refuted :
  exists b i, vi_schedule i <> SLinear /\ at_once b i.
Proof. exact instavest_refuted. Qed.
Print Assumptions C143_instavest_refuted.
Theorem C143_instavest_linear_refuted :
  exists b i, vi_schedule i = SLinear /\ at_once b i.
Proof. exact instavest_linear_refuted. Qed.
Print Assumptions C143_instavest_linear_refuted.
Example C143_case :
  vreached lin (vb 55) (fst ex_v1) (snd ex_v1) /\ ~ is_canceled (fst ex_v1) /\
  q_total (fst ex_v1) = 100 /\ q_duration (fst ex_v1) = Some 100 /\
  q_vested (fst ex_v1) (vb 55) None = 55 /\ q_vested (fst ex_v1) (vb 55) (Some (80 * NANOS)) = 80 /\
  q_distributable (fst ex_v1) (vb 55) (Some (time (vb 58))) = Ok 8 /\ 8 <= holds (fst ex_v1) (vb 58) /\
  block_le (vb 55) (vb 58) /\
  (* cancelled at second 60 *)
  vreached lin (vb 80) (fst ex_v2) (snd ex_v2) /\
  existsb (fun e => match e with ECall _ _ _ VCancel _ _ => true | _ => false end) (snd ex_v2) = true /\
  q_total (fst ex_v2) = 60 /\ q_vested (fst ex_v2) (vb 80) (Some 0) = 60 /\
  q_duration (fst ex_v2) = None /\
  (* in steps *)
  vreached stepped (vb 65) (fst (vrun stepped [])) (snd (vrun stepped [])) /\
  q_duration (fst (vrun stepped [])) = Some 89 /\
  (* new *)
  is_ok (v_instantiate (vb 3) lin) = true.
Proof.
  split; [exact ex_v1_reached|]. split; [apply canceledb_spec; vm_compute; reflexivity|].
  split; [vm_compute; reflexivity|]. split; [vm_compute; reflexivity|]. split; [vm_compute; reflexivity|].
  split; [vm_compute; reflexivity|]. split; [vm_compute; reflexivity|].
  split; [vm_compute; discriminate|]. split; [vm_compute; split; discriminate|].
  split; [exact ex_v2_reached|]. vcase.
Qed.
