(** Who may do what with a vest (cw-vesting): theorems.  Each is followed by what it rests on
    and by a concrete case meeting its hypotheses. *)
From Verif Require Import Base BaseProofs Exec ExecProofs Plain StoreModel WormModel
  VestModel VestSpec VestProofs VestClaims VestExamples VAuthSpec VAuthClaims VAuthExamples.

(** * C134 *)
(** Recipient, token and start are those it was made with, and the schedule too unless the
    vest is cancelled. *)
Theorem C134_terms i b s l :
  vreached i b s l ->
  ve_recipient (vs_vest s) = vi_recipient i /\ ve_denom (vs_vest s) = vi_denom i /\
  (forall t, vi_start i = Some t -> ve_start (vs_vest s) = t) /\
  forall pre b1 a m post subs, ECall pre b1 a m post subs ∈ l ->
    ve_start (vs_vest post) = ve_start (vs_vest pre) /\
    (m <> VCancel -> forall b', vested_at post b' = vested_at pre b').
Proof. exact (c134_terms i b s l). Qed.
Print Assumptions C134_terms.
Theorem C134_who i b s l pre b1 a m post subs :
  vreached i b s l -> ECall pre b1 a m post subs ∈ l -> entitled i pre a m.
Proof. exact (c134_who i b s l pre b1 a m post subs). Qed.
Print Assumptions C134_who.
Theorem C134_anybody s b a a' m :
  match m with
  | VDistribute _ | VWithdraw _ | VWithdrawReward _ => True
  | VUndelegate _ _ => is_canceled s
  | _ => False
  end -> v_handle s b a m = v_handle s b a' m.
Proof. exact (c134_anybody s b a a' m). Qed.
Print Assumptions C134_anybody.
Theorem C134_to_whom i b s l pre b1 a m post subs :
  vreached i b s l -> ECall pre b1 a m post subs ∈ l -> Forall (directed i pre a m) subs.
Proof. exact (c134_to_whom i b s l pre b1 a m post subs). Qed.
Print Assumptions C134_to_whom.
Theorem C134_stages i b s l pre b1 a m post subs :
  vreached i b s l -> ECall pre b1 a m post subs ∈ l ->
  stage pre <= stage post <= 2 /\
  (stage post = stage pre \/
   stage pre = 0 /\ stage post = 1 /\ (exists n, m = VReceive n) \/ stage pre < 2 /\ stage post = 2 /\ m = VCancel).
Proof. exact (c134_stages i b s l pre b1 a m post subs). Qed.
Print Assumptions C134_stages.
Theorem C134_native i b s l d : vreached i b s l -> vi_denom i = DNative d -> ve_status (vs_vest s) <> Unfunded.
Proof. exact (c134_native i b s l d). Qed.
Print Assumptions C134_native.
Theorem C134_owner i b s l pre b1 a m post subs :
  vreached i b s l -> ECall pre b1 a m post subs ∈ l ->
  (forall act, m <> VOwnership act) /\ vs_own post = vs_own pre \/
  (exists c e, m = VOwnership (OTransfer c e) /\ owned_by pre a /\ owned_by post a /\
     o_pending (vs_own post) = Some c) \/
  (m = VOwnership OAccept /\ o_pending (vs_own pre) = Some a /\ owned_by post a /\
     o_pending (vs_own post) = None) \/
  (m = VOwnership ORenounce /\ owned_by pre a /\ o_owner (vs_own post) = None /\
     o_pending (vs_own post) = None /\
     forall ow, ve_status (vs_vest pre) = Canceled ow -> ow = 0).
Proof. exact (c134_owner i b s l pre b1 a m post subs). Qed.
Print Assumptions C134_owner.
Theorem C134_nobody b0 s0 b s l :
  leads v_handle b0 s0 b s l -> o_owner (vs_own s0) = None -> o_pending (vs_own s0) = None ->
  o_owner (vs_own s) = None /\ (~ is_canceled s0 -> ~ is_canceled s).
Proof. exact (c134_nobody b0 s0 b s l). Qed.
Print Assumptions C134_nobody.
Theorem C134_made i b :
  fits_vinit i = true ->
  (exists s subs, v_instantiate b i = Ok (s, subs)) <->
  0 < vi_total i /\ 0 < vi_dur i /\
  time b < default (time b) (vi_start i) + vi_dur i * 10 ^ 9 < 2 ^ 64 /\
  pays (vi_schedule i) (vi_total i) /\ paid_in i.
Proof. exact (c134_made i b). Qed.
Print Assumptions C134_made.
Example C134_case :
  vreached lin (vb 50) (fst ex_v9) (snd ex_v9) /\
  callers (snd ex_v9) =
    [(2%N, VDelegate 1%N 40); (1%N, VOwnership (OTransfer 3%N None)); (3%N, VOwnership OAccept);
     (2%N, VSetWithdraw 9%N false); (3%N, VCancel); (3%N, VSetWithdraw 3%N false);
     (8%N, VUndelegate 1%N 40); (8%N, VWithdraw None); (3%N, VOwnership ORenounce)] /\
  sent (snd ex_v9) =
    [VStaking; VRewardsTo 9%N; VRewardsTo 3%N; VPayOwner 3%N 40; VPayVestee 2%N 20; VRewardsTo 3%N; VStaking;
     VPayOwner 3%N 40] /\
  stage (fst ex_v9) = 2 /\ o_owner (vs_own (fst ex_v9)) = None /\
  (* not the others *)
  v_handle (vini lin) (vb 5) 1%N (VDelegate 1%N 40) = Err "NotReceiver" /\
  v_handle (vini lin) (vb 5) 2%N VCancel = Err "NotOwner" /\
  v_handle (fst (vrun lin (take 2 ex_vh9))) (vb 7) 2%N (VOwnership OAccept) = Err "NotPendingOwner" /\
  v_handle (fst (vrun lin (take 3 ex_vh9))) (vb 8) 1%N VCancel = Err "NotOwner" /\
  v_handle (fst (vrun lin (take 4 ex_vh9))) (vb 9) 3%N (VSetWithdraw 3%N false) = Err "Unauthorized" /\
  v_handle (fst (vrun lin (take 4 ex_vh9))) (vb 9) 3%N (VUndelegate 1%N 40) = Err "NotReceiver" /\
  v_handle (fst (vrun lin (take 5 ex_vh9))) (vb 21) 2%N (VSetWithdraw 2%N false) = Err "Unauthorized" /\
  v_handle (fst (vrun lin (take 5 ex_vh9))) (vb 21) 2%N (VDelegate 1%N 40) = Err "Cancelled" /\
  v_handle (fst (vrun lin (take 7 ex_vh9))) (vb 23) 3%N (VOwnership ORenounce) = Err "Cancelled".
Proof. split; [exact ex_v9_reached|]. repeat split; vm_compute; reflexivity. Qed.
Example C134_call_case :
  match snd ex_v9 !! 0%nat with
  | Some (ECall pre b1 a m post subs) =>
      ECall pre b1 a m post subs ∈ snd ex_v9 /\ m = VDelegate 1%N 40 /\ a = 2%N /\ stage pre = 1
  | _ => False
  end.
Proof.
  destruct (snd ex_v9 !! 0%nat) as [[pre b1 a m post subs|pre b1 x ok post]|] eqn:E;
    [|vm_compute in E; discriminate..].
  split; [exact (elem_of_list_lookup_2 _ _ _ E)|].
  vm_compute in E. injection E as <- <- <- <- <- <-. repeat split; vm_compute; reflexivity.
Qed.
Example C134_nobody_case :
  vreached lin (vb 50) (fst ex_v10) (snd ex_v10) /\ o_owner (vs_own (fst ex_v10)) = None /\
  o_pending (vs_own (fst ex_v10)) = None /\ stage (fst ex_v10) = 1.
Proof. split; [exact ex_v10_reached|]. repeat split; vm_compute; reflexivity. Qed.
Example C134_made_case :
  fits_vinit stepped = true /\ pays (vi_schedule stepped) (vi_total stepped) /\ paid_in stepped /\
  is_ok (v_instantiate (vb 0) stepped) = true /\
  v_instantiate (vb 100) (VInit (Some 1%N) 2%N 100 SLinear (Some 0) 100 (DNative 7%N) [(7%N, 100)] 10 10 7%N) = Err "Instavest" /\
  v_instantiate (vb 0) (VInit (Some 1%N) 2%N 100 SLinear None 100 (DNative 7%N) [(7%N, 99)] 10 10 7%N) = Err "WrongFundAmount" /\
  v_instantiate (vb 0) (vin (SPiece [(1, 0); (10, 20); (10, 100)]) (DNative 7%N)) = Err "PointsOutOfOrder" /\
  v_instantiate (vb 0) (vin (SPiece [(1, 1); (10, 100)]) (DNative 7%N)) = Err "VestRange".
Proof.
  split; [reflexivity|]. split.
  - exists (1, 0), [(10, 20); (40, 20)], (90, 100). repeat split.
    all: destruct k as [|[|[|k]]]; cbn in *; try (destruct k; discriminate); naive_solver lia.
  - repeat split; vm_compute; reflexivity.
Qed.
