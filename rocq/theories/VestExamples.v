(** Concrete histories of cw-vesting. *)
From Verif Require Import Base BaseProofs Exec ExecProofs Plain PlainProofs StoreModel WormModel
  VestModel VestSpec VestProofs VestClaims.

Definition vb (n : Z) : block := Block n (n * NANOS).
(** Owner 1, recipient 2; 100 tokens over 100 seconds from time 0. *)
Definition vin (sc : schedule) (d : vdenom) : vinit :=
  VInit (Some 1%N) 2%N 100 sc None 100 d (match d with DNative x => [(x, 100)] | DCw20 _ => [] end)
    10 10 7%N.
Definition lin : vinit := vin SLinear (DNative 7%N).
Definition vini (i : vinit) : vstate :=
  match v_instantiate (vb 0) i with
  | Ok (s, _) => s
  | Err _ => VState (initialize_owner None) (Vest (CConst 0) 0 Unfunded 0%N (DNative 0%N) 0 0) tr_new 0 0 0%N
               (Chain 0 ∅ [])
  end.
Definition vrun (i : vinit) (h : list (block * call vmsg)) := run_hist v_handle no_fail no_reply (vini i) h.
Definition vc (a : addr) (m : vmsg) : call vmsg := Call a m [].
Lemma vreached_run i h b :
  fits_vinit i = true -> is_ok (v_instantiate (vb 0) i) = true -> hist_ok (vb 0) h ->
  block_le (hist_end (vb 0) h) b ->
  vreached i b (fst (vrun i h)) (snd (vrun i h)).
Proof.
  intros Hf Hd Hh Hb. unfold vreached, vini.
  destruct (v_instantiate (vb 0) i) as [[s subs]|] eqn:E; [|done].
  exists (vb 0), s, subs. split; [done|]. split; [done|]. split; [done|].
  exists h. split; [done|]. split; [|done]. unfold vrun, vini. rewrite E. by destruct (run_hist _ _ _ _ h).
Qed.
Ltac vside := vm_compute; repeat split; discriminate || reflexivity.
Ltac vreach := apply vreached_run; vside.
Ltac vcase := repeat match goal with
  | |- vreached _ _ _ _ => vreach
  | |- _ /\ _ => split
  | |- _ = _ => vm_compute; reflexivity
  end.

(** Distributions, delegations, a slash, a donation, a cancellation and the payments
    after it. *)
Definition ex_vh1 : list (block * call vmsg) :=
  [(vb 10, vc 5%N (VDistribute None)); (vb 10, vc 2%N (VDelegate 1%N 40));
   (vb 10, vc 2%N (VDelegate 2%N 10)); (vb 20, vc 2%N (VRedelegate 1%N 2%N 5 (Some 40)));
   (vb 30, vc 0%N (VSlash 1%N 5)); (vb 31, vc 1%N (VRegisterSlash 1%N (30 * NANOS) 5 false));
   (vb 35, vc 2%N (VUndelegate 1%N 10)); (vb 40, vc 6%N (VDonate 3));
   (vb 50, vc 5%N (VDistribute None))].
Definition ex_vh2 : list (block * call vmsg) :=
  [(vb 60, vc 1%N VCancel); (vb 61, vc 5%N (VUndelegate 1%N 20)); (vb 61, vc 5%N (VUndelegate 2%N 15));
   (vb 71, vc 5%N (VWithdraw None))].
Definition ex_v1 := vrun lin ex_vh1.
Definition ex_v2 := vrun lin (ex_vh1 ++ ex_vh2).
Lemma ex_v1_reached : vreached lin (vb 55) (fst ex_v1) (snd ex_v1).
Proof. vreach. Qed.
Lemma ex_v2_reached : vreached lin (vb 80) (fst ex_v2) (snd ex_v2).
Proof. vreach. Qed.
(** A schedule in steps: 20 after 10 seconds, 20 until second 40, 100 at second 90. *)
Definition stepped : vinit := vin (SPiece [(1, 0); (10, 20); (40, 20); (90, 100)]) (DNative 7%N).
(** Everything vested, with some staking on the way. *)
Definition ex_vh3 : list (block * call vmsg) :=
  [(vb 10, vc 2%N (VDelegate 1%N 40)); (vb 30, vc 5%N (VDistribute (Some 25)));
   (vb 80, vc 2%N (VUndelegate 1%N 40))].
Definition ex_v3 := vrun lin ex_vh3.
(** A vest paid in cw20 tokens, funded later. *)
Definition ex_v4 := vrun (vin SLinear (DCw20 70%N)) [(vb 3, vc 70%N (VReceive 100)); (vb 20, vc 9%N (VDistribute None))].
(** Cancelled with a staked part, no slashes. *)
Definition ex_v5 := vrun lin
  [(vb 5, vc 2%N (VDelegate 1%N 90)); (vb 50, vc 1%N VCancel); (vb 51, vc 5%N (VUndelegate 1%N 90));
   (vb 61, vc 5%N (VDistribute (Some 15)))].

(** Tokens are paid, then others slashed. *)
Lemma c45_later_slash_refuted :
  exists i b s l, vreached i b s l /\ vested_at s b - slashes s < paid_vestee l.
Proof.
  set (h := [(vb 10, vc 2%N (VDelegate 1%N 40)); (vb 50, vc 5%N (VDistribute None));
    (vb 50, vc 0%N (VSlash 1%N 20)); (vb 50, vc 1%N (VRegisterSlash 1%N (50 * NANOS) 20 false))]).
  exists lin, (vb 50), (fst (vrun lin h)), (snd (vrun lin h)). split; [vreach|]. vm_compute. reflexivity.
Qed.
(** Unbonding tokens are slashed and nobody registers it. *)
Lemma c46_unreported_refuted :
  exists i b s l d, vreached i b s l /\ ve_status (vs_vest s) = Funded /\
    v_distributable s b = Ok d /\ holds s b < d /\
    forall a, v_handle s b a (VDistribute None) = Err "bank: insufficient funds".
Proof.
  set (h := [(vb 10, vc 2%N (VDelegate 1%N 50)); (vb 20, vc 2%N (VUndelegate 1%N 50));
    (vb 25, vc 0%N (VSlashUnb 0 20))]).
  exists lin, (vb 100), (fst (vrun lin h)), (snd (vrun lin h)), 100.
  split; [vreach|]. repeat split; try (intros; vm_compute; reflexivity).
Qed.
(** A registered slash of bonded tokens, then a cancellation, then a part of the stake
    unbonds: the contract reports more as distributable than it holds, and cannot pay it. *)
Lemma c48_refuted :
  exists i b s l d, vreached i b s l /\ is_canceled s /\ slashed_unbonding l = 0 /\
    v_distributable s b = Ok d /\ holds s b < d /\
    forall a, v_handle s b a (VDistribute None) = Err "bank: insufficient funds".
Proof.
  set (h := [(vb 1, vc 2%N (VDelegate 1%N 100)); (vb 10, vc 0%N (VSlash 1%N 20));
    (vb 10, vc 1%N (VRegisterSlash 1%N (10 * NANOS) 20 false)); (vb 50, vc 1%N VCancel);
    (vb 51, vc 5%N (VUndelegate 1%N 20))]).
  exists lin, (vb 61), (fst (vrun lin h)), (snd (vrun lin h)), 30.
  split; [vreach|]. split; [exists 50; vm_compute; reflexivity|].
  repeat split; try (intros; vm_compute; reflexivity).
Qed.
(** The recipient sends the contract one token and delegates everything it holds: the
    owner cannot cancel. *)
Lemma c76_blocked_refuted :
  exists i b s l, vreached i b s l /\ ve_status (vs_vest s) = Funded /\
    is_owner (vs_own s) 1%N = true /\ v_handle s b 1%N VCancel = Err "panic".
Proof.
  set (h := [(vb 1, vc 2%N (VDonate 1)); (vb 1, vc 2%N (VDelegate 1%N 101))]).
  exists lin, (vb 50), (fst (vrun lin h)), (snd (vrun lin h)).
  split; [vreach|]. repeat split; vm_compute; reflexivity.
Qed.
(** … and still receives everything at the end. *)
Definition ex_v6 := vrun lin
  [(vb 1, vc 2%N (VDonate 1)); (vb 1, vc 2%N (VDelegate 1%N 101)); (vb 50, vc 1%N VCancel);
   (vb 90, vc 2%N (VUndelegate 1%N 101)); (vb 100, vc 2%N (VDistribute None))].
(** A vest nobody funded cannot be cancelled once something would have vested. *)
Lemma c76_unfunded_refuted :
  exists i b s l, vreached i b s l /\ ve_status (vs_vest s) = Unfunded /\
    is_owner (vs_own s) 1%N = true /\ v_handle s b 1%N VCancel = Err "panic".
Proof.
  exists (vin SLinear (DCw20 70%N)), (vb 50), (fst (vrun (vin SLinear (DCw20 70%N)) [])), [].
  split; [|repeat split; vm_compute; reflexivity].
  apply (vreached_run (vin SLinear (DCw20 70%N)) [] (vb 50)); vside.
Qed.
