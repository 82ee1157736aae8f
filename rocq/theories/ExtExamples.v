(** Concrete histories of cw20-stake-external-rewards on cw20-stake. *)
From Verif Require Import Base BaseProofs Exec ExecProofs Plain PlainProofs HooksModel StoreModel
  StoreProofs LedgerProofs StakeModel StakeSpec StakeProofs StakeClaims ExtModel ExtSpec ExtProofs
  ExtClaims.
Transparent SCALE.

Definition xb (n : Z) : block := Block n (n * NANOS).
(** Staked token 50, owner of both contracts 1, rewards contract 60, staking contract 61. *)
Definition ek0 : kstate :=
  match k_instantiate (xb 0) 50%N None (Some 1%N) with
  | Ok k => k | Err _ => KState 0%N None (initialize_owner None) ∅ snap_empty 0 ∅ [] 0 end.
Definition xini (dur : Z) : xstate :=
  XState ek0 (RState (initialize_owner (Some 1%N)) (RNative 7%N) 0 0 dur 0 0 ∅ ∅) 60%N 61%N 0 [] 0.
Definition xrun (dur : Z) (h : list (block * call xmsg)) :=
  run_hist x_handle no_fail no_reply (xini dur) h.
Definition xc (a : addr) (m : xmsg) : call xmsg := Call a m [].
Lemma ek0_reached : kreached (xb 0) ek0 [].
Proof.
  exists (xb 0), 50%N, None, (Some 1%N), ek0. split; [done|]. split; [vm_compute; reflexivity|].
  exists []. split; [done|]. split; [done|]. apply block_le_refl.
Qed.
Lemma xran_run dur h b :
  0 < dur <= U64_MAX -> hist_ok (xb 0) h -> block_le (hist_end (xb 0) h) b ->
  forallb hooked (snd (xrun dur h)) = true -> xran b (fst (xrun dur h)) (snd (xrun dur h)).
Proof.
  intros Hd Hh Hb Hk. exists (xb 0), ek0, [], 60%N, 61%N, (Some 1%N), (RNative 7%N), dur, (xini dur).
  split; [done|]. split; [lia|]. split; [exact ek0_reached|]. split.
  { unfold x_instantiate, r_instantiate. destruct (dur =? 0) eqn:E; [lia|]. done. }
  split; [|done]. exists h. split; [done|]. split; [|done]. unfold xrun. by destruct (run_hist _ _ _ _ h).
Qed.
Lemma xreached_run dur h b :
  0 < dur <= U64_MAX -> hist_ok (xb 0) h -> block_le (hist_end (xb 0) h) b ->
  forallb hooked (snd (xrun dur h)) = true -> x_due (fst (xrun dur h)) = [] ->
  xreached b (fst (xrun dur h)) (snd (xrun dur h)).
Proof. intros. split; [by apply xran_run|done]. Qed.
Ltac xside := vm_compute; repeat split; discriminate || reflexivity.
Ltac xreach := apply xreached_run; xside.
Ltac xcase := repeat match goal with
  | |- xreached _ _ _ => xreach
  | |- _ /\ _ => split
  | |- _ = _ => vm_compute; reflexivity
  | |- _ <= _ => vm_compute; discriminate
  | |- _ < _ => vm_compute; reflexivity
  end.

(** A stake and its hook. *)
Definition xstake (h : Z) (who : addr) (n : Z) : list (block * call xmsg) :=
  [(xb h, xc 50%N (XStake (KReceive who n true))); (xb h, xc 61%N (XRew (RHook true who)))].
Definition xunstake (h : Z) (who : addr) (n : Z) : list (block * call xmsg) :=
  [(xb h, xc who (XStake (KUnstake n))); (xb h, xc 61%N (XRew (RHook false who)))].
(** 1000 tokens over ten blocks from block 1. *)
Definition ex_xh : list (block * call xmsg) :=
  (xb 0, xc 1%N (XStake (KAddHook 60%N))) :: xstake 1 2%N 30 ++
  [(xb 1, xc 1%N (XRew (RFund [(7%N, 1000)])))] ++ xstake 3 3%N 10 ++
  [(xb 5, xc 2%N (XRew RClaim)); (xb 6, xc 9%N (XDonate 5))] ++ xunstake 8 2%N 23.
Definition ex_x := xrun 10 ex_xh.
(** Without the hook a newcomer is credited rewards of the past. *)
Definition ex_nohook : list (block * call xmsg) :=
  xstake 1 2%N 10 ++ [(xb 1, xc 1%N (XRew (RFund [(7%N, 100)])))] ++
  [(xb 11, xc 50%N (XStake (KReceive 3%N 90 true)))].

(** All tokens there are, over one block, to a stake of one. *)
Definition ex_bigh : list (block * call xmsg) :=
  (xb 0, xc 1%N (XStake (KAddHook 60%N))) :: xstake 1 2%N 1 ++
  [(xb 1, xc 1%N (XRew (RFund [(7%N, U128_MAX)])))].
Definition ex_big := xrun 1 ex_bigh.
Lemma ex_big_reached : xreached (xb 2) (fst ex_big) (snd ex_big).
Proof. xreach. Qed.
Lemma c77_refuted :
  exists b s l, xreached b s l /\
    forall b' a m s1 subs st who, block_le b b' -> x_handle s b' a (XStake m) = Ok (s1, subs) ->
      stake_change m = true -> who ∈ x_due s1 ->
      exists e, x_handle s1 b' (x_staking s1) (XRew (RHook st who)) = Err e.
Proof.
  exists (xb 2), (fst ex_big), (snd ex_big). split; [exact ex_big_reached|].
  intros b' a m s1 subs st who Hb H Hm Hin.
  pose proof (xi_ledger _ _ _ (xran_inv _ _ _ (xran_run 1 ex_bigh (xb 1) ltac:(xside) ltac:(xside)
    ltac:(xside) ltac:(xside)))) as HL.
  change (fst (xrun 1 ex_bigh)) with (fst ex_big) in HL.
  assert (snap_get (k_total (x_stake (fst ex_big))) = 1) as E0 by (vm_compute; reflexivity).
  assert (x_staking (fst ex_big) = 61%N) as E1 by (vm_compute; reflexivity).
  assert (r_fin (x_rew (fst ex_big)) = 2) as E2 by (vm_compute; reflexivity).
  assert (r_last (x_rew (fst ex_big)) = 1) as E3 by (vm_compute; reflexivity).
  assert (r_rate (x_rew (fst ex_big)) = U128_MAX) as E4 by (vm_compute; reflexivity).
  revert H HL E0 E1 E2 E3 E4. generalize (fst ex_big). intros s H HL E0 E1 E2 E3 E4.
  unfold x_handle in H. destruct (_ || _) in H; [|done].
  destruct (k_handle _ _ _ _) as [[k' ks]|] eqn:E; [|done]. cbn in H. injection H as <- <-.
  destruct (at_call _ _ _ _ _ _ (height b') E ltac:(lia)) as [_ Et].
  destruct Hb as [Hb _]. cbn in Hb.
  assert (q_total k' b' = 1) as Eq.
  { unfold q_total, k_total_at. cbn. rewrite Et.
    rewrite (snap_get_at_now _ 1); [exact E0|apply HL|lia]. }
  assert (r_until (x_rew s) b' = 2) as Eu by (unfold r_until; rewrite E2; lia).
  unfold x_handle, x_rew_handle.
  cbn [x_due x_block x_staking x_stake x_rew x_me x_held].
  rewrite Z.eqb_refl, orb_true_r, E1, N.eqb_refl.
  destruct (existsb _ _); [|cbn; eauto]. unfold r_update, r_per_token. rewrite Eq, Eu, E3, E4.
  eexists. vm_compute. reflexivity.
Qed.
