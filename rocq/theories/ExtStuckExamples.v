(** Rewards out of reach. *)
From Verif Require Import Base BaseProofs Exec ExecProofs Plain PlainProofs StoreModel StakeModel StakeSpec
  ExtModel ExtSpec ExtProofs ExtClaims ExtExamples ExtStuck.

Definition nothingb (r : rstate) : bool :=
  (r_rpt r =? 0) && forallb (fun kv => kv.2 =? 0) (map_to_list (r_pend r)).
Lemma nothingb_spec r : nothingb r = true -> r_rpt r = 0 /\ forall u, r_pending r u = 0.
Proof.
  unfold nothingb. intros [H1 H2]%andb_true_iff. split; [lia|]. intros u. unfold r_pending.
  destruct (r_pend r !! u) as [n|] eqn:E; [|done]. rewrite forallb_forall in H2. specialize (H2 (u, n)).
  rewrite <-elem_of_list_In, elem_of_map_to_list in H2. specialize (H2 E). cbn in *. lia.
Qed.
(** 1000 tokens over ten blocks; the first staker comes after them. *)
Definition ex_late : list (block * call xmsg) :=
  [(xb 0, xc 1%N (XStake (KAddHook 60%N))); (xb 1, xc 1%N (XRew (RFund [(7%N, 1000)])))] ++ xstake 12 2%N 30.
(** 1999 tokens over 1000 blocks, with a staker from the beginning. *)
Definition ex_rest : list (block * call xmsg) :=
  (xb 0, xc 1%N (XStake (KAddHook 60%N))) :: xstake 1 2%N 30 ++ [(xb 1, xc 1%N (XRew (RFund [(7%N, 1999)])))].
Lemma late_reached : xreached (xb 12) (fst (xrun 10 ex_late)) (snd (xrun 10 ex_late)).
Proof. xreach. Qed.
Lemma rest_reached : xreached (xb 1) (fst (xrun 1000 ex_rest)) (snd (xrun 1000 ex_rest)).
Proof. xreach. Qed.
Lemma no_stakers_refuted :
  exists b s l, xreached b s l /\ funded l = 1000 /\ x_held s = 1000 /\
    forall b' s' l', leads x_handle b s b' s' l' -> forallb hooked l' = true -> x_due s' = [] ->
      paid l' <= funded l' /\ 1000 <= x_held s'.
Proof.
  exists (xb 12), (fst (xrun 10 ex_late)), (snd (xrun 10 ex_late)). split; [exact late_reached|].
  assert (funded (snd (xrun 10 ex_late)) = 1000) as Ef by (vm_compute; reflexivity).
  assert (x_held (fst (xrun 10 ex_late)) = 1000) as Eh by (vm_compute; reflexivity).
  assert (nothingb (x_rew (fst (xrun 10 ex_late))) = true) as En by (vm_compute; reflexivity).
  assert (paid (snd (xrun 10 ex_late)) = 0) as Ep by (vm_compute; reflexivity).
  assert (r_last (x_rew (fst (xrun 10 ex_late))) = r_fin (x_rew (fst (xrun 10 ex_late)))) as El by (vm_compute; reflexivity).
  pose proof late_reached as HR. revert HR Ef Eh En Ep El.
  generalize (fst (xrun 10 ex_late)), (snd (xrun 10 ex_late)). intros s l HR Ef Eh En Ep El.
  split; [exact Ef|]. split; [exact Eh|]. intros b' s' l' HL Hh Hd. apply nothingb_spec in En as [N1 N2].
  pose proof (out_of_reach _ _ _ _ _ _ HR N1 N2 Ep HL Hh Hd) as H. cbv zeta in H.
  rewrite Ef, El, Z.sub_diag, Z.mul_0_r in H. lia.
Qed.
Lemma remainder_refuted :
  exists b s l, xreached b s l /\ funded l = 1999 /\ x_held s = 1999 /\ total_staked (x_stake s) = 30 /\
    forall b' s' l', leads x_handle b s b' s' l' -> forallb hooked l' = true -> x_due s' = [] ->
      paid l' <= 1000 + funded l' /\ 999 <= x_held s'.
Proof.
  exists (xb 1), (fst (xrun 1000 ex_rest)), (snd (xrun 1000 ex_rest)). split; [exact rest_reached|].
  assert (funded (snd (xrun 1000 ex_rest)) = 1999) as Ef by (vm_compute; reflexivity).
  assert (x_held (fst (xrun 1000 ex_rest)) = 1999) as Eh by (vm_compute; reflexivity).
  assert (total_staked (x_stake (fst (xrun 1000 ex_rest))) = 30) as Et by (vm_compute; reflexivity).
  assert (nothingb (x_rew (fst (xrun 1000 ex_rest))) = true) as En by (vm_compute; reflexivity).
  assert (paid (snd (xrun 1000 ex_rest)) = 0) as Ep by (vm_compute; reflexivity).
  assert (r_rate (x_rew (fst (xrun 1000 ex_rest))) *
    (r_fin (x_rew (fst (xrun 1000 ex_rest))) - r_last (x_rew (fst (xrun 1000 ex_rest)))) = 1000) as El by (vm_compute; reflexivity).
  pose proof rest_reached as HR. revert HR Ef Eh Et En Ep El.
  generalize (fst (xrun 1000 ex_rest)), (snd (xrun 1000 ex_rest)). intros s l HR Ef Eh Et En Ep El.
  split; [exact Ef|]. split; [exact Eh|]. split; [exact Et|].
  intros b' s' l' HL Hh Hd. apply nothingb_spec in En as [N1 N2].
  pose proof (out_of_reach _ _ _ _ _ _ HR N1 N2 Ep HL Hh Hd) as H. cbv zeta in H. rewrite Ef, El in H. lia.
Qed.
