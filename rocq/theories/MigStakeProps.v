(** C101, C102: migrations of the staking contracts. *)
From Verif Require Import Base BaseProofs Exec ExecProofs Plain PlainProofs StoreModel StoreProofs
  StakeModel StakeSpec StakeProofs StakeClaims StakeExamples ExtModel ExtExamples DistModel
  DistExamples MigStakeModel MigStakeSpec MigStakeClaims MigStakeExamples.

(** * C101 *)
(** The first two are about all three contracts. *)
Theorem C101_accepted {State Msg Sub Old : Type}
    (handle : State -> block -> addr -> Msg -> result (State * list Sub))
    (reset : Old -> State -> State) (s : host State Old) (b : block) (a : addr) (v : N) :
  (exists s' subs, h_handle handle reset s b a (HMigrate v) = Ok (s', subs)) <->
  a = h_admin s /\ v <> h_version s /\ is_Some (h_old s).
Proof. exact (h_accepted handle reset s b a v). Qed.
Print Assumptions C101_accepted.
Theorem C101_new_never {State Msg Sub Old : Type}
    (handle : State -> block -> addr -> Msg -> result (State * list Sub))
    (reset : Old -> State -> State) b0 (s0 : host State Old) b s
    (l : log (host State Old) (hmsg Msg) Sub) b' (a : addr) (v : N) :
  leads (h_handle handle reset) b0 s0 b s l -> h_old s0 = None ->
  exists e, h_handle handle reset s b' a (HMigrate v) = Err e.
Proof. exact (h_new_never handle reset b0 s0 b s l b' a v). Qed.
Print Assumptions C101_new_never.
Theorem C101_stake_kept (s : host kstate kold) b a v s' subs :
  hk_handle s b a (HMigrate v) = Ok (s', subs) ->
  exists c, h_old s = Some c /\ h_version s' = v /\ subs = [] /\
    k_own (h_st s') = Own (ko_owner c) None None /\ k_token (h_st s') = ko_token c /\
    k_dur (h_st s') = ko_dur c /\ k_bals (h_st s') = k_bals (h_st s) /\
    k_total (h_st s') = k_total (h_st s) /\ k_pool (h_st s') = k_pool (h_st s) /\
    k_claims (h_st s') = k_claims (h_st s) /\ k_hooks (h_st s') = k_hooks (h_st s) /\
    k_held (h_st s') = k_held (h_st s).
Proof. exact (hk_kept s b a v s' subs). Qed.
Print Assumptions C101_stake_kept.
Theorem C101_rewards_kept (s : host xstate rold) b a v s' subs :
  hx_handle s b a (HMigrate v) = Ok (s', subs) ->
  exists c, h_old s = Some c /\ h_version s' = v /\ subs = [] /\
    let r := x_rew (h_st s) in let r' := x_rew (h_st s') in
    r_own r' = Own (ro_owner c) None None /\ r_token r' = ro_token c /\
    x_staking (h_st s') = ro_staking c /\ r_fin r' = r_fin r /\ r_rate r' = r_rate r /\
    r_dur r' = r_dur r /\ r_rpt r' = r_rpt r /\ r_last r' = r_last r /\ r_pend r' = r_pend r /\
    r_urpt r' = r_urpt r /\ x_held (h_st s') = x_held (h_st s) /\ x_stake (h_st s') = x_stake (h_st s).
Proof. exact (hx_kept s b a v s' subs). Qed.
Print Assumptions C101_rewards_kept.
Theorem C101_distributor_kept (s : host dstate dold) b a v s' subs :
  hd_handle s b a (HMigrate v) = Ok (s', subs) ->
  exists c, h_old s = Some c /\ h_version s' = v /\ subs = [] /\
    d_own (h_st s') = Own (Some (do_owner c)) None None /\ d_staking (h_st s') = do_staking c /\
    d_token (h_st s') = do_token c /\ d_rate (h_st s') = do_rate c /\
    d_last (h_st s') = d_last (h_st s) /\ d_bals (h_st s') = d_bals (h_st s).
Proof. exact (hd_kept s b a v s' subs). Qed.
Print Assumptions C101_distributor_kept.
Theorem C101_solvent b s : k_grown b s ->
  sum_staked (h_st s) = total_staked (h_st s) /\ (forall a, 0 <= staked (h_st s) a) /\
  total_staked (h_st s) <= k_pool (h_st s) /\
  k_pool (h_st s) + unclaimed (h_st s) <= k_held (h_st s).
Proof. exact (hk_solvent b s). Qed.
Print Assumptions C101_solvent.
Theorem C101_token b s : k_grown b s -> exists c, h_old s = Some c /\ k_token (h_st s) = ko_token c.
Proof. exact (hk_token b s). Qed.
Print Assumptions C101_token.
Theorem C101_past_fixed b s b' s' (l : log _ _ _) bq bq' h :
  k_grown b s -> leads hk_handle b s b' s' l -> h <= height b ->
  (forall a, k_balance_at (h_st s') bq' a (Some h) = k_balance_at (h_st s) bq a (Some h)) /\
  k_total_at (h_st s') bq' (Some h) = k_total_at (h_st s) bq (Some h).
Proof. exact (hk_past b s b' s' l bq bq' h). Qed.
Print Assumptions C101_past_fixed.
Example C101_case : k_left (kb 4) mk0 /\ k_grown (kb 9) (fst mk_r) /\
  total_staked (h_st (fst mk_r)) = 95 /\ staked (h_st (fst mk_r)) 1%N = 35 /\
  k_pool (h_st (fst mk_r)) = 95 /\ k_held (h_st (fst mk_r)) = 105 /\
  unclaimed (h_st (fst mk_r)) = 10 /\ k_token (h_st (fst mk_r)) = 70%N /\ length (snd mk_r) = 3%nat /\
  is_ok (hk_handle mk0 (kb 5) 31%N (HMigrate 2%N)) = false /\
  is_ok (hk_handle mk0 (kb 5) 30%N (HMigrate 1%N)) = false.
Proof.
  split; [exact mk0_left|]. split; [exact mk_grown|].
  do 8 (split; [vm_compute; reflexivity|]). vm_compute; reflexivity.
Qed.
Example C101_case_others :
  is_ok (hx_handle mx0 (xb 1) 30%N (HMigrate 2%N)) = true /\
  is_ok (hd_handle md0 (db 10) 30%N (HMigrate 2%N)) = true /\
  is_ok (hd_handle (Host 30%N 2%N None dini) (db 10) 30%N (HMigrate 3%N)) = false.
Proof. do 2 (split; [vm_compute; reflexivity|]). vm_compute; reflexivity. Qed.

(** * C102 *)
(** Missing: contracts whose owner or settings have changed since version one. *)
Theorem C102_stake_partial (s : host kstate kold) b a v s' subs c :
  hk_handle s b a (HMigrate v) = Ok (s', subs) -> h_old s = Some c ->
  k_own (h_st s) = Own (ko_owner c) None None -> k_token (h_st s) = ko_token c ->
  k_dur (h_st s) = ko_dur c -> h_st s' = h_st s.
Proof. exact (hk_unchanged s b a v s' subs c). Qed.
Print Assumptions C102_stake_partial.
Theorem C102_rewards_partial (s : host xstate rold) b a v s' subs c :
  hx_handle s b a (HMigrate v) = Ok (s', subs) -> h_old s = Some c ->
  r_own (x_rew (h_st s)) = Own (ro_owner c) None None -> r_token (x_rew (h_st s)) = ro_token c ->
  x_staking (h_st s) = ro_staking c -> h_st s' = h_st s.
Proof. exact (hx_unchanged s b a v s' subs c). Qed.
Print Assumptions C102_rewards_partial.
Theorem C102_distributor_partial (s : host dstate dold) b a v s' subs c :
  hd_handle s b a (HMigrate v) = Ok (s', subs) -> h_old s = Some c ->
  d_own (h_st s) = Own (Some (do_owner c)) None None -> d_token (h_st s) = do_token c ->
  d_staking (h_st s) = do_staking c -> d_rate (h_st s) = do_rate c -> h_st s' = h_st s.
Proof. exact (hd_unchanged s b a v s' subs c). Qed.
Print Assumptions C102_distributor_partial.
Theorem C102_stake_refuted : exists b s s' subs s2 subs2, k_grown b s /\
  o_owner (k_own (h_st s)) = None /\ o_pending (k_own (h_st s)) = None /\
  k_dur (h_st s) = Some (DHeight 50) /\
  hk_handle s b (h_admin s) (HMigrate 3%N) = Ok (s', subs) /\
  o_owner (k_own (h_st s')) = Some 9%N /\ k_dur (h_st s') = Some (DHeight 5) /\
  hk_handle s' b 9%N (HCall (KUpdateConfig None)) = Ok (s2, subs2) /\ k_dur (h_st s2) = None.
Proof. exact mk_refuted. Qed.
Print Assumptions C102_stake_refuted.
Theorem C102_rewards_refuted : exists b s l s' subs s2 subs2,
  leads hx_handle (xb 1) mx1 b s l /\ o_owner (r_own (x_rew (h_st s))) = Some 2%N /\
  (exists e, hx_handle s b 1%N (HCall (XRew (RUpdateDuration 3))) = Err e) /\
  hx_handle s b (h_admin s) (HMigrate 3%N) = Ok (s', subs) /\
  o_owner (r_own (x_rew (h_st s'))) = Some 1%N /\
  hx_handle s' b 1%N (HCall (XRew (RUpdateDuration 3))) = Ok (s2, subs2).
Proof. exact mx_refuted. Qed.
Print Assumptions C102_rewards_refuted.
Theorem C102_distributor_refuted : exists b s l s' subs s2 subs2,
  leads hd_handle (db 10) md1 b s l /\ o_owner (d_own (h_st s)) = Some 2%N /\
  (exists e, hd_handle s b 1%N (HCall DWithdraw) = Err e) /\
  hd_handle s b (h_admin s) (HMigrate 3%N) = Ok (s', subs) /\
  o_owner (d_own (h_st s')) = Some 1%N /\
  hd_handle s' b 1%N (HCall DWithdraw) = Ok (s2, subs2) /\ subs2 = [DTransfer 50%N 1%N 100].
Proof. exact md_refuted. Qed.
Print Assumptions C102_distributor_refuted.
Example C102_case :
  let r := hk_handle mk1 (kb 6) 30%N (HMigrate 3%N) in
  is_ok r = true /\ k_own (h_st mk1) = Own (ko_owner mk_old) None None /\
  k_token (h_st mk1) = ko_token mk_old /\ k_dur (h_st mk1) = ko_dur mk_old /\
  is_ok (hx_handle mx1 (xb 6) 30%N (HMigrate 3%N)) = true /\
  is_ok (hd_handle md1 (db 12) 30%N (HMigrate 3%N)) = true.
Proof. cbv zeta. do 5 (split; [vm_compute; reflexivity|]). vm_compute; reflexivity. Qed.
