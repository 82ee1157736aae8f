(** Migrations of the staking contracts: concrete cases and the refutations. *)
From Verif Require Import Base BaseProofs Exec ExecProofs Plain PlainProofs StoreModel StoreProofs
  StakeModel StakeSpec StakeProofs StakeClaims StakeExamples ExtModel ExtExamples DistModel
  DistExamples MigStakeModel MigStakeSpec.

(** ** cw20-stake *)
(** Version one: token 70, unbonding for 5 blocks, owner 9; two members have staked. *)
Definition mk_s1 := krun (Some (DHeight 5)) [(kb 2, kstk 1%N 40); (kb 3, kstk 2%N 60); (kb 4, kc 1%N (KUnstake 10))].
Definition mk_old : kold := KOld (Some 9%N) 70 (Some (DHeight 5)).
Definition mk0 : host kstate kold := Host 30%N 1%N (Some mk_old)
  (let s := fst mk_s1 in KState 0 None (initialize_owner None) (k_bals s) (k_total s) (k_pool s)
     (k_claims s) (k_hooks s) (k_held s)).
Example mk0_left : k_left (kb 4) mk0.
Proof.
  exists mk_old, (fst mk_s1), (snd mk_s1). split; [done|].
  split; [unfold mk_s1; kreach|]. do 5 (split; [vm_compute; reflexivity|]). vm_compute; reflexivity.
Qed.
Definition mk1 : host kstate kold :=
  match hk_handle mk0 (kb 5) 30%N (HMigrate 2%N) with Ok (s, _) => s | Err _ => mk0 end.
(** The owner lengthens the unbonding period, then gives up the contract; member 1 adds to
    the stake. *)
Definition mk_h : list (block * call (hmsg kmsg)) :=
  [(kb 6, Call 9%N (HCall (KUpdateConfig (Some (DHeight 50)))) []);
   (kb 7, Call 9%N (HCall (KOwner ORenounce)) []);
   (kb 8, Call 70%N (HCall (KReceive 1%N 5 true)) []);
   (kb 8, Call 9%N (HCall (KUpdateConfig None)) [])].
Definition mk_r := run_hist hk_handle no_fail no_reply mk1 mk_h.
Example mk_grown : k_grown (kb 9) (fst mk_r).
Proof.
  exists (kb 4), mk0, (kb 5), 30%N, 2%N, mk1, [], (snd mk_r).
  split; [exact mk0_left|]. split; [vm_compute; split; discriminate|].
  split; [vm_compute; reflexivity|].
  exists mk_h. split; [vm_compute; repeat split; discriminate|].
  split; [apply surjective_pairing|vm_compute; split; discriminate].
Qed.
(** An upgrade brings back the owner, who ends the unbonding period. *)
Lemma mk_refuted : exists b s s' subs s2 subs2, k_grown b s /\
  o_owner (k_own (h_st s)) = None /\ o_pending (k_own (h_st s)) = None /\
  k_dur (h_st s) = Some (DHeight 50) /\
  hk_handle s b (h_admin s) (HMigrate 3%N) = Ok (s', subs) /\
  o_owner (k_own (h_st s')) = Some 9%N /\ k_dur (h_st s') = Some (DHeight 5) /\
  hk_handle s' b 9%N (HCall (KUpdateConfig None)) = Ok (s2, subs2) /\ k_dur (h_st s2) = None.
Proof.
  exists (kb 9), (fst mk_r). do 4 eexists. split; [exact mk_grown|].
  do 3 (split; [vm_compute; reflexivity|]). split; [vm_compute; reflexivity|].
  do 2 (split; [vm_compute; reflexivity|]). split; [vm_compute; reflexivity|].
  vm_compute; reflexivity.
Qed.

(** ** cw20-stake-external-rewards: the former owner sets the duration *)
Definition mx0 : host xstate rold :=
  Host 30%N 1%N (Some (ROld (Some 1%N) 61 (RNative 7))) (xini 10).
Definition mx1 : host xstate rold :=
  match hx_handle mx0 (xb 1) 30%N (HMigrate 2%N) with Ok (s, _) => s | Err _ => mx0 end.
Definition mx_h : list (block * call (hmsg xmsg)) :=
  [(xb 2, Call 1%N (HCall (XRew (ROwner (OTransfer 2%N None)))) []);
   (xb 3, Call 2%N (HCall (XRew (ROwner OAccept))) [])].
Definition mx_r := run_hist hx_handle no_fail no_reply mx1 mx_h.
Lemma mx_refuted : exists b s l s' subs s2 subs2,
  leads hx_handle (xb 1) mx1 b s l /\ o_owner (r_own (x_rew (h_st s))) = Some 2%N /\
  (exists e, hx_handle s b 1%N (HCall (XRew (RUpdateDuration 3))) = Err e) /\
  hx_handle s b (h_admin s) (HMigrate 3%N) = Ok (s', subs) /\
  o_owner (r_own (x_rew (h_st s'))) = Some 1%N /\
  hx_handle s' b 1%N (HCall (XRew (RUpdateDuration 3))) = Ok (s2, subs2).
Proof.
  exists (xb 4), (fst mx_r), (snd mx_r). do 4 eexists. split.
  { exists mx_h. split; [vm_compute; repeat split; discriminate|].
    split; [apply surjective_pairing|vm_compute; split; discriminate]. }
  split; [vm_compute; reflexivity|]. split; [eexists; vm_compute; reflexivity|].
  split; [vm_compute; reflexivity|]. split; [vm_compute; reflexivity|]. vm_compute; reflexivity.
Qed.

(** ** cw20-stake-reward-distributor: the former owner takes the tokens *)
Definition md0 : host dstate dold :=
  Host 30%N 1%N (Some (DOld 1 61 50 5)) dini.
Definition md1 : host dstate dold :=
  match hd_handle md0 (db 10) 30%N (HMigrate 2%N) with Ok (s, _) => s | Err _ => md0 end.
Definition md_h : list (block * call (hmsg dmsg)) :=
  [(db 11, Call 1%N (HCall (DOwner (OTransfer 2%N None))) []);
   (db 12, Call 2%N (HCall (DOwner OAccept)) []);
   (db 13, Call 2%N (HCall (DDonate 50%N 100)) [])].
Definition md_r := run_hist hd_handle no_fail no_reply md1 md_h.
Lemma md_refuted : exists b s l s' subs s2 subs2,
  leads hd_handle (db 10) md1 b s l /\ o_owner (d_own (h_st s)) = Some 2%N /\
  (exists e, hd_handle s b 1%N (HCall DWithdraw) = Err e) /\
  hd_handle s b (h_admin s) (HMigrate 3%N) = Ok (s', subs) /\
  o_owner (d_own (h_st s')) = Some 1%N /\
  hd_handle s' b 1%N (HCall DWithdraw) = Ok (s2, subs2) /\ subs2 = [DTransfer 50%N 1%N 100].
Proof.
  exists (db 14), (fst md_r), (snd md_r). do 4 eexists. split.
  { exists md_h. split; [vm_compute; repeat split; discriminate|].
    split; [apply surjective_pairing|vm_compute; split; discriminate]. }
  split; [vm_compute; reflexivity|]. split; [eexists; vm_compute; reflexivity|].
  split; [vm_compute; reflexivity|]. split; [vm_compute; reflexivity|].
  split; [vm_compute; reflexivity|]. reflexivity.
Qed.
