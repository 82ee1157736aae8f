(** Concrete histories of cw20-stake: witnesses for the false claims, and cases for
    the theorems. *)
From Verif Require Import Base BaseProofs Exec ExecProofs Plain PlainProofs HooksModel
  StoreModel StoreProofs StakeModel StakeSpec StakeProofs StakeClaims.

Definition kb (n : Z) : block := Block n (n * NANOS).
Definition kini (d : option duration) : kstate :=
  match k_instantiate (kb 1) 70%N d (Some 9%N) with Ok s => s | Err _ => KState 0%N None (initialize_owner None) ∅ snap_empty 0 ∅ [] 0 end.
Definition krun (d : option duration) (h : list (block * call kmsg)) :=
  run_hist k_handle no_fail no_reply (kini d) h.
Definition kc (a : addr) (m : kmsg) : call kmsg := Call a m [].
Definition kstk (a : addr) (x : Z) : call kmsg := kc 70%N (KReceive a x true).
Definition kfund (x : Z) : call kmsg := kc 70%N (KReceive 8%N x false).

Lemma kreached_run d h b :
  fits_dur d = true -> is_ok (validate_duration d) = true -> hist_ok (kb 1) h ->
  block_le (hist_end (kb 1) h) b ->
  kreached b (fst (krun d h)) (snd (krun d h)).
Proof.
  intros Hf Hd Hh Hb. exists (kb 1), 70%N, d, (Some 9%N), (kini d).
  split; [done|]. split.
  - unfold kini, k_instantiate. by destruct (validate_duration d).
  - exists h. split; [done|]. split; [|done]. by destruct (krun d h) eqn:E.
Qed.
Ltac kside := vm_compute; repeat split; discriminate || reflexivity.
Ltac kreach := apply kreached_run; kside.

(** Rewards paid into an empty pool go to whoever stakes next. *)
Lemma c37_refuted :
  exists b s l a x s1 subs1 s2 subs2,
    kreached b s l /\
    k_handle s b (k_token s) (KReceive a x true) = Ok (s1, subs1) /\
    k_handle s1 b a (KUnstake (staked s1 a)) = Ok (s2, subs2) /\ staked s a = 0 /\
    k_pool s1 - k_pool s2 = 101 /\ x = 1 /\ In (KPay a 101) subs2.
Proof.
  exists (kb 5), (fst (krun None [(kb 2, kfund 100)])), (snd (krun None [(kb 2, kfund 100)])), 1%N, 1.
  do 4 eexists. split; [kreach|]. split; [vm_compute; reflexivity|].
  split; [vm_compute; reflexivity|]. split; [vm_compute; reflexivity|].
  split; [vm_compute; reflexivity|]. split; [reflexivity|]. left. reflexivity.
Qed.
(** When a share is worth more than the deposit, the deposit buys nothing. *)
Lemma c40_refuted :
  exists b s l a x s' subs,
    kreached b s l /\ 0 < x /\
    k_handle s b (k_token s) (KReceive a x true) = Ok (s', subs) /\
    staked s' a = staked s a /\ k_pool s' = k_pool s + x.
Proof.
  pose (h := [(kb 2, kstk 1%N 1); (kb 3, kfund 1000000)]).
  exists (kb 5), (fst (krun None h)), (snd (krun None h)), 2%N, 1000. do 2 eexists.
  split; [kreach|]. split; [lia|]. split; [vm_compute; reflexivity|].
  split; vm_compute; reflexivity.
Qed.
(** The check meant to protect the arithmetic refuses an honest unstake. *)
Lemma c70_refuted :
  exists b s l a,
    kreached b s l /\ 0 < staked s a /\ k_dur s = None /\
    k_handle s b a (KUnstake (staked s a)) = Err "Cw20InvaraintViolation".
Proof.
  pose (h := [(kb 2, kstk 1%N (2 ^ 127))]).
  exists (kb 5), (fst (krun None h)), (snd (krun None h)), 1%N.
  split; [kreach|]. split; [vm_compute; reflexivity|]. split; vm_compute; reflexivity.
Qed.
(** The value query overflows long before the supply does. *)
Lemma c71_refuted :
  exists b s l a,
    kreached b s l /\ staked s a = 2 ^ 64 /\ k_pool s = 2 ^ 64 /\
    k_staked_value s a = Err "panic" /\
    is_ok (k_handle s b a (KUnstake (staked s a))) = true.
Proof.
  pose (h := [(kb 2, kstk 1%N (2 ^ 64))]).
  exists (kb 5), (fst (krun None h)), (snd (krun None h)), 1%N.
  split; [kreach|]. split; [vm_compute; reflexivity|]. split; [vm_compute; reflexivity|].
  split; vm_compute; reflexivity.
Qed.

(** A busier history: two stakers, rewards, unbonding, a changed period, a hook. *)
Definition ex_h : list (block * call kmsg) :=
  [ (kb 2, kc 9%N (KAddHook 50%N));
    (kb 2, kstk 1%N 100); (kb 3, kfund 50); (kb 4, kstk 2%N 30);
    (kb 5, kc 1%N (KUnstake 40)); (kb 5, kc 9%N (KUpdateConfig (Some (DHeight 3))));
    (kb 6, kc 2%N (KUnstake 7)); (kb 7, kc 8%N (KDonate 11)); (kb 9, kc 2%N KClaim);
    (kb 15, kc 1%N KClaim); (kb 16, kc 1%N (KUnstake 10)) ].
Definition ex_d : option duration := Some (DHeight 10).
Definition ex_k : kstate := fst (krun ex_d ex_h).
Definition ex_l : klog := snd (krun ex_d ex_h).
Lemma ex_kreached : kreached (kb 20) ex_k ex_l.
Proof. kreach. Qed.
