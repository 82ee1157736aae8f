(** Concrete histories of a reward distributor and a staking contract. *)
From Coq Require Import QArith.
From Verif Require Import Base BaseProofs Exec ExecProofs Plain PlainProofs StoreModel StoreProofs
  StakeModel StakeSpec StakeProofs StakeClaims StakeExamples DistModel DistSpec DistProofs DistClaims
  FlowModel FlowSpec FlowClaims.
Local Open Scope Z_scope.

(** The distributor 60 pays the staking contract 61 five tokens [t] a block; the staking contract's
    token is 70. *)
Definition fini (d : option duration) (t : addr) : fstate :=
  FState (DState (initialize_owner (Some 1%N)) 61%N t 5 10 ∅) (kini d) 60%N 61%N.
Definition frun (d : option duration) (t : addr) (h : list (block * call fmsg)) :=
  run_hist f_handle no_fail no_reply (fini d t) h.
Lemma freached_run d t h b :
  fits_dur d = true -> is_ok (validate_duration d) = true -> f_held (fini d t) <= U128_MAX ->
  hist_ok (kb 10) h -> block_le (hist_end (kb 10) h) b ->
  freached b (fst (frun d t h)) (snd (frun d t h)).
Proof.
  intros Hf Hd Hu Hh Hb. exists (kb 10), (fini d t), [], [].
  split.
  { exists (kb 10), 1%N, 61%N, t, 5, true, (f_d (fini d t)). split; [done|]. split; [done|].
    exists []. split; [done|]. split; [done|]. apply block_le_refl. }
  split.
  { apply (kreached_run d [] (kb 10)); [done|done|done|]. vm_compute. split; discriminate. }
  split; [done|]. split; [done|]. exists h. split; [done|]. split; [|done].
  unfold frun. by destruct (run_hist _ _ _ _ h).
Qed.
Ltac freach := apply freached_run; kside.
Definition fc (h : Z) (a : addr) (m : fmsg) : block * call fmsg := (kb h, Call a m []).
Definition fstk (h : Z) (a : addr) (n : Z) := fc h 70%N (FStake (KReceive a n true)).

(** One member has staked 100 from the beginning; the distributor has 1000 tokens. *)
Definition ex_fh0 : list (block * call fmsg) := [fstk 10 1%N 100; fc 10 9%N (FDist (DDonate 70%N 1000))].
Definition ex_f0 := frun None 70%N ex_fh0.
Lemma ex_f0_reached b : block_le (kb 10) b -> freached b (fst ex_f0) (snd ex_f0).
Proof. intros Hb. apply freached_run; [kside|kside|kside|kside|]. exact Hb. Qed.
(** After it, another member comes and goes. *)
Definition ex_fh1 : list (block * call fmsg) :=
  [fc 20 5%N (FDist DDistribute); fstk 21 2%N 300; fc 31 5%N (FDist DDistribute);
   fc 40 2%N (FStake (KUnstake 100)); fc 41 5%N (FDist DDistribute)].
Definition ex_f1 := run_hist f_handle no_fail no_reply (fst ex_f0) ex_fh1.
Lemma ex_f1_leads b : block_le (kb 41) b ->
  leads f_handle (kb 10) (fst ex_f0) b (fst ex_f1) (snd ex_f1).
Proof.
  intros Hb. exists ex_fh1. split; [kside|]. split; [|done].
  unfold ex_f1. by destruct (run_hist _ _ _ _ ex_fh1).
Qed.

(** Somebody who stakes for the distribution alone takes what accrued to others. *)
Lemma c135_snipe_refuted :
  exists b s l s1 o1 s2 o2 s3 o3,
    freached b s l /\ serves s /\ due_at (f_d s) b = 500 /\
    staked (f_k s) 1%N = 100 /\ total_staked (f_k s) = 100 /\ staked (f_k s) 2%N = 0 /\
    f_handle s b 70%N (FStake (KReceive 2%N 900 true)) = Ok (s1, o1) /\
    f_handle s1 b 2%N (FDist DDistribute) = Ok (s2, o2) /\
    f_handle s2 b 2%N (FStake (KUnstake 900)) = Ok (s3, o3) /\
    FK (KPay 2%N 1350) ∈ o3 /\ k_staked_value (f_k s3) 1%N = Ok 150.
Proof.
  exists (kb 110), (fst ex_f0), (snd ex_f0). do 6 eexists.
  split; [apply ex_f0_reached; vm_compute; split; discriminate|].
  split; [split; vm_compute; reflexivity|]. do 4 (split; [vm_compute; reflexivity|]).
  split; [vm_compute; reflexivity|]. split; [vm_compute; reflexivity|]. split; [vm_compute; reflexivity|].
  split; [by left|]. vm_compute; reflexivity.
Qed.
(** While nobody stakes, the rewards wait for the first who does. *)
Lemma c135_empty_refuted :
  exists b s l s1 o1 s2 o2 s3 o3,
    freached b s l /\ serves s /\ due_at (f_d s) b = 500 /\ total_staked (f_k s) = 0 /\
    f_handle s b 2%N (FDist DDistribute) = Ok (s1, o1) /\
    f_handle s1 b 70%N (FStake (KReceive 2%N 1 true)) = Ok (s2, o2) /\
    f_handle s2 b 2%N (FStake (KUnstake 1)) = Ok (s3, o3) /\ FK (KPay 2%N 501) ∈ o3.
Proof.
  set (h := [fc 10 9%N (FDist (DDonate 70%N 1000))]).
  exists (kb 110), (fst (frun None 70%N h)), (snd (frun None 70%N h)). do 6 eexists.
  split; [freach|].
  split; [split; vm_compute; reflexivity|]. do 2 (split; [vm_compute; reflexivity|]).
  split; [vm_compute; reflexivity|]. split; [vm_compute; reflexivity|]. split; [vm_compute; reflexivity|].
  by left.
Qed.
(** Nothing checks that the token is the staking contract's; then nothing is ever paid. *)
Lemma c135_token_refuted :
  exists b s l, freached b s l /\ d_staking (f_d s) = f_stk s /\ d_token (f_d s) <> k_token (f_k s) /\
    due_at (f_d s) b = 500 /\
    forall b' a s' o, block_le b b' -> f_handle s b' a (FDist DDistribute) <> Ok (s', o).
Proof.
  set (h := [fc 10 9%N (FDist (DDonate 50%N 1000))]).
  exists (kb 110), (fst (frun None 50%N h)), (snd (frun None 50%N h)).
  split; [freach|]. split; [vm_compute; reflexivity|]. split; [vm_compute; discriminate|].
  split; [vm_compute; reflexivity|].
  intros b' a s' o Hb. eapply (wrong_token b' _ (snd (frun None 50%N h))).
  - apply freached_run; [kside|kside|kside|kside|]. eapply block_le_trans; [|exact Hb]. vm_compute. split; discriminate.
  - vm_compute; reflexivity.
  - vm_compute; discriminate.
Qed.
