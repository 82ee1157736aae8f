(** Concrete histories of cw20-stake-reward-distributor. *)
From Verif Require Import Base BaseProofs Exec ExecProofs Plain PlainProofs StoreModel DistModel
  DistSpec DistProofs DistClaims.

Definition db (n : Z) : block := Block n (n * NANOS).
(** Owner 1, staking contract 61, token 50, five tokens per block. *)
Definition dini : dstate := DState (initialize_owner (Some 1%N)) 61%N 50%N 5 10 ∅.
Definition drun (h : list (block * call dmsg)) := run_hist d_handle no_fail no_reply dini h.
Lemma dreached_run h b :
  hist_ok (db 10) h -> block_le (hist_end (db 10) h) b -> dreached b (fst (drun h)) (snd (drun h)).
Proof.
  intros Hh Hb. exists (db 10), 1%N, 61%N, 50%N, 5, true, dini.
  split; [done|]. split; [done|]. exists h. split; [done|]. split; [|done]. unfold drun.
  by destruct (run_hist _ _ _ _ h).
Qed.
Ltac dside := vm_compute; repeat split; discriminate || reflexivity.
Ltac dreach := apply dreached_run; dside.
Definition dc (h : Z) (a : addr) (m : dmsg) : block * call dmsg := (db h, Call a m []).
(** 100 tokens; distributed at 13, 13 (refused) and 20. *)
Definition ex_dh0 : list (block * call dmsg) := [dc 11 9%N (DDonate 50%N 100)].
Definition ex_dh1 : list (block * call dmsg) :=
  [dc 13 2%N DDistribute; dc 13 3%N DDistribute; dc 20 4%N DDistribute].
Definition ex_d0 := drun ex_dh0.
Definition ex_d1 := run_hist d_handle no_fail no_reply (fst ex_d0) ex_dh1.
Lemma ex_d1_leads b : block_le (db 20) b ->
  leads d_handle (db 11) (fst ex_d0) b (fst ex_d1) (snd ex_d1).
Proof.
  intros Hb. exists ex_dh1. split; [dside|]. split; [|done].
  unfold ex_d1. by destruct (run_hist _ _ _ _ ex_dh1).
Qed.

(** A change of the configuration pays nothing; what was due is lost. *)
Lemma c52_config_refuted :
  exists b s l, dreached b s l /\ due_at s b = 45 /\ d_bal s (d_token s) = 100 /\
    forall a staking rate token v s' subs,
      d_handle s b a (DUpdateConfig staking rate token v) = Ok (s', subs) ->
      subs = [] /\ due_at s' b = 0.
Proof.
  exists (db 19), (fst ex_d0), (snd ex_d0). split; [dreach|].
  split; [vm_compute; reflexivity|]. split; [vm_compute; reflexivity|].
  pose proof (di_bal _ _ (dreached_inv _ _ _ (dreached_run ex_dh0 (db 19) ltac:(dside) ltac:(dside)))) as Hb.
  change (fst (drun ex_dh0)) with (fst ex_d0) in Hb. revert Hb.
  generalize (fst ex_d0) (db 19). intros s b Hb a k r t v s' subs H. cbn in H.
  destruct (fits128 _); [|done]. destruct (is_owner _ _); [|done]. destruct v; [|done].
  rewrite amount_config in H. simplify_eq. split; [done|]. unfold due_at, d_bal. cbn.
  rewrite Z.sub_diag, Z.mul_0_r. specialize (Hb t). unfold d_bal in Hb. lia.
Qed.
