(** Concrete histories for cw-wormhole and cw-stake-tracker, and refutations. *)
From Verif Require Import Base BaseProofs WormModel WormSpec.

Definition ex_wops : list wop :=
  [WInc 1 30 7; WInc 1 10 5; WInc 2 20 100; WInc 1 20 4; WDec 1 25 3; WDec 1 10 2].
Definition ex_wops' : list wop :=
  [WInc 1 10 5; WInc 2 20 100; WInc 1 20 4; WDec 1 25 3; WDec 1 10 2; WInc 1 30 7].
Definition ok_or {A} (r : result A) (x : A) : A := match r with Ok a => a | Err _ => x end.
Definition ex_wm : wmap := ok_or (wm_run ∅ ex_wops) ∅.
Definition ex_wm' : wmap := ok_or (wm_run ∅ ex_wops') ∅.
Lemma ex_wm_ok : wm_run ∅ ex_wops = Ok ex_wm.
Proof. vm_compute. reflexivity. Qed.
Lemma ex_wops_perm : Permutation ex_wops ex_wops'.
Proof. apply Permutation_cons_append. Qed.
Lemma ex_wm'_ok : wm_run ∅ ex_wops' = Ok ex_wm'.
Proof. vm_compute. reflexivity. Qed.

(** Two validators: partly unbonding with the first, a redelegation, a slash. *)
Definition ex_tops : list top :=
  [TDel 10 1 100; TDel 20 2 50; TUndel 30 1 40 100; TRedel 40 1 2 30; TSlash 35 2 5; TDel 50 1 7].
Definition ex_tr : tracker := ok_or (t_run tr_new ex_tops) tr_new.
Lemma ex_tr_ok : t_run tr_new ex_tops = Ok ex_tr.
Proof. vm_compute. reflexivity. Qed.

(** Two unbondings; four unbonding tokens are slashed, two of each.  After the first
    unbonding finished the tracker has forgotten the slash of the second. *)
Definition ex_unb : list top :=
  [TDel 0 1 20; TUndel 1 1 10 10; TUndel 5 1 10 10; TSlashUnb 6 1 [(11, 2); (15, 2)]].
Lemma c50_unbonding_refuted :
  exists ops k u, in_time_order ops /\ t_run tr_new ops = Ok k /\
    staked_at u ops = 8 /\ total_staked k u = 10.
Proof.
  exists ex_unb, (ok_or (t_run tr_new ex_unb) tr_new), 12. cbn [in_time_order ex_unb top_time].
  split; [lia|]. split; [vm_compute; reflexivity|]. split; vm_compute; reflexivity.
Qed.
(** Delegating again to a validator while everything staked with it is unbonding:
    the validator is later counted as having nothing. *)
Definition ex_again : list top := [TDel 0 1 10; TUndel 1 1 10 100; TDel 2 1 10].
Definition ex_again_tr : tracker := ok_or (t_run tr_new ex_again) tr_new.
Lemma c74_again_refuted :
  exists ops k u, in_time_order ops /\ t_run tr_new ops = Ok k /\
    staked_with 1 u ops = 10 /\ vals_with_stake u ops = 1 /\ validator_cardinality k u = 0.
Proof.
  exists ex_again, ex_again_tr, 200. cbn [in_time_order ex_again top_time].
  split; [lia|]. repeat split; vm_compute; reflexivity.
Qed.
(** Redelegating what is bonded while the rest is unbonding: the validator is later
    counted although it has nothing. *)
Definition ex_redel : list top := [TDel 0 1 10; TUndel 1 1 4 100; TRedel 2 1 2 6].
Lemma c74_redelegate_refuted :
  exists ops k u, in_time_order ops /\ t_run tr_new ops = Ok k /\
    staked_with 1 u ops = 0 /\ vals_with_stake u ops = 1 /\ validator_cardinality k u = 2.
Proof.
  exists ex_redel, (ok_or (t_run tr_new ex_redel) tr_new), 200. cbn [in_time_order ex_redel top_time].
  split; [lia|]. repeat split; vm_compute; reflexivity.
Qed.
(** After delegating again as above, the tokens cannot be undelegated. *)
Lemma c75_refuted :
  exists ops k t v n d, in_time_order (ops ++ [TUndel t v n d]) /\ t_run tr_new ops = Ok k /\
    0 < n /\ (forall u, t <= u -> staked_with v u ops = n) /\
    t_apply k (TUndel t v n d) = Err "panic".
Proof.
  exists ex_again, ex_again_tr, 200, 1%N, 10, 100. split; [cbn; lia|].
  split; [vm_compute; reflexivity|]. split; [lia|]. split; [|vm_compute; reflexivity].
  intros u Hu. unfold staked_with, ex_again. cbn [lsum top_val]. rewrite N.eqb_refl. cbn [andb].
  replace (0 <=? u) with true by lia. replace (1 + 100 <=? u) with true by lia.
  replace (2 <=? u) with true by lia. lia.
Qed.
