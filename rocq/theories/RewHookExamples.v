(** Concrete histories of dao-rewards-distributor: updates that fail. *)
From Verif Require Import Base BaseProofs Exec ExecProofs Plain PlainProofs StoreModel StoreProofs
  ExtModel ExtProofs RewModel RewSpec RewProofs RewClaims RewExamples RewHookProofs RewHookClaims.
Transparent SCALE.

(** One base unit is staked; a member stakes 10^24 in the block in which 10^15 are handed out. *)
Definition ex_dust : list (block * call emsg) :=
  [ec 1 9%N (EPower 70%N 70%N 2%N 1);
   ec 1 1%N (ECreate token EmImmediate 70%N 70%N None None []);
   ec 5 9%N (EPower 70%N 70%N 3%N (10 ^ 24)); ec 5 70%N (EHook [3%N]);
   ec 5 9%N (EFund 1 [(7%N, 10 ^ 15)])].
Definition ex_d := erun ex_dust.
Lemma c115_same_block :
  exists b s l caller a, ereached b s l /\ registered s caller = [1] /\
    forallb (reported 1) l = true /\ forallb (steady 1) l = true /\ funded 1 l <= 10 ^ 15 /\
    forall b', block_le b b' -> exists e, e_handle s b' caller (EHook [a]) = Err e.
Proof.
  exists (eb 6), (fst ex_d), (snd ex_d), 70%N, 3%N.
  split; [ereach|]. split; [vm_compute; reflexivity|]. split; [vm_compute; reflexivity|].
  split; [vm_compute; reflexivity|]. split; [vm_compute; discriminate|].
  intros b' [Hb _]. change (height (eb 6)) with 6 in Hb.
  assert (exists d v, e_dists (fst ex_d) !! 1 = Some d /\ ep_rate (di_ep d) = EmImmediate /\
    ep_puvp (di_ep d) + di_hist d - acc (fst ex_d) 1 3%N = 10 ^ 54 /\
    e_vps (fst ex_d) !! di_vp d = Some v /\ smap_snap (vp_pow v) 3%N = Snap (Some (10 ^ 24)) [(5, None)])
    as (d & v & H1 & H2 & H3 & H4 & H5).
  { eexists _, _. split; [vm_compute; reflexivity|]. split; [vm_compute; reflexivity|].
    split; [vm_compute; reflexivity|]. split; [vm_compute; reflexivity|]. vm_compute; reflexivity. }
  apply (stuck _ _ _ _ 1 d v); [vm_compute; reflexivity|done|done|done|].
  rewrite H3. unfold vp_power_at, smap_at, snap_at. rewrite H5. cbn [sn_log sn_cur snap_find].
  replace (height b' <=? 5) with false by lia. vm_compute. reflexivity.
Qed.
(** Three times 10^38 tokens for one block. *)
Definition ex_large : list (block * call emsg) :=
  setup ++ [ec 1 1%N (ECreate token (EmLinear (3 * 10 ^ 38) (DHeight 1) false) 70%N 70%N None None [(7%N, 3 * 10 ^ 38)])].
Lemma c115_large :
  exists b s l caller e, ereached b s l /\ registered s caller = [1] /\ tame 1 l = true /\
    funded 1 l <= U128_MAX /\ forall a, e_handle s b caller (EHook [a]) = Err e.
Proof.
  exists (eb 2), (fst (erun ex_large)), (snd (erun ex_large)), 70%N, "Overflow".
  split; [ereach|]. split; [vm_compute; reflexivity|]. split; [vm_compute; reflexivity|].
  split; [vm_compute; discriminate|]. intros a. vm_compute. reflexivity.
Qed.
