(** Rewards of dao-rewards-distributor that nobody gets. *)
From Verif Require Import Base BaseProofs Exec ExecProofs Plain PlainProofs StoreModel StoreProofs
  ExtModel ExtProofs RewModel RewSpec RewProofs RewClaims RewLost RewExamples.

Lemma none_claimable s b id d :
  e_dists s !! id = Some d -> active_puvp s b (di_vp d) (di_ep d) = Ok 0 -> di_hist d = 0 ->
  (forall u, acc s id u = 0) -> (forall u, pend s id u = 0) -> forall u, claimable s b id u = 0.
Proof.
  intros Hd Ha Hh Hc Hp u. unfold claimable, pending_rewards, get_dist. rewrite Hd, Ha, Hh, Hp.
  unfold accrued. destruct (q_vp s (di_vp d)) as [v|]; [|done].
  change (add256 0 0) with (Ok 0). cbv beta iota. rewrite Hc. change (sub256 0 0) with (Ok 0). cbv beta iota.
  rewrite mul256_eq by (rewrite Z.mul_0_r; done). rewrite Z.mul_0_r, Z.div_0_l by (pose proof SCALE_pos; lia). done.
Qed.
Definition zeros (m : gmap (Z * addr) Z) : bool := forallb (fun kv => kv.2 =? 0) (map_to_list m).
Lemma zeros_spec m k : zeros m = true -> match m !! k with Some n => n | None => 0 end = 0.
Proof.
  intros H. destruct (m !! k) as [n|] eqn:E; [|done]. unfold zeros in H. rewrite forallb_forall in H.
  specialize (H (k, n)). rewrite <-elem_of_list_In, elem_of_map_to_list in H. specialize (H E). cbn in H. lia.
Qed.
(** 1000 tokens over a hundred blocks; the first power is given after them. *)
Definition ex_nopow : list (block * call emsg) :=
  [ec 1 9%N (EPower 70%N 70%N 2%N 0);
   ec 1 1%N (ECreate token (EmLinear 100 (DHeight 10) false) 70%N 70%N None None [(7%N, 1000)]);
   ec 102 9%N (EPower 70%N 70%N 2%N 30); ec 102 70%N (EHook [2%N])].
Definition nopow_d : dist :=
  Dist token (Epoch (EmLinear 100 (DHeight 10) false) (AtHeight 1) (AtHeight 101) 0 (AtHeight 101)) 70%N 70%N true 1000 1%N 0.
Lemma no_power_refuted :
  exists b s l id, ereached b s l /\ tame id l = true /\ funded id l = 1000 /\ claimed id l = 0 /\ withdrawn id l = 0 /\
    (forall b', block_le b b' -> remaining s b' id = 0 /\ (forall u, claimable s b' id u = 0) /\
      forall a, exists e, e_handle s b' a (EWithdraw id) = Err e) /\
    forall b' s' l', leads e_handle b s b' s' l' -> tame id l' = true ->
      claimed id l' + withdrawn id l' <= funded id l'.
Proof.
  exists (eb 102), (fst (erun ex_nopow)), (snd (erun ex_nopow)), 1.
  assert (ereached (eb 102) (fst (erun ex_nopow)) (snd (erun ex_nopow))) as HR by ereach.
  assert (tame 1 (snd (erun ex_nopow)) = true) as Hm by (vm_compute; reflexivity).
  assert (e_block (fst (erun ex_nopow)) = eb 102) as Eb by (vm_compute; reflexivity).
  split; [exact HR|]. split; [exact Hm|]. do 3 (split; [vm_compute; reflexivity|]).
  assert (e_dists (fst (erun ex_nopow)) !! 1 = Some nopow_d) as Hd by (vm_compute; reflexivity).
  assert (zeros (e_acc (fst (erun ex_nopow))) = true) as Za by (vm_compute; reflexivity).
  assert (zeros (e_pend (fst (erun ex_nopow))) = true) as Zp by (vm_compute; reflexivity).
  revert HR Hm Eb Hd Za Zp. generalize (snd (erun ex_nopow)) as l. generalize (fst (erun ex_nopow)) as s.
  intros s l HR Hm Eb Hd Za Zp. split.
  2:{ intros b' s' l' HL Hm'.
    assert (shape (e_block s) (di_ep nopow_d) (di_funded nopow_d) 10) as Hs.
    { rewrite Eb. split; [done|]. split; [done|]. split; [done|]. cbn [di_ep nopow_d ep_rate]. split; [done|]. split; [done|].
      right. exists 1, 101, 101. split; cbn; try done. }
    pose proof (stays_lost 1 (eb 102) s l nopow_d 10 b' s' l' HR Hm Hd eq_refl (fun u => zeros_spec _ _ Zp) Hs HL Hm') as B.
    exact B. }
  intros b' [Hb _]. cbn in Hb.
  assert (Z.min (height b') 101 = 101) as Em by lia.
  split. { unfold remaining, undistributed, get_dist. rewrite Hd. cbn [latest until nopow_d di_ep ep_end ep_last]. rewrite Em.
    vm_compute. reflexivity. }
  split.
  - apply none_claimable with nopow_d; try done.
    + unfold active_puvp, latest, until. cbn [nopow_d di_ep ep_rate ep_end ep_last]. rewrite Em. done.
    + intros u. exact (zeros_spec _ _ Za).
    + intros u. exact (zeros_spec _ _ Zp).
  - intros a. unfold e_handle. destruct (e_goes s b'); [|eauto]. cbn [e_step]. unfold withdraw.
    destruct (is_owner _ _); [|eauto]. unfold get_dist. cbn [e_dists set_block]. rewrite Hd.
    cbn [nopow_d di_ep ep_end is_expired]. rewrite (proj2 (Z.leb_le 101 (height b'))) by lia. eauto.
Qed.
(** 900 tokens at 1000 per hundred blocks: the period ends before the first hundred blocks are
    over, nothing is given, and a stranger's funding of one token takes the 900 off the books. *)
Definition ex_left : list (block * call emsg) :=
  setup ++ [ec 1 1%N (ECreate token (EmLinear 1000 (DHeight 100) false) 70%N 70%N None None [(7%N, 900)])].
Definition ex_left' : list (block * call emsg) := ex_left ++ [ec 92 9%N (EFund 1 [(7%N, 1)])].
Definition left_s' : estate :=
  match e_handle (fst (erun ex_left)) (eb 92) 9%N (EFund 1 [(7%N, 1)]) with Ok (s', _) => s' | Err _ => fst (erun ex_left) end.
Definition left_d : dist :=
  Dist token (Epoch (EmLinear 1000 (DHeight 100) false) (AtHeight 92) (AtHeight 92) 0 (AtHeight 92)) 70%N 70%N true 1 1%N 0.
Lemma leftover_refuted :
  exists b s l id d a n s', ereached b s l /\ tame id l = true /\ funded id l = 900 /\ remaining s b id = 900 /\
    e_dists s !! id = Some d /\ o_owner (e_own s) <> Some a /\ n = 1 /\
    e_handle s b a (EFund id [(7%N, n)]) = Ok (s', []) /\ held s' (di_denom d) = 901 /\
    remaining s' b id = 1 /\ (forall u, claimable s' b id u = 0) /\
    forall b2 s2 l2, leads e_handle b s' b2 s2 l2 -> tame id l2 = true ->
      claimed id l2 + withdrawn id l2 <= 1 + funded id l2.
Proof.
  exists (eb 92), (fst (erun ex_left)), (snd (erun ex_left)), 1.
  assert (exists d, e_dists (fst (erun ex_left)) !! 1 = Some d /\ di_denom d = token) as (d & Hd & Ed)
    by (eexists; split; [vm_compute; reflexivity|reflexivity]).
  exists d, 9%N, 1, left_s'. rewrite Ed.
  split; [ereach|]. do 3 (split; [vm_compute; reflexivity|]). split; [exact Hd|].
  split; [vm_compute; discriminate|]. split; [reflexivity|]. split; [vm_compute; reflexivity|].
  split; [vm_compute; reflexivity|]. split; [vm_compute; reflexivity|].
  assert (e_dists left_s' !! 1 = Some left_d) as Hd' by (vm_compute; reflexivity).
  assert (zeros (e_acc left_s') = true) as Za by (vm_compute; reflexivity).
  assert (zeros (e_pend left_s') = true) as Zp by (vm_compute; reflexivity).
  assert (ereached (eb 92) left_s' (snd (erun ex_left'))) as HR.
  { assert (left_s' = fst (erun ex_left')) as -> by (vm_compute; reflexivity). ereach. }
  assert (tame 1 (snd (erun ex_left')) = true) as Hm by (vm_compute; reflexivity).
  assert (e_block left_s' = eb 92) as Eb by (vm_compute; reflexivity).
  revert HR Hm Eb Hd' Za Zp. generalize (snd (erun ex_left')) as l. generalize left_s' as s.
  intros s l HR Hm Eb Hd' Za Zp. split.
  2:{ intros b2 s2 l2 HL Hm2.
    assert (shape (e_block s) (di_ep left_d) (di_funded left_d) 0) as Hs.
    { rewrite Eb. split; [done|]. split; [done|]. split; [done|]. cbn [di_ep left_d ep_rate]. split; [done|]. split; [done|].
      right. exists 92, 92, 92. split; cbn; try done. }
    exact (stays_lost 1 (eb 92) s l left_d 0 b2 s2 l2 HR Hm Hd' eq_refl (fun u => zeros_spec _ _ Zp) Hs HL Hm2). }
  apply (none_claimable s (eb 92) 1 left_d Hd'); [reflexivity|reflexivity| |].
  - intros u. exact (zeros_spec _ _ Za).
  - intros u. exact (zeros_spec _ _ Zp).
Qed.
