(** Proofs of the statements in RewHookProps.v. *)
From Verif Require Import Base BaseProofs Exec Plain PlainProofs StoreModel StoreProofs LedgerProofs
  StakeProofs ExtModel ExtProofs RewModel RewSpec RewProofs RewClaims RewHookProofs.

Lemma scale_fits : SCALE * 10 ^ 38 <= U256_MAX.
Proof. Transparent SCALE. vm_compute. discriminate. Opaque SCALE. Qed.
Lemma within fd : fd <= 10 ^ 38 -> SCALE * fd <= U256_MAX /\ fd <= U128_MAX.
Proof.
  intros H. pose proof scale_fits. assert (10 ^ 38 <= U128_MAX) as H2 by (vm_compute; discriminate). pose proof SCALE_pos. split; nia.
Qed.
(** *** C115 *)
Lemma c115_hook b s l caller ids who :
  ereached b s l -> e_hooks s !! caller = Some ids ->
  (forall i, i ∈ ids -> tame i l = true /\ funded i l <= 10 ^ 38) ->
  exists s', e_handle s b caller (EHook who) = Ok (s', []).
Proof.
  intros HR Hh Hi. pose proof HR as (b0 & owner & vs & _ & HL & Hg).
  unfold e_handle. rewrite Hg. cbn [e_step set_block e_hooks]. rewrite Hh.
  destruct (all_go b (e_due s) (fun i => claimed i l + withdrawn i l) (fun i => funded i l) ids who (set_block s b)) as [s' E].
  - split; [done|]. intros i Hin. destruct (Hi i Hin) as [Ht _]. split; [by apply reached_core|].
    apply (known_reached _ _ _ _ _ _ HL caller). unfold registered. by rewrite Hh.
  - intros i Hin. apply within. by apply Hi.
  - rewrite E. by eexists.
Qed.
Lemma c115_pending b s l id a :
  ereached b s l -> e_dists s !! id <> None -> tame id l = true -> funded id l <= 10 ^ 38 ->
  exists n, pending_rewards s b id a = Ok n.
Proof.
  intros HR Hd Ht Hf. destruct (e_dists s !! id) as [d|] eqn:Ed; [|done].
  destruct (within _ Hf) as [F1 F2].
  exact (pending_goes (set_block s b) b a id _ _ _ d (reached_core _ _ _ _ HR Ht) eq_refl Ed F1 F2).
Qed.

(** Too much to be counted. *)
Lemma stuck s b caller a id d v :
  e_hooks s !! caller = Some [id] -> e_dists s !! id = Some d -> ep_rate (di_ep d) = EmImmediate ->
  e_vps s !! di_vp d = Some v ->
  U256_MAX < vp_power_at v b a * (ep_puvp (di_ep d) + di_hist d - acc s id a) ->
  exists e, e_handle s b caller (EHook [a]) = Err e.
Proof.
  intros Hh Hd Hr Hv HU. unfold e_handle. destruct (e_goes s b); [|by eexists].
  cbn [e_step set_block e_hooks]. rewrite Hh. cbn [update_all update_ids].
  unfold update_rewards, get_dist. cbn [set_block e_dists]. rewrite Hd. cbn zeta.
  unfold active_puvp. rewrite Hr. unfold accrued, q_vp. cbn [set_block e_vps]. rewrite Hv.
  destruct (add256 _ _) as [t|] eqn:Et; [|by eexists]. apply add256_ok in Et as [-> _].
  unfold sub256. destruct (_ <? _); [by eexists|].
  unfold mul256. change (acc (set_block s b) id a) with (acc s id a).
  replace (U256_MAX <? _) with true by lia. by eexists.
Qed.
