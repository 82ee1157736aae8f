(** An update of rewards never fails: proofs about dao-rewards-distributor. *)
From Verif Require Import Base BaseProofs Exec Plain PlainProofs StoreModel StoreProofs LedgerProofs
  StakeProofs ExtModel ExtProofs RewModel RewSpec RewProofs RewClaims.

Lemma mul256_goes a b : a * b <= U256_MAX -> mul256 a b = Ok (a * b).
Proof. intros H. unfold mul256. by replace (U256_MAX <? a * b) with false by lia. Qed.
Lemma add256_goes a b : a + b <= U256_MAX -> add256 a b = Ok (a + b).
Proof. intros H. unfold add256. by replace (U256_MAX <? a + b) with false by lia. Qed.
Lemma sub256_goes a b : b <= a -> sub256 a b = Ok (a - b).
Proof. intros H. unfold sub256. by replace (a <? b) with false by lia. Qed.

(** The time that has passed can be credited. *)
Lemma active_goes s b vp v p f c F :
  e_vps s !! vp = Some v -> 0 <= vp_total_at v b -> shape b p f c ->
  ep_puvp p + SCALE * left p f c <= SCALE * F -> SCALE * F <= U256_MAX ->
  exists x, active_puvp s b vp p = Ok x.
Proof.
  intros Hv HT (H0 & H1 & H2 & HS) HF HU. pose proof SCALE_pos as Hsc. unfold active_puvp.
  unfold left, never_ran in *.
  destruct (ep_rate p) as [| |amount u ct]; [by eexists|by eexists|].
  destruct HS as (Ha & Hu & [((A & B & C) & -> & -> & D)|(st & en & la & R)]).
  { unfold latest. rewrite B, C. cbn [until]. by eexists. }
  destruct R as [R1 R2 R3 R4 R5 R6 R7 R8 R9].
  unfold latest. rewrite R2, until_mk. set (lt := Z.min (now u b) en) in *.
  assert (exists d, d = mkd u (Z.max 0 (tick u lt - tick u la)) /\
    exists x, (if dur_zero d then Ok (ep_puvp p) else
     do! v <- q_vp s vp;
     let total := vp_total_at v b in
     if total =? 0 then Ok (ep_puvp p)
     else do! n <- dur_div d u; do! x <- mul256 (amount * n) SCALE; add256 (ep_puvp p) (x / total)) = Ok x)
     as (d & -> & x & E).
  { eexists. split; [done|]. rewrite zero_mk. set (dl := Z.max 0 (tick u lt - tick u la)) in *.
    destruct (dl =? 0) eqn:Ed; [by eexists|]. unfold q_vp. rewrite Hv. cbn zeta.
    destruct (vp_total_at v b =? 0) eqn:Et; [by eexists|]. rewrite div_mk by done. set (k := dl / len u) in *.
    assert (tick u lt <= tick u en) as Hlt1 by (apply tick_mono; lia).
    assert (0 <= k) as Hk by (apply Z.div_pos; lia).
    assert (k * len u <= dl) as Hkl by (apply div_mul_le; lia).
    assert ((c + k) * len u <= tick u lt - tick u st) as Hck.
    { rewrite Z.mul_add_distr_r. unfold dl in *. lia. }
    assert (c + k <= (tick u en - tick u st) / len u) as Hckn.
    { apply Z.div_le_lower_bound; [lia|]. nia. }
    assert (amount * k <= f - c * amount) as Hak by nia.
    assert (0 <= amount * k) as Hak0 by nia.
    assert (amount * k * SCALE <= SCALE * (f - c * amount)) as Hm by nia.
    rewrite mul256_goes by lia. rewrite add256_goes; [by eexists|].
    assert (amount * k * SCALE / vp_total_at v b <= amount * k * SCALE); [|lia].
    apply Z.div_le_upper_bound; [lia|]. nia. }
  exists x. rewrite R3. pose proof (since_mk u lt la) as E'.
  destruct u; cbn [mk] in E' |- *; rewrite E'; exact E.
Qed.

(** Every update goes through. *)
Lemma update_goes s b a id due pd fd d :
  core id s due pd fd -> e_block s = b -> e_dists s !! id = Some d ->
  SCALE * fd <= U256_MAX -> fd <= U128_MAX ->
  exists x v, active_puvp s b (di_vp d) (di_ep d) = Ok x /\ e_vps s !! di_vp d = Some v /\
    add256 x (di_hist d) = Ok (x + di_hist d) /\
    accrued s b id a (di_vp d) (x + di_hist d) =
      Ok (vp_power_at v b a * (x + di_hist d - acc s id a) / SCALE) /\
    add128 (vp_power_at v b a * (x + di_hist d - acc s id a) / SCALE) (pend s id a) =
      Ok (vp_power_at v b a * (x + di_hist d - acc s id a) / SCALE + pend s id a).
Proof.
  intros HC Eb Hd HU HM. destruct (co_some _ _ _ _ _ HC d Hd) as (v & Hv & _ & HI).
  pose proof (co_led _ _ _ _ _ _ _ HC Hv) as HL. rewrite Eb in *. pose proof (total_nonneg b v HL) as HT.
  pose proof SCALE_pos as Hsc.
  pose proof HI as [A1 A2 A3 _ _ (c & A7 & A8) A9].
  assert (ep_puvp (di_ep d) + SCALE * left (di_ep d) (di_funded d) c <= SCALE * fd) as HF by (unfold tp in A8; lia).
  destruct (active_goes s b (di_vp d) v _ _ _ _ Hv HT A7 HF HU) as [x Hx].
  destruct (credit_step s b v d _ _ _ _ _ x Hv HL HI Hx) as [HI' _].
  set (d' := set_ep d _ _ _) in HI'.
  assert (tp d' = x + di_hist d) as Et by (unfold tp, d'; cbn; lia).
  destruct HI' as [B1 B2 B3 (c' & B4 & B5) _ (e & B7 & B8) B9].
  specialize (B5 [a] ltac:(apply NoDup_singleton)). cbn [lsum] in B5. unfold owed in B5. rewrite Et in *.
  specialize (B2 a). specialize (B3 a). pose proof (pow_nonneg b v a HL) as Hp.
  assert (0 <= SCALE * left (di_ep d') (di_funded d') c') by (pose proof (left_nonneg _ _ _ _ B4); nia).
  assert (0 <= SCALE * left (di_ep d') (di_funded d') e) by (pose proof (left_nonneg _ _ _ _ B7); nia).
  assert (0 <= SCALE * pd) by nia.
  set (f := x + di_hist d - acc s id a) in *.
  assert (0 <= vp_power_at v b a * f) as Hnn by (apply Z.mul_nonneg_nonneg; lia).
  exists x, v. split; [done|]. split; [done|]. split; [apply add256_goes; lia|].
  assert (SCALE * pend s id a + vp_power_at v b a * f <= SCALE * fd) as Hb by lia.
  pose proof (Z.mul_div_le (vp_power_at v b a * f) SCALE Hsc) as Hdv.
  assert (vp_power_at v b a * f / SCALE + pend s id a <= fd) as Hs.
  { apply (Z.mul_le_mono_pos_l _ _ SCALE Hsc). lia. }
  assert (0 <= vp_power_at v b a * f / SCALE) by (apply Z.div_pos; lia).
  split.
  - unfold accrued, q_vp. rewrite Hv, sub256_goes by lia. fold f.
    rewrite mul256_goes by nia. by replace (_ <=? U128_MAX) with true by lia.
  - fold f. unfold add128. destruct (U128_MAX <? _) eqn:E; [lia|done].
Qed.
Lemma rewards_goes s b a id due pd fd d :
  core id s due pd fd -> e_block s = b -> e_dists s !! id = Some d ->
  SCALE * fd <= U256_MAX -> fd <= U128_MAX -> exists s', update_rewards s b a id = Ok s'.
Proof.
  intros HC Eb Hd HU HM. destruct (update_goes s b a id due pd fd d HC Eb Hd HU HM) as (x & v & E1 & E2 & E3 & E4 & E5).
  unfold update_rewards, get_dist. rewrite Hd. cbn zeta. rewrite E1, E3, E4, E5. by eexists.
Qed.
Lemma pending_goes s b a id due pd fd d :
  core id s due pd fd -> e_block s = b -> e_dists s !! id = Some d ->
  SCALE * fd <= U256_MAX -> fd <= U128_MAX -> exists n, pending_rewards s b id a = Ok n.
Proof.
  intros HC Eb Hd HU HM. destruct (update_goes s b a id due pd fd d HC Eb Hd HU HM) as (x & v & E1 & E2 & E3 & E4 & E5).
  unfold pending_rewards, get_dist. rewrite Hd, E1, E3, E4, E5. by eexists.
Qed.

(** Many updates. *)
Definition sound (b : block) (due : list (addr * addr)) (pd fd : Z -> Z) (ids : list Z) (s : estate) : Prop :=
  e_block s = b /\ forall i, i ∈ ids -> core i s due (pd i) (fd i) /\ e_dists s !! i <> None.
Lemma sound_update b due pd fd ids s a i s' :
  sound b due pd fd ids s -> update_rewards s b a i = Ok s' -> sound b due pd fd ids s'.
Proof.
  intros [Eb Hs] H. split.
  - apply update_ok in H as (d & x & v & _ & _ & _ & _ & ->). done.
  - intros j Hj. destruct (Hs j Hj) as [HC Hd].
    destruct (update_core j s b a i s' due due _ _ HC Eb H) as (HC' & _ & _ & _ & _); [by right|].
    split; [done|]. apply update_ok in H as (d & x & v & _ & _ & _ & _ & ->). cbn [e_dists].
    destruct (decide (i = j)) as [->|]; [by rewrite lookup_insert|by rewrite lookup_insert_ne].
Qed.
Lemma ids_go b due pd fd ids a l s :
  sound b due pd fd ids s -> (forall i, i ∈ ids -> SCALE * fd i <= U256_MAX /\ fd i <= U128_MAX) ->
  (forall i, i ∈ l -> i ∈ ids) -> exists s', update_ids s b a l = Ok s' /\ sound b due pd fd ids s'.
Proof.
  revert s. induction l as [|i l IH]; intros s Hs Hf Hl; cbn; [by eauto|].
  pose proof Hs as [Eb Hs']. destruct (Hs' i) as [HC Hd]; [apply Hl, elem_of_list_here|].
  destruct (e_dists s !! i) as [d|] eqn:Ed; [|done].
  destruct (Hf i) as [F1 F2]; [apply Hl, elem_of_list_here|].
  destruct (rewards_goes s b a i due _ _ d HC Eb Ed F1 F2) as [s1 E]. rewrite E.
  apply IH; [by eapply sound_update|done|]. intros j Hj. by apply Hl, elem_of_list_further.
Qed.
Lemma all_go b due pd fd ids who s :
  sound b due pd fd ids s -> (forall i, i ∈ ids -> SCALE * fd i <= U256_MAX /\ fd i <= U128_MAX) ->
  exists s', update_all s b who ids = Ok s'.
Proof.
  revert s. induction who as [|a who IH]; intros s Hs Hf; cbn; [by eauto|].
  destruct (ids_go b due pd fd ids a ids s Hs Hf) as (s1 & -> & Hs1); [done|]. by apply IH.
Qed.

Lemma subscribe_inv m i j h h' :
  j ∈ default [] (subscribe m i h !! h') -> j ∈ default [] (m !! h') \/ j = i.
Proof.
  unfold subscribe. destruct (decide (h = h')) as [->|]; [|rewrite lookup_insert_ne by done; by left].
  rewrite lookup_insert. cbn [default]. intros [?|?%elem_of_list_singleton]%elem_of_app; auto.
Qed.
Lemma unsubscribe_inv m i j h h' :
  j ∈ default [] (unsubscribe m i h !! h') -> j ∈ default [] (m !! h').
Proof.
  unfold unsubscribe. destruct (List.filter _ _) as [|x l] eqn:E.
  - destruct (decide (h = h')) as [->|]; [|by rewrite lookup_delete_ne].
    rewrite lookup_delete. cbn. intros H. by apply elem_of_nil in H.
  - destruct (decide (h = h')) as [->|]; [|by rewrite lookup_insert_ne].
    rewrite lookup_insert. cbn [default from_option id]. rewrite <-E. intros H.
    apply elem_of_list_In, filter_In in H as [H _]. by apply elem_of_list_In.
Qed.

(** Hook callers are registered for distributions there are. *)
Definition known (s : estate) : Prop :=
  forall h i, i ∈ registered s h -> e_dists s !! i <> None.
Lemma known_more s s' :
  known s -> (forall h, registered s' h = registered s h) ->
  (forall i, e_dists s !! i <> None -> e_dists s' !! i <> None) -> known s'.
Proof. intros HK Hh Hd h i. rewrite Hh. intros Hi. apply Hd. by eapply HK. Qed.
Lemma insert_more (m : gmap Z dist) k x i : m !! i <> None -> <[k := x]> m !! i <> None.
Proof. destruct (decide (k = i)) as [->|]; [by rewrite lookup_insert|by rewrite lookup_insert_ne]. Qed.
Lemma update_more s b a i s' :
  update_rewards s b a i = Ok s' ->
  e_hooks s' = e_hooks s /\ forall j, e_dists s !! j <> None -> e_dists s' !! j <> None.
Proof.
  intros H. apply update_ok in H as (d & x & v & _ & _ & _ & _ & ->). split; [done|]. intros j. apply insert_more.
Qed.
Lemma ids_more b a l s s' :
  update_ids s b a l = Ok s' ->
  e_hooks s' = e_hooks s /\ forall j, e_dists s !! j <> None -> e_dists s' !! j <> None.
Proof.
  revert s. induction l as [|i l IH]; intros s H; cbn in H; [by injection H as <-|].
  destruct (update_rewards s b a i) as [s1|] eqn:E; [|done]. apply update_more in E as [E1 E2].
  destruct (IH _ H) as [F1 F2]. split; [congruence|auto].
Qed.
Lemma all_more b l who s s' :
  update_all s b who l = Ok s' ->
  e_hooks s' = e_hooks s /\ forall j, e_dists s !! j <> None -> e_dists s' !! j <> None.
Proof.
  revert s. induction who as [|a who IH]; intros s H; cbn in H; [by injection H as <-|].
  destruct (update_ids s b a l) as [s1|] eqn:E; [|done]. apply ids_more in E as [E1 E2].
  destruct (IH _ H) as [F1 F2]. split; [congruence|auto].
Qed.
Lemma fund_more s b a i d n s' :
  fund s b a i d n = Ok s' ->
  e_hooks s' = e_hooks s /\ forall j, e_dists s !! j <> None -> e_dists s' !! j <> None.
Proof. intros H. apply fund_ok in H as (d' & -> & _). split; [done|]. intros j. apply insert_more. Qed.
Lemma native_more s b a i f s' :
  fund_native s b a i f = Ok s' ->
  e_hooks s' = e_hooks s /\ forall j, e_dists s !! j <> None -> e_dists s' !! j <> None.
Proof.
  unfold fund_native. destruct (get_dist s i) as [d|]; [|done]. destruct (di_denom d) as [[] t]; [done|].
  destruct (must_pay f t) as [n|]; [|done]. apply fund_more.
Qed.
Lemma known_step s b sender m s' subs :
  known s -> e_step s b sender m = Ok (s', subs) -> known s'.
Proof.
  intros HK H.
  assert (forall s1, e_hooks s1 = e_hooks s /\ (forall j, e_dists s !! j <> None -> e_dists s1 !! j <> None) -> known s1) as Hm.
  { intros s1 [E1 E2]. apply (known_more s); [done| |done]. intros h. unfold registered. by rewrite E1. }
  destruct m as [denom rate vp hook op wd funds|i rate vp hook op wd|i funds|funds|from n i|i|i|who|act|vp caller who n|t n]; cbn [e_step] in H.
  - destruct (em_fits rate && _); [|done].
    destruct (create _ _ _ _ _ _ _ _ _ _) as [s1|] eqn:E; [|done]. injection H as <- _.
    unfold create in E. destruct (is_owner _ _); [|done]. destruct (_ <=? U64_MAX); [|done]. cbn zeta in E.
    destruct (q_vp _ _); [|done]. destruct (em_validate _); [|done].
    destruct (e_dists s !! (e_count s + 1)) eqn:EN; [done|].
    set (d := Dist _ _ _ _ _ _ _ _) in E. set (s2 := set_hooks _ _) in E.
    assert (known s2) as HK2.
    { intros h i. unfold registered, s2. cbn [set_hooks e_hooks e_dists set_dist set_count].
      intros Hi. apply subscribe_inv in Hi as [Hi| ->]; [|by rewrite lookup_insert].
      apply insert_more. by eapply HK. }
    destruct funds as [|c funds]; [injection E as <-; done|].
    destruct denom as [[] t]; [done|]. destruct (must_pay _ _) as [n|]; [|done].
    apply fund_more in E as [E1 E2]. apply (known_more s2); [done| |done]. intros h. unfold registered. by rewrite E1.
  - destruct (match rate with Some r => em_fits r | None => true end); [|done].
    destruct (update _ _ _ _ _ _ _ _ _) as [s1|] eqn:E; [|done]. injection H as <- _.
    unfold update in E. destruct (is_owner _ _); [|done]. unfold get_dist in E.
    destruct (e_dists s !! i) as [d|] eqn:Ed; [|done].
    destruct (match rate with Some _ => _ | None => _ end) as [d1|] in E; [|done].
    destruct (match vp with Some _ => _ | None => _ end) as [vp'|] in E; [|done].
    cbn zeta in E. injection E as <-. intros h j. unfold registered. cbn [set_hooks e_hooks e_dists set_dist].
    destruct hook as [h'|].
    + intros Hj. apply subscribe_inv in Hj as [Hj| ->]; [|by rewrite lookup_insert].
      apply insert_more. apply unsubscribe_inv in Hj. by apply (HK h).
    + intros Hj. apply insert_more. by apply (HK h).
  - destruct (forallb _ _); [|done]. destruct (fund_native _ _ _ _ _) as [s1|] eqn:E; [|done]. injection H as <- _.
    apply Hm. by eapply native_more.
  - destruct (forallb _ _); [|done]. destruct (fund_native _ _ _ _ _) as [s1|] eqn:E; [|done]. injection H as <- _.
    apply Hm. by eapply native_more.
  - destruct (fits128 n); [|done]. destruct (fund_cw20 _ _ _ _ _ _) as [s1|] eqn:E; [|done]. injection H as <- _.
    unfold fund_cw20 in E. destruct (get_dist _ _) as [d|]; [|done]. destruct (di_denom d) as [[] t]; [|done].
    destruct (_ =? _)%N; [|done]. apply Hm. by eapply fund_more.
  - unfold claim_rewards in H. destruct (update_rewards s b sender i) as [s1|] eqn:E; [|done].
    destruct (get_dist s1 i) as [d|]; [|done]. cbn zeta in H. destruct (negb _); [|done].
    destruct (send _ _ _) as [s3|] eqn:Es; [|done]. apply send_ok in Es as [-> _]. injection H as <- _.
    apply Hm. apply update_more in E as [E1 E2]. by split.
  - unfold withdraw in H. destruct (is_owner _ _); [|done]. destruct (get_dist s i) as [d|]; [|done].
    cbn zeta in H. destruct (negb _); [|done]. destruct (rewards_until _ _ _) as [R|]; [|done].
    destruct (sub128 _ _) as [k|]; [|done]. destruct (send _ _ _) as [s1|] eqn:Es; [|done].
    apply send_ok in Es as [-> _]. injection H as <- _. apply Hm. split; [done|]. intros j. apply insert_more.
  - destruct (e_hooks s !! sender) as [ids|]; [|done].
    destruct (update_all s b who ids) as [s1|] eqn:E; [|done]. injection H as <- _.
    apply Hm. by eapply all_more in E.
  - destruct (update_ownership _ _ _ _) as [o|]; [|done]. injection H as <- _. by apply Hm.
  - destruct (fits128 n); [|done]. unfold set_power in H. cbn zeta in H. destruct (_ <=? U128_MAX); [|done].
    injection H as <- _. by apply Hm.
  - destruct (fits128 n); [|done]. destruct (take _ _ _) as [s1|] eqn:E; [|done]. injection H as <- _.
    apply take_ok in E as ->. by apply Hm.
Qed.
Lemma known_reached b0 owner vs b s l :
  leads e_handle b0 (e_instantiate b0 owner vs) b s l -> known s.
Proof.
  apply (leads_ind e_handle (fun b s l => known s)).
  - clear. intros b s l a m s' subs IH H. unfold e_handle in H. destruct (e_goes s b); [|done].
    by eapply (known_step (set_block s b)).
  - done.
  - done.
  - intros h i. unfold registered. cbn. rewrite lookup_empty. cbn. intros E. by apply elem_of_nil in E.
Qed.
