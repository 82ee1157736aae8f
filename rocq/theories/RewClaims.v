(** Proofs of the statements in RewProps.v. *)
From Verif Require Import Base BaseProofs Exec Plain PlainProofs StoreModel StoreProofs LedgerProofs
  StakeProofs ExtModel ExtProofs RewModel RewSpec RewProofs RewAccount RewPoke.

Lemma reached_core id b s l :
  ereached b s l -> tame id l = true ->
  core id (set_block s b) (e_due s) (claimed id l + withdrawn id l) (funded id l).
Proof.
  intros (b0 & owner & vs & H0 & HL & Hg) Ht. destruct (core_reached _ _ _ _ _ _ _ H0 HL Ht) as [Hb HC].
  by apply core_goes.
Qed.
(** *** C54: nothing is promised twice *)
Lemma covered id b s l us :
  ereached b s l -> tame id l = true -> e_dists s !! id <> None -> NoDup us ->
  (forall u, 0 <= claimable s b id u) /\
  claimed id l + withdrawn id l + lsum (claimable s b id) us + remaining s b id <= funded id l.
Proof.
  intros HR Ht Hd Hn. pose proof (reached_core _ _ _ _ HR Ht) as HC. split.
  - intros u. apply (claimable_nonneg id (set_block s b) b _ _ u HC eq_refl).
  - apply (solvent id (set_block s b) b _ _ us HC eq_refl Hn Hd).
Qed.
(** *** C54: a claim pays what was reported *)
Lemma claim_exact s b a id s' subs :
  e_handle s b a (EClaim id) = Ok (s', subs) ->
  exists d n, e_dists s !! id = Some d /\ pending_rewards s b id a = Ok n /\ 0 <> n /\
    subs = [EPay (di_denom d) a n].
Proof.
  unfold e_handle. destruct (e_goes s b); [|done]. cbn [e_step]. unfold claim_rewards, update_rewards, pending_rewards.
  cbn zeta. change (get_dist (set_block s b) id) with (get_dist s id). unfold get_dist at 1.
  destruct (e_dists s !! id) as [d|] eqn:Ed; [|done]. unfold get_dist at 2. rewrite Ed.
  change (active_puvp (set_block s b)) with (active_puvp s).
  destruct (active_puvp s b (di_vp d) (di_ep d)) as [x|]; [|done].
  destruct (add256 _ _) as [t|]; [|done]. change (accrued (set_block s b)) with (accrued s).
  destruct (accrued _ _ _ _ _ _) as [n|]; [|done]. change (pend (set_block s b)) with (pend s).
  destruct (add128 _ _) as [m|] eqn:Em; [|done].
  unfold get_dist. cbn [e_dists]. rewrite lookup_insert.
  match goal with |- context [pend ?x id a] => assert (pend x id a = m) as -> by (unfold pend; cbn; by rewrite lookup_insert) end.
  destruct (m =? 0) eqn:E; [done|]. cbn [negb].
  destruct (send _ _ _) as [s3|]; [|done]. intros [= <- <-]. exists d, m. split; [done|]. split; [done|]. split; [lia|]. done.
Qed.
Lemma claim_succeeds s b a id d n :
  e_goes s b = true -> e_dists s !! id = Some d -> pending_rewards s b id a = Ok n -> n <> 0 ->
  n <= held s (di_denom d) -> exists s', e_handle s b a (EClaim id) = Ok (s', [EPay (di_denom d) a n]).
Proof.
  intros Hg Ed. unfold e_handle. rewrite Hg. cbn [e_step]. unfold claim_rewards, update_rewards, pending_rewards.
  cbn zeta. change (get_dist (set_block s b) id) with (get_dist s id). unfold get_dist at 1 2. rewrite Ed.
  change (active_puvp (set_block s b)) with (active_puvp s).
  destruct (active_puvp s b (di_vp d) (di_ep d)) as [x|]; [|done].
  destruct (add256 _ _) as [t|]; [|done]. change (accrued (set_block s b)) with (accrued s).
  destruct (accrued _ _ _ _ _ _) as [y|]; [|done]. change (pend (set_block s b)) with (pend s).
  intros Em Hn Hh. rewrite Em.
  unfold get_dist. cbn [e_dists]. rewrite lookup_insert.
  match goal with |- context [pend ?x id a] => assert (pend x id a = n) as -> by (unfold pend; cbn; by rewrite lookup_insert) end.
  replace (n =? 0) with false by lia. cbn [negb]. unfold send. cbn [di_denom set_ep].
  match goal with |- context [held ?x (di_denom d)] => change (held x (di_denom d)) with (held s (di_denom d)) end.
  replace (n <=? _) with true by lia. eauto.
Qed.
(** *** C80: the books *)
Lemma books_kept b s l t :
  ereached b s l ->
  held s t = given t l + msum (fun i d => if decide (di_denom d = t) then net i l else 0) (e_dists s) /\
  0 <= given t l.
Proof.
  intros (b0 & owner & vs & _ & HL & _). destruct (accounts _ _ _ _ _ _ t HL) as (A & B & _).
  rewrite <-share_dists. by split.
Qed.
Lemma claim_goes b s l id d a n :
  ereached b s l -> e_dists s !! id = Some d ->
  (forall i d', e_dists s !! i = Some d' -> di_denom d' = di_denom d -> tame i l = true) ->
  pending_rewards s b id a = Ok n -> n <> 0 ->
  exists s', e_handle s b a (EClaim id) = Ok (s', [EPay (di_denom d) a n]).
Proof.
  intros HR Hd Ht Hp Hn. pose proof HR as (b0 & owner & vs & _ & _ & Hg).
  apply claim_succeeds; try done.
  destruct (books_kept b s l (di_denom d) HR) as [E Hgiv]. rewrite E.
  assert (forall i d', e_dists s !! i = Some d' -> di_denom d' = di_denom d -> 0 <= net i l) as Hnn.
  { intros i d' Hi Ei. destruct (covered i b s l [] HR (Ht _ _ Hi Ei)) as [_ H]; [by rewrite Hi|apply NoDup_nil_2|].
    cbn [lsum] in H. unfold net. assert (0 <= remaining s b i); [|lia].
    unfold remaining. destruct (undistributed s b i) as [r|] eqn:Er; [|done].
    unfold undistributed in Er. destruct (get_dist s i); [|done].
    destruct (rewards_until _ _ _) as [y|]; [|done]. apply sub128_ok in Er as [-> ?]. lia. }
  assert (net id l <= msum (fun i d' => if decide (di_denom d' = di_denom d) then net i l else 0) (e_dists s)) as Hm.
  { pose proof (msum_ge_one (fun i d' => if decide (di_denom d' = di_denom d) then net i l else 0) (e_dists s) id d) as H.
    cbn in H. rewrite decide_True in H by done. apply H; [|done].
    intros k d' Hk. destruct (decide _); [|done]. by eapply Hnn. }
  destruct (covered id b s l [a] HR (Ht _ _ Hd eq_refl)) as [_ H]; [by rewrite Hd|apply NoDup_singleton|].
  cbn [lsum] in H. unfold claimable in H. rewrite Hp in H.
  assert (0 <= remaining s b id).
  { unfold remaining. destruct (undistributed s b id) as [r|] eqn:Er; [|done].
    unfold undistributed in Er. destruct (get_dist s id); [|done].
    destruct (rewards_until _ _ _) as [y|]; [|done]. apply sub128_ok in Er as [-> ?]. lia. }
  assert (net id l = funded id l - claimed id l - withdrawn id l) by done. lia.
Qed.

(** *** C55: what updates cost *)
Lemma U128_SCALE : U128_MAX < SCALE.
Proof. Transparent SCALE. done. Opaque SCALE. Qed.
Lemma updates_cost b0 s l0 b s' l id a d amount u ct v n n' :
  ereached b0 s l0 -> tame id l0 = true ->
  e_dists s !! id = Some d -> ep_rate (di_ep d) = EmLinear amount u ct ->
  e_vps s !! di_vp d = Some v -> vp_last v < height b0 ->
  leads e_handle b0 s b s' l -> forallb poke l = true ->
  pending_rewards s b id a = Ok n -> pending_rewards s' b id a = Ok n' ->
  vp_total_at v b * n <=
    vp_total_at v b * (n' + earned id a l + 2 * (calls l + 1)) +
    amount * vp_power_at v b a * cuts id l.
Proof.
  intros HR Ht Hd Hr Hv Hlast HL Hp Hn Hn'. pose proof (reached_core _ _ _ _ HR Ht) as HC.
  destruct (co_vps _ _ _ _ _ HC _ _ Hv) as [HLd _].
  destruct (co_some _ _ _ _ _ HC d Hd) as (v' & Hv' & _ & [A1 A2 A3 (c & (S0 & S1 & S2 & S3) & _) _]).
  change (e_vps (set_block s b0)) with (e_vps s) in Hv'. rewrite Hv in Hv'. injection Hv' as <-.
  change (e_block (set_block s b0)) with b0 in *. rewrite Hr in S3. destruct S3 as (Hamt & Hu & Hform).
  set (T := snap_get (vp_tot v)). set (W := smap_get (vp_pow v) a).
  assert (forall b', block_le b0 b' -> vp_total_at v b' = T /\ vp_power_at v b' a = W) as Hst.
  { intros b' [Hh _]. unfold vp_total_at, vp_power_at. split.
    - eapply snap_get_at_now; [apply HLd|lia].
    - eapply smap_at_now; [apply HLd|lia]. }
  assert (0 <= W <= T) as HW by (apply (ledger_le _ _ _ _ HLd)).
  assert (T <= U128_MAX) as HT by apply HLd. pose proof U128_SCALE as HUS. pose proof SCALE_pos as HS.
  pose proof (leads_le _ _ _ _ _ _ HL) as Hb0. destruct (Hst b Hb0) as [-> ->].
  apply pending_ok in Hn as (d0 & x & v0 & E1 & Hx & E3 & _ & En). rewrite Hd in E1. injection E1 as <-.
  rewrite Hv in E3. injection E3 as <-.
  apply pending_ok in Hn' as (d1 & x' & v1 & Hd1 & Hx' & E3 & _ & En').
  assert (0 <= calls l) as Hcl by (apply lsum_nonneg; intros [] _; lia).
  assert (0 <= cuts id l) as Hct by (apply lsum_nonneg; intros e _; destruct (cut id e); lia).
  enough (e_vps s' = e_vps s /\ di_vp d1 = di_vp d /\ di_hist d1 = di_hist d /\ settled id a s W s' l /\
    T * x <= T * x' + amount * SCALE * cuts id l + T * (calls l + 1)) as (F1 & F2 & F3 & F4 & F5).
  { rewrite F1, F2, Hv in E3. injection E3 as <-. destruct (Hst b Hb0) as [_ Ew]. rewrite Ew in *. rewrite F3 in *.
    unfold settled in F4.
    set (y := W * (x + di_hist d - acc s id a) / SCALE) in *. set (y' := W * (x' + di_hist d - acc s' id a) / SCALE) in *.
    pose proof (Z.mul_div_le (W * (x + di_hist d - acc s id a)) SCALE HS) as G1. fold y in G1.
    pose proof (div_mul_gt (W * (x' + di_hist d - acc s' id a)) SCALE HS) as G2. fold y' in G2.
    set (k := calls l) in *. set (q := cuts id l) in *. set (g := earned id a l) in *.
    assert (SCALE * n <= SCALE * (n' + g + k + 1) + W * (x - x')) as G3 by lia.
    assert (T * (W * (x - x')) <= W * (amount * SCALE * q) + SCALE * T * (k + 1)) as G4.
    { assert (W * (T * (x - x')) <= W * (amount * SCALE * q + T * (k + 1))) as G5 by (apply Z.mul_le_mono_nonneg_l; lia).
      assert (W * (T * (k + 1)) <= SCALE * (T * (k + 1))) by (apply Z.mul_le_mono_nonneg_r; [apply Z.mul_nonneg_nonneg; lia|lia]).
      lia. }
    assert (T * (SCALE * n) <= T * (SCALE * (n' + g + k + 1) + W * (x - x'))) as G6 by (apply Z.mul_le_mono_nonneg_l; lia).
    apply (Z.mul_le_mono_pos_l _ _ SCALE HS). lia. }
  destruct (Z.eq_dec T 0) as [ET|ET].
  { destruct (pokes_settled id a b0 s d v T W Hd Hv Hst b s' l HL Hp) as (_ & P2 & P3 & d2 & P4 & P5 & P6).
    rewrite Hd1 in P4. injection P4 as <-. split; [done|]. split; [done|]. split; [done|]. split; [done|].
    rewrite ET. assert (0 <= amount * SCALE * cuts id l) by (repeat apply Z.mul_nonneg_nonneg; lia). lia. }
  assert (0 < T) as HT0 by lia.
  destruct Hform as [(Hnr & _)|(st & en & la & [R1 R2 R3 R4 R5 R6 R7 R8 R9])].
  - destruct (pokes_idle id a b0 s d v amount u ct T W Hd Hv Hr Hst b s' l Hnr HL Hp) as (_ & P2 & P3 & P4).
    rewrite Hd1 in P4. injection P4 as ->. split; [done|]. split; [done|]. split; [done|]. split; [done|].
    rewrite (active_ext s) in Hx' by done. rewrite Hx in Hx'. injection Hx' as <-.
    assert (0 <= amount * SCALE * cuts id l) by (repeat apply Z.mul_nonneg_nonneg; lia). nia.
  - destruct (pokes_run id a b0 s d v amount u ct T W Hd Hv Hr Hamt Hu HT0 Hst en la b s' l R2 R3 HL Hp) as (_ & P2 & P3 & pu & la' & P4 & P5).
    rewrite Hd1 in P4. injection P4 as ->. split; [done|]. split; [done|]. split; [done|]. split; [done|].
    specialize (P5 b (block_le_refl b)). unfold gain in P5.
    pose proof (active_lin s b _ v (di_ep d) amount u ct en la x Hr R2 R3 Hu Hv Hx) as Ex.
    assert (e_vps s' !! di_vp d = Some v) as Hv1 by by rewrite P2.
    pose proof (active_lin s' b _ v (di_ep (at_point d u pu la')) amount u ct en la' x' Hr R2 eq_refl Hu Hv1 Hx') as Ex'.
    cbn [at_point set_ep di_ep ep_puvp] in Ex'. destruct (Hst b Hb0) as [Et _]. rewrite Et in Ex, Ex'.
    replace (T =? 0) with false in Ex, Ex' by lia.
    set (N := _ / len u) in Ex at 1, P5 at 1. set (N' := _ / len u) in Ex', P5.
    pose proof (Z.mul_div_le (amount * N * SCALE) T HT0). pose proof (div_mul_gt (amount * N' * SCALE) T HT0).
    rewrite Ex, Ex'. lia.
Qed.

(** *** C81: who sets the terms *)
Definition tms (s : estate) (id : Z) := terms <$> e_dists s !! id.
Lemma tms_insert s i d d' id o c pe ac hk vs hd du bl :
  e_dists s !! i = Some d -> terms d' = terms d ->
  tms (EState o c (<[i := d']> (e_dists s)) pe ac hk vs hd du bl) id = tms s id.
Proof.
  intros Hd E. unfold tms. cbn. destruct (decide (i = id)) as [->|Hne].
  - rewrite lookup_insert, Hd. cbn. by rewrite E.
  - by rewrite lookup_insert_ne.
Qed.
Lemma update_tms s b a i s' id : update_rewards s b a i = Ok s' -> tms s' id = tms s id.
Proof.
  intros H. apply update_ok in H as (d & x & v & Hd & _ & _ & _ & ->). cbn zeta. by eapply tms_insert.
Qed.
Lemma ids_tms b a ids s s' id : update_ids s b a ids = Ok s' -> tms s' id = tms s id.
Proof.
  revert s. induction ids as [|i ids IH]; intros s H; cbn in H; [by injection H as <-|].
  destruct (update_rewards s b a i) as [s1|] eqn:E; [|done]. erewrite IH by done. by eapply update_tms.
Qed.
Lemma all_tms b who ids s s' id : update_all s b who ids = Ok s' -> tms s' id = tms s id.
Proof.
  revert s. induction who as [|i who IH]; intros s H; cbn in H; [by injection H as <-|].
  destruct (update_ids s b i ids) as [s1|] eqn:E; [|done]. erewrite IH by done. by eapply ids_tms.
Qed.
Lemma fund_linear_terms s b d ct n d' : fund_linear s b d ct n = Ok d' -> terms d' = terms d.
Proof.
  unfold fund_linear. cbn zeta. intros H.
  destruct (if _ || _ then _ else _) as [d1|] eqn:E in H; [|done].
  assert (terms d1 = terms d) as E1.
  { destruct (_ || _) in E.
    - destruct (if (_ && _) && _ then _ else _) in E; [|done]. by injection E as <-.
    - destruct (add128 _ _) in E; [|done]. by injection E as <-. }
  rewrite <-E1. destruct (funded_dur _ _) as [len|]; [|done].
  destruct (match len with Some x => _ | None => _ end) as [e'|] in H; [|done].
  destruct (_ && _) in H.
  - destruct (active_puvp _ _ _ _) in H; [|done]. by injection H as <-.
  - by injection H as <-.
Qed.
Lemma fund_tms s b sender i d n s' id :
  e_dists s !! i = Some d -> fund s b sender i d n = Ok s' -> tms s' id = tms s id.
Proof.
  intros Hd H. apply fund_ok in H as (d' & -> & Hd').
  change (tms s id) with (tms (set_held s (di_denom d) (held s (di_denom d) + n)) id). eapply tms_insert; [exact Hd|].
  destruct (ep_rate (di_ep d)) eqn:Er; [by subst|destruct Hd' as (x & _ & ->); done|by eapply fund_linear_terms].
Qed.
Lemma native_tms s b sender i funds s' id :
  fund_native s b sender i funds = Ok s' -> tms s' id = tms s id.
Proof.
  intros H. unfold fund_native, get_dist in H.
  destruct (e_dists s !! i) as [d|] eqn:Ed; [|done]. destruct (di_denom d) as [[] t]; [done|].
  destruct (must_pay funds t) as [n|] eqn:Em; [|done]. by eapply fund_tms.
Qed.
Lemma is_owner_ok o a : is_owner o a = true -> o_owner o = Some a.
Proof. unfold is_owner. destruct (o_owner o); [|done]. intros E%N.eqb_eq. by subst. Qed.
Lemma terms_owner s b a m s' subs id :
  e_handle s b a m = Ok (s', subs) ->
  terms <$> e_dists s' !! id <> terms <$> e_dists s !! id ->
  o_owner (e_own s) = Some a /\
  match m with
  | ECreate _ _ _ _ _ _ _ => e_dists s !! id = None /\ id = e_count s + 1
  | EUpdate i _ _ _ _ _ => i = id
  | _ => False
  end.
Proof.
  unfold e_handle. destruct (e_goes s b); [|done]. fold (tms s' id) (tms s id).
  change (tms s id) with (tms (set_block s b) id). change (e_own s) with (e_own (set_block s b)).
  change (e_dists s) with (e_dists (set_block s b)). change (e_count s) with (e_count (set_block s b)).
  generalize (set_block s b). clear s. intros s H Hne.
  destruct m as [denom rate vp hook op wd funds|i rate vp hook op wd|i funds|funds|from n i|i|i|who|act|vp caller who n|t n]; cbn [e_step] in H.
  - destruct (em_fits rate && _) eqn:Ef; [|done].
    destruct (create _ _ _ _ _ _ _ _ _ _) as [s1|] eqn:E; [|done]. injection H as <- <-.
    unfold create in E. destruct (is_owner _ _) eqn:Eo; [|done]. apply is_owner_ok in Eo.
    destruct (_ <=? U64_MAX) eqn:E1 in E; [|done]. cbn zeta in E.
    destruct (q_vp s vp); [|done]. destruct (em_validate rate) as [[]|] eqn:Er; [|done].
    destruct (e_dists s !! (e_count s + 1)) eqn:Ed; [done|]. split; [done|].
    set (i := e_count s + 1) in *. set (d := Dist _ _ _ _ _ _ _ _) in *. set (s2 := set_hooks _ _) in *.
    assert (e_dists s2 !! i = Some d) as Hi by (cbn; by rewrite lookup_insert).
    assert (tms s1 id = tms s2 id) as E'.
    { destruct funds as [|c funds]; [by injection E as <-|]. destruct denom as [[] t]; [done|].
      destruct (must_pay _ t) as [n|]; [|done]. by eapply fund_tms. }
    destruct (decide (i = id)) as [<-|Hn]; [done|]. exfalso. apply Hne. rewrite E'. unfold tms. cbn. by rewrite lookup_insert_ne.
  - destruct (match rate with Some r => em_fits r | None => true end); [|done].
    destruct (update _ _ _ _ _ _ _ _ _) as [s1|] eqn:E; [|done]. injection H as <- <-.
    unfold update in E. destruct (is_owner _ _) eqn:Eo; [|done]. apply is_owner_ok in Eo. split; [done|].
    destruct (get_dist s i); [|done].
    destruct (match rate with Some r => _ | None => _ end) in E; [|done].
    destruct (match vp with Some v => _ | None => _ end) in E; [|done]. injection E as <-.
    destruct (decide (i = id)) as [<-|Hn]; [done|]. exfalso. apply Hne. unfold tms. cbn. by rewrite lookup_insert_ne.
  - destruct (forallb _ _) eqn:Ef; [|done].
    destruct (fund_native _ _ _ _ _) as [s1|] eqn:E; [|done]. injection H as <- <-.
    exfalso. apply Hne. by eapply native_tms.
  - destruct (forallb _ _) eqn:Ef; [|done].
    destruct (fund_native _ _ _ _ _) as [s1|] eqn:E; [|done]. injection H as <- <-.
    exfalso. apply Hne. by eapply native_tms.
  - destruct (fits128 n) eqn:Ef; [|done].
    destruct (fund_cw20 _ _ _ _ _ _) as [s1|] eqn:E; [|done]. injection H as <- <-.
    unfold fund_cw20, get_dist in E. destruct (e_dists s !! _) as [d|] eqn:Ed; [|done].
    destruct (di_denom d) as [[] t]; [|done]. destruct (t =? a)%N; [|done].
    exfalso. apply Hne. by eapply fund_tms.
  - unfold claim_rewards in H. destruct (update_rewards s b a i) as [s1|] eqn:E1; [|done].
    eapply update_tms in E1. destruct (get_dist s1 i) as [d|]; [|done]. cbn zeta in H.
    destruct (negb _); [|done]. destruct (send _ _ _) as [s3|] eqn:Es; [|done]. apply send_ok in Es as [-> _]. injection H as <- <-.
    exfalso. apply Hne. rewrite <-E1. done.
  - unfold withdraw in H. destruct (is_owner _ _); [|done].
    unfold get_dist in H. destruct (e_dists s !! i) as [d|] eqn:Ed; [|done]. cbn zeta in H.
    destruct (negb _); [|done]. destruct (rewards_until _ _ _) as [R|]; [|done].
    destruct (sub128 _ _) as [back|]; [|done]. destruct (send _ _ _) as [s1|] eqn:Es; [|done].
    apply send_ok in Es as [-> _]. injection H as <- <-. exfalso. apply Hne.
    change (tms s id) with (tms (set_held s (di_denom d) (held s (di_denom d) - back)) id). eapply tms_insert; [exact Ed|done].
  - destruct (e_hooks s !! a) as [ids|] eqn:Eh; [|done].
    destruct (update_all s b who ids) as [s1|] eqn:E; [|done]. injection H as <- <-.
    exfalso. apply Hne. by eapply (all_tms _ _ _ _ _ id) in E.
  - destruct (update_ownership _ _ _ _) as [o|]; [|done]. injection H as <- <-. by exfalso.
  - destruct (fits128 n) eqn:Ef; [|done].
    destruct (set_power _ _ _ _ _ _) as [s1|] eqn:E; [|done]. injection H as <- <-.
    unfold set_power in E. cbn zeta in E. destruct (_ <=? _) in E; [|done]. injection E as <-. by exfalso.
  - destruct (fits128 n) eqn:Ef; [|done].
    destruct (take _ _ _) as [s1|] eqn:E; [|done]. injection H as <- <-. apply take_ok in E as ->. by exfalso.
Qed.
(** *** C81: what a withdrawal pays, and to whom *)
Lemma withdraw_exact b s l a id s' subs :
  ereached b s l -> tame id l = true -> e_handle s b a (EWithdraw id) = Ok (s', subs) ->
  o_owner (e_own s) = Some a /\
  exists d n, e_dists s !! id = Some d /\ undistributed s b id = Ok n /\
    subs = [EPay (di_denom d) (di_wdest d) n] /\ undistributed s' b id = Ok 0.
Proof.
  intros HR Ht. pose proof (reached_core _ _ _ _ HR Ht) as HC. unfold e_handle. destruct (e_goes s b); [|done].
  cbn [e_step]. intros H. unfold withdraw in H. change (e_own (set_block s b)) with (e_own s) in H.
  destruct (is_owner _ _) eqn:Eo; [|done]. apply is_owner_ok in Eo. split; [done|].
  unfold get_dist in H. change (e_dists (set_block s b)) with (e_dists s) in H.
  destruct (e_dists s !! id) as [d|] eqn:Ed; [|done]. cbn zeta in H.
  destruct (co_some _ _ _ _ _ HC d Ed) as (v & Hv & _ & [_ _ _ (c & (S0 & S1 & S2 & S3) & _) _]).
  change (e_block (set_block s b)) with b in S3.
  destruct (is_expired (ep_end (di_ep d)) b) eqn:Ex; [done|]. cbn [negb] in H.
  set (e' := match ep_start (di_ep d) with AtHeight _ => _ | AtTime _ => _ | Never => _ end) in H.
  set (p' := Epoch _ _ _ _ _) in H.
  destruct (rewards_until p' (di_funded d) e') as [R|] eqn:ER; [|done].
  destruct (sub128 _ _) as [back|] eqn:Eu; [|done].
  destruct (send _ _ _) as [s1|] eqn:Es; [|done]. apply send_ok in Es as [-> _]. injection H as <- <-.
  exists d, back. split; [done|].
  assert (rewards_until (di_ep d) (di_funded d) (latest (di_ep d) b) = Ok R /\ rewards_until p' R (latest p' b) = Ok R) as [E1 E2].
  { unfold rewards_until, latest in *. unfold p' in ER |- *. cbn [ep_rate ep_start ep_end ep_last] in *.
    destruct (ep_rate (di_ep d)) as [| |amount u ct]; [by injection ER as <-|by injection ER as <-|].
    destruct S3 as (Ha & Hu & [((A & B & C) & _)|(st & en & la & [R1 R2 R3 R4 R5 R6 R7 R8 R9])]).
    - unfold e' in *. rewrite A in *. by injection ER as <-.
    - assert (e' = mk u (now u b)) as Ee by (unfold e'; rewrite R1; by destruct u). rewrite Ee in *.
      rewrite R2, expired_mk in Ex. rewrite R2, !until_mk.
      replace (Z.min (now u b) en) with (now u b) by lia. replace (Z.min (now u b) (now u b)) with (now u b) by lia. done. }
  split; [|split; [done|]].
  - unfold undistributed, get_dist. by rewrite Ed, E1.
  - unfold undistributed, get_dist. cbn [e_dists set_dist set_held]. rewrite lookup_insert.
    cbn [di_ep di_funded set_ep]. rewrite E2. unfold sub128. rewrite Z.ltb_irrefl. f_equal. lia.
Qed.
(** *** C81: every other payment *)
Lemma pays_only s b a m s' subs t to n :
  e_handle s b a m = Ok (s', subs) -> EPay t to n ∈ subs ->
  (exists id, m = EClaim id /\ to = a) \/
  (exists id d, m = EWithdraw id /\ o_owner (e_own s) = Some a /\ e_dists s !! id = Some d /\ to = di_wdest d).
Proof.
  unfold e_handle. destruct (e_goes s b); [|done]. change (e_own s) with (e_own (set_block s b)).
  change (e_dists s) with (e_dists (set_block s b)). generalize (set_block s b). clear s. intros s H Hin.
  assert (forall (r : result estate), (do! x <- r; Ok (x, [])) = Ok (s', subs) -> False) as Hno.
  { intros [x|] E; [|done]. injection E as _ <-. by apply elem_of_nil in Hin. }
  destruct m as [denom rate vp hook op wd funds|i rate vp hook op wd|i funds|funds|from k i|i|i|who|act|vp caller who k|t' k]; cbn [e_step] in H.
  - destruct (_ && _); [|done]. by apply Hno in H.
  - destruct (match rate with Some r => em_fits r | None => true end); [|done]. by apply Hno in H.
  - destruct (forallb _ _); [|done]. by apply Hno in H.
  - destruct (forallb _ _); [|done]. by apply Hno in H.
  - destruct (fits128 k); [|done]. by apply Hno in H.
  - left. exists i. split; [done|]. unfold claim_rewards in H. destruct (update_rewards s b a i) as [s1|]; [|done].
    destruct (get_dist s1 i) as [d|]; [|done]. cbn zeta in H.
    destruct (negb _); [|done]. destruct (send _ _ _) as [s3|]; [|done]. injection H as <- <-.
    apply elem_of_list_singleton in Hin. by injection Hin.
  - right. unfold withdraw in H. destruct (is_owner _ _) eqn:Eo; [|done]. apply is_owner_ok in Eo.
    unfold get_dist in H. destruct (e_dists s !! i) as [d|] eqn:Ed; [|done]. cbn zeta in H.
    destruct (negb _); [|done]. destruct (rewards_until _ _ _) as [R|]; [|done].
    destruct (sub128 _ _) as [back|]; [|done]. destruct (send _ _ _) as [s1|]; [|done]. injection H as <- <-.
    apply elem_of_list_singleton in Hin. injection Hin as _ -> _. exists i, d. done.
  - destruct (e_hooks s !! a); [|done]. destruct (update_all _ _ _ _); [|done]. injection H as _ <-. by apply elem_of_nil in Hin.
  - destruct (update_ownership _ _ _ _); [|done]. injection H as _ <-. by apply elem_of_nil in Hin.
  - destruct (fits128 k); [|done]. by apply Hno in H.
  - destruct (fits128 k); [|done]. by apply Hno in H.
Qed.
