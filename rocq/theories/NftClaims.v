(** Statements of C43 and their proofs. *)
From Verif Require Import Base BaseProofs Exec ExecProofs Plain PlainProofs VotingModel HooksModel
  StoreModel StoreProofs LedgerProofs ActiveModel NftModel NftSpec NftProofs.
From Verif Require TokClaims.

(** ** Custody *)
Lemma c43_held_once b s l id :
  nreached b s l ->
  nstaked_times s id + nclaimed_times s id + ndeposited id l =
    if bool_decide (id ∈ n_held s) then 1 else 0.
Proof.
  intros (b0 & dao & nft & src & d & thr & s0 & _ & _ & Hi & HL).
  pose proof (ninv_init _ _ _ _ _ _ _ Hi) as HI0.
  enough (ninv b s /\ nstaked_times s id + ctimes (n_claims s) id + ndeposited id l = hold (n_held s) id) as [_ H]
    by exact H.
  revert HL.
  apply (leads_ind n_handle (fun b s l => ninv b s /\
    nstaked_times s id + ctimes (n_claims s) id + ndeposited id l = hold (n_held s) id)).
  - intros b1 s1 l1 a m s' subs [HI IH] H. pose proof (ninv_call _ _ _ _ _ _ HI H) as HI'.
    split; [done|]. clear HI'. unfold ndeposited in *. rewrite lsum_app.
    destruct m as [from i|ids| |d1|h|h|t sup|i].
    + apply nstake_step in H as (_ & Hn & H1 & H2 & Hh & E & _). rewrite Hh. rewrite E. clear E. cbn.
      pose proof (not_held_not_staked _ _ from i HI Hn) as Hns.
      unfold nstaked_times. cbn. rewrite msum_insert_new by done. cbn. fold (nstaked_times s1 id). lia.
    + apply nunstake_step in H as (_ & Hr & Hn & Ht & Eb & Et & _ & _ & _ & _ & _ & Hc).
      apply remove_ok in Hr as (HN & Hin & _ & Hs).
      unfold nstaked_times. rewrite (Hs (fun k => one (k.2 =? id)%N)). fold (nstaked_times s1 id).
      cbn. fold (times ids id).
      destruct Hc as [(_ & Hl & -> & _)|(d2 & _ & _ & -> & -> & _)].
      * rewrite (leave_ok _ _ _ Hl). lia.
      * rewrite ctimes_create. lia.
    + apply nclaim_step in H as (_ & Hl & E & _). rewrite (leave_ok _ _ _ Hl). rewrite E.
      cbn [n_claims n_staked]. rewrite ctimes_insert. unfold times. rewrite lsum_map.
      pose proof (lsum_filter_split (fun c => one (nc_id c =? id)%N) (nmature b1) (nclaims_of (n_claims s1) a)).
      cbn. unfold nstaked_times in *. cbn. lia.
    + apply nquiet_step in H as (_ & E1 & E2 & E3 & E4 & E5 & _); [|done].
      unfold nstaked_times in *. rewrite E1, E4, E5. cbn. lia.
    + apply nquiet_step in H as (_ & E1 & E2 & E3 & E4 & E5 & _); [|done].
      unfold nstaked_times in *. rewrite E1, E4, E5. cbn. lia.
    + apply nquiet_step in H as (_ & E1 & E2 & E3 & E4 & E5 & _); [|done].
      unfold nstaked_times in *. rewrite E1, E4, E5. cbn. lia.
    + apply nquiet_step in H as (_ & E1 & E2 & E3 & E4 & E5 & _); [|done].
      unfold nstaked_times in *. rewrite E1, E4, E5. cbn. lia.
    + apply ndeposit_step in H as (Hn & _ & Hh & E). rewrite Hh, E. cbn.
      unfold nstaked_times in *. cbn. lia.
  - intros b1 s1 l1 x [HI IH]. split; [done|]. unfold ndeposited in *. rewrite lsum_app. cbn. lia.
  - intros b1 s1 l1 b2 [HI IH] Hb. split; [by eapply ninv_time|done].
  - split; [done|]. pose proof (ni_held _ _ HI0 id) as H0. pose proof (staked_times_pos s0 id).
    pose proof (ctimes_pos (n_claims s0) id).
    unfold n_instantiate in Hi. assert (n_held s0 = ∅) as E by (repeat (case_match; simplify_eq; try done)).
    rewrite E in *. rewrite (hold_out ∅ id) in * by set_solver. unfold ndeposited. cbn. lia.
Qed.
(** Two addresses never have the same token, neither staked nor in claims. *)
Lemma one_place b s l id a a' :
  nreached b s l -> n_staked s !! (a, id) = Some tt -> n_staked s !! (a', id) = Some tt -> a = a'.
Proof.
  intros HR H1 H2. pose proof (nreached_inv _ _ _ HR) as HI.
  destruct (decide (a = a')) as [|Hne]; [done|exfalso].
  pose proof (msum_ge_two (fun (k : addr * N) _ => one (k.2 =? id)%N) (n_staked s) (a, id) tt (a', id) tt) as HG.
  cbn in HG. rewrite N.eqb_refl in HG. cbn in HG. fold (nstaked_times s id) in HG.
  specialize (HG ltac:(intros; apply one_pos) ltac:(congruence) H1 H2).
  pose proof (ni_held _ _ HI id). pose proof (ctimes_pos (n_claims s) id).
  pose proof (one_pos (bool_decide (id ∈ n_held s))) as Ho. fold (hold (n_held s) id) in Ho. lia.
Qed.
Lemma c43_one_staker b s l id a a' :
  nreached b s l -> n_staked s !! (a, id) = Some tt ->
  (n_staked s !! (a', id) = Some tt -> a' = a) /\ nclaimed_by s a' id = 0 /\ id ∈ n_held s.
Proof.
  intros HR H1. split; [intros H2; by eapply one_place|].
  pose proof (nreached_inv _ _ _ HR) as HI. pose proof (ni_held _ _ HI id) as Hh.
  pose proof (staked_times_in _ _ _ H1). pose proof (ctimes_ge (n_claims s) a' id) as Hc.
  pose proof (one_pos (bool_decide (id ∈ n_held s))) as Ho. fold (hold (n_held s) id) in Ho.
  assert (0 <= nclaimed_by s a' id) by (apply lsum_nonneg; intros; apply one_pos).
  unfold nclaimed_by in *. unfold nclaims_of in Hc. split; [lia|]. apply hold_in. lia.
Qed.

(** ** Power *)
Lemma c43_power b s l bq h :
  nreached b s l -> height b < h ->
  (forall a, n_power_at s bq a (Some h) = ncount s a) /\ n_total_at s bq (Some h) = ncount_all s.
Proof.
  intros HR Hlt. pose proof (nreached_inv _ _ _ HR) as HI. pose proof (ni_led _ _ HI) as HL.
  unfold n_power_at, n_total_at. cbn. split.
  - intros a. rewrite (ni_count _ _ HI). eapply smap_at_now; [apply HL|done].
  - rewrite (ni_all _ _ HI). eapply snap_get_at_now; [apply HL|done].
Qed.
Lemma c43_adds_up b s l bq h : nreached b s l -> nsum_at s bq h = n_total_at s bq (Some h).
Proof. intros HR. apply (lg_snap _ _ _ (ni_led _ _ (nreached_inv _ _ _ HR)) h). Qed.
Lemma c43_any_voters b s l bq h vs :
  nreached b s l -> NoDup vs ->
  lsum (fun a => n_power_at s bq a (Some h)) vs <= n_total_at s bq (Some h) <= U128_MAX /\
  (forall a, 0 <= n_power_at s bq a (Some h)).
Proof.
  intros HR Hn. pose proof (ni_led _ _ (nreached_inv _ _ _ HR)) as HL.
  split; [split|].
  - by apply (ledger_at_list (height b)).
  - apply (lg_hmax _ _ _ HL).
  - intros a. apply (lg_hpos _ _ _ HL).
Qed.
Lemma c43_immutable b s l b' s' l' bq bq' h :
  nreached b s l -> leads n_handle b s b' s' l' -> h <= height b ->
  (forall a, n_power_at s' bq' a (Some h) = n_power_at s bq a (Some h)) /\
  n_total_at s' bq' (Some h) = n_total_at s bq (Some h).
Proof.
  intros HR HL Hle. unfold n_power_at, n_total_at. cbn.
  revert HL. apply (leads_rel_from n_handle (fun _ _ => True)
      ltac:(done) ltac:(done) (fun s s' => (forall a', smap_at (n_bals s') a' h = smap_at (n_bals s) a' h) /\
      snap_get_at (n_total s') h = snap_get_at (n_total s) h)); [done| | |done].
  - intros x y z [P1 P2] [Q1 Q2]. split; [intros; by rewrite Q1, P1|by rewrite Q2, P2].
  - intros b2 s2 a m s3 subs [Hbb _] _ Hh. apply (nat_call _ _ _ _ _ _ _ Hh). lia.
Qed.
(** What is reported for a height: the tokens staked before it. *)
Lemma c43_reported b1 s1 l1 b' b2 s2 l2 bq h :
  nreached b1 s1 l1 -> height b1 < h -> block_le b1 b' -> h <= height b' ->
  leads n_handle b' s1 b2 s2 l2 ->
  (forall a, n_power_at s2 bq a (Some h) = ncount s1 a) /\ n_total_at s2 bq (Some h) = ncount_all s1.
Proof.
  intros HR Hlt Hb Hle HL.
  destruct (c43_immutable b' s1 l1 b2 s2 l2 bq bq h) as [A B]; [|done|done|].
  { by eapply nreached_later. }
  destruct (c43_power _ _ _ bq h HR Hlt) as [A' B'].
  split; [intros a; by rewrite A|by rewrite B].
Qed.

(** ** Release *)
(** Per address and token: times staked are times returned plus what is still
    there. *)
Lemma c43_conservation b s l a id :
  nreached b s l -> nput_in a id l = ntaken_out a id l + nclaimed_by s a id + nholds s a id.
Proof.
  intros (b0 & dao & nft & src & d & thr & s0 & _ & _ & Hi & HL).
  pose proof (ninv_init _ _ _ _ _ _ _ Hi) as HI0.
  enough (ninv b s /\ nput_in a id l = ntaken_out a id l + nclaimed_by s a id + nholds s a id) as [_ H] by exact H.
  revert HL.
  apply (leads_ind n_handle (fun b s l => ninv b s /\
    nput_in a id l = ntaken_out a id l + nclaimed_by s a id + nholds s a id)).
  - intros b1 s1 l1 a1 m s' subs [HI IH] H. pose proof (ninv_call _ _ _ _ _ _ HI H) as HI'.
    split; [done|]. clear HI'. unfold nput_in, ntaken_out in *. rewrite !lsum_app, IH. cbn [lsum].
    unfold nclaimed_by, nholds in *.
    assert (forall L : list addr, lsum (fun x => match x with NPay to i => one ((to =? a) && (i =? id))%N | _ => 0 end)
      (map (fun h => NUnstakeHook h a1 (match m with NUnstake ids => ids | _ => [] end)) L) = 0) as Hz.
    { intros L. induction L; cbn; [done|]. lia. }
    assert (forall (L : list addr) f i, lsum (fun x => match x with NPay to i => one ((to =? a) && (i =? id))%N | _ => 0 end)
      (map (fun h => NStakeHook h f i) L) = 0) as Hz2.
    { intros L f i. induction L; cbn; [done|]. lia. }
    assert (forall ids, lsum (fun x => match x with NPay to i => one ((to =? a) && (i =? id))%N | _ => 0 end)
      (map (NPay a1) ids) = if decide (a1 = a) then times ids id else 0) as Hp.
    { intros ids. unfold times. destruct (decide (a1 = a)) as [->|Hne].
      - rewrite lsum_map. rewrite N.eqb_refl. done.
      - rewrite lsum_map. apply lsum_zero. intros i.
        destruct (a1 =? a)%N eqn:E; [apply N.eqb_eq in E; congruence|done]. }
    destruct m as [from i|ids| |d1|h|h|t sup|i].
    + apply nstake_step in H as (_ & Hn & H1 & H2 & Hh & E & ->). rewrite E. clear E.
      cbn [nev_in nev_out n_claims n_staked]. rewrite Hz2.
      pose proof (not_held_not_staked _ _ from i HI Hn) as Hns.
      destruct ((from =? a) && (i =? id))%N eqn:Ee.
      * apply andb_true_iff in Ee as [E1%N.eqb_eq E2%N.eqb_eq]. subst. rewrite lookup_insert, Hns. cbn. lia.
      * rewrite lookup_insert_ne; [cbn; lia|]. intros [= -> ->]. by rewrite !N.eqb_refl in Ee.
    + apply nunstake_step in H as (_ & Hr & Hn & Ht & Eb & Et & _ & _ & _ & _ & _ & Hc).
      apply remove_ok in Hr as (HN & Hin & Hlk & _). rewrite Hlk. cbn [nev_in].
      assert ((if decide (a1 = a) then times ids id else 0) + match (if decide (a = a1 /\ id ∈ ids) then None else n_staked s1 !! (a, id)) with Some _ => 1 | None => 0 end =
        match n_staked s1 !! (a, id) with Some _ => 1 | None => 0 end) as Hk.
      { destruct (decide (a1 = a)) as [->|Hne].
        - destruct (decide (id ∈ ids)) as [Hi2|Hi2].
          + rewrite decide_True by done. rewrite (Hin id Hi2).
            pose proof (times_in _ _ Hi2). pose proof (times_nodup _ id HN). lia.
          + rewrite decide_False by naive_solver. rewrite times_out by done. lia.
        - rewrite decide_False by naive_solver. lia. }
      destruct Hc as [(_ & _ & -> & ->)|(d2 & _ & _ & _ & -> & ->)]; cbn [nev_out].
      * rewrite lsum_app, Hp, Hz. lia.
      * rewrite Hz. unfold create_nft_claims.
        destruct (decide (a1 = a)) as [->|Hne].
        { rewrite lookup_insert. cbn [default]. unfold nclaims_of.
          cbn. rewrite lsum_app, lsum_map. unfold times in Hk. cbn. lia. }
        { rewrite lookup_insert_ne by done. lia. }
    + apply nclaim_step in H as (_ & Hl & E & ->). rewrite E. cbn [nev_in nev_out n_claims n_staked].
      rewrite <-(map_map nc_id (NPay a1)), Hp. destruct (decide (a1 = a)) as [->|Hne].
      * rewrite lookup_insert. cbn. unfold times. rewrite lsum_map.
        pose proof (lsum_filter_split (fun c => one (nc_id c =? id)%N) (nmature b1) (nclaims_of (n_claims s1) a)).
        unfold nclaims_of in *. lia.
      * rewrite lookup_insert_ne by done. lia.
    + apply nquiet_step in H as (_ & -> & _ & _ & -> & _ & _ & _ & ->); [|done]. cbn. lia.
    + apply nquiet_step in H as (_ & -> & _ & _ & -> & _ & _ & _ & ->); [|done]. cbn. lia.
    + apply nquiet_step in H as (_ & -> & _ & _ & -> & _ & _ & _ & ->); [|done]. cbn. lia.
    + apply nquiet_step in H as (_ & -> & _ & _ & -> & _ & _ & _ & ->); [|done]. cbn. lia.
    + apply ndeposit_step in H as (Hn & -> & Hh & E). rewrite E. cbn. lia.
  - intros b1 s1 l1 x [HI IH]. split; [done|]. unfold nput_in, ntaken_out in *. rewrite !lsum_app. cbn. lia.
  - intros b1 s1 l1 b2 [HI IH] Hb. split; [by eapply ninv_time|done].
  - split; [done|]. unfold n_instantiate in Hi.
    assert (n_staked s0 = ∅ /\ n_claims s0 = ∅) as [E1 E2] by (repeat (case_match; simplify_eq; try done)).
    unfold nclaimed_by, nholds. rewrite E1, E2, !lookup_empty. done.
Qed.
(** Every claim created is collected once or still open. *)
Lemma c43_once b s l a :
  nreached b s l -> ncreated a l ≡ₚ nreleased a l ++ default [] (n_claims s !! a).
Proof.
  intros (b0 & dao & nft & src & d & thr & s0 & _ & _ & Hi & HL). revert HL.
  apply (leads_ind n_handle (fun b s l => ncreated a l ≡ₚ nreleased a l ++ nclaims_of (n_claims s) a)).
  - intros b1 s1 l1 a1 m s' subs IH H. unfold ncreated, nreleased in *.
    rewrite !flat_map_app, IH. cbn [flat_map]. rewrite !app_nil_r.
    destruct m as [from i|ids| |d1|h|h|t sup|i].
    + apply nstake_step in H as (_ & _ & _ & _ & _ & -> & _). cbn. by rewrite !app_nil_r.
    + apply nunstake_step in H as (_ & _ & _ & _ & _ & _ & _ & _ & _ & _ & _ & Hc).
      cbn [nev_created nev_released]. rewrite app_nil_r.
      destruct Hc as [(-> & _ & -> & _)|(d2 & -> & _ & _ & -> & _)].
      * destruct (a1 =? a)%N; by rewrite app_nil_r.
      * unfold create_nft_claims. rewrite nclaims_of_insert. destruct (a1 =? a)%N eqn:E.
        { apply N.eqb_eq in E. subst. destruct (decide (a = a)); [|done]. by rewrite <-(assoc_L (++)). }
        { apply N.eqb_neq in E. destruct (decide (a = a1)); [done|]. by rewrite app_nil_r. }
    + apply nclaim_step in H as (_ & _ & -> & _). cbn [nev_created nev_released n_claims].
      rewrite app_nil_r, nclaims_of_insert. destruct (a1 =? a)%N eqn:E.
      * apply N.eqb_eq in E. subst. destruct (decide (a = a)); [|done].
        rewrite <-(assoc_L (++)). f_equiv. symmetry. apply filter_perm.
      * apply N.eqb_neq in E. destruct (decide (a = a1)); [done|]. by rewrite app_nil_r.
    + apply nquiet_step in H as (_ & _ & _ & _ & -> & _); [|done]. cbn. by rewrite !app_nil_r.
    + apply nquiet_step in H as (_ & _ & _ & _ & -> & _); [|done]. cbn. by rewrite !app_nil_r.
    + apply nquiet_step in H as (_ & _ & _ & _ & -> & _); [|done]. cbn. by rewrite !app_nil_r.
    + apply nquiet_step in H as (_ & _ & _ & _ & -> & _); [|done]. cbn. by rewrite !app_nil_r.
    + apply ndeposit_step in H as (_ & _ & _ & ->). cbn. by rewrite !app_nil_r.
  - intros b1 s1 l1 x IH. unfold ncreated, nreleased in *. rewrite !flat_map_app. cbn.
    by rewrite !app_nil_r.
  - eauto.
  - unfold n_instantiate in Hi. assert (n_claims s0 = ∅) as -> by (repeat (case_match; simplify_eq; try done)).
    done.
Qed.
(** Tokens leave only by an unstake without an unbonding period or by collecting
    matured claims, always to the caller. *)
Lemma c43_payments b s l pre b1 a m post subs to id :
  nreached b s l -> ECall pre b1 a m post subs ∈ l -> NPay to id ∈ subs ->
  to = a /\ id ∈ n_held pre /\ id ∉ n_held post /\
  ((exists ids, m = NUnstake ids /\ id ∈ ids /\ n_dur pre = None /\ n_staked pre !! (a, id) = Some tt) \/
   (m = NClaim /\ exists c, c ∈ default [] (n_claims pre !! a) /\ nc_id c = id /\
      is_expired (nc_release c) b1 = true)).
Proof.
  intros HR Hin Hp. destruct (nreached_call _ _ _ HR _ _ _ _ _ _ Hin) as (HI & H & _).
  assert (forall ids, n_leave (n_held pre) ids = Ok (n_held post) -> id ∈ ids -> id ∈ n_held pre /\ id ∉ n_held post) as Hl.
  { intros ids Hl Hid. pose proof (leave_ok _ _ _ Hl id) as He. pose proof (times_in _ _ Hid).
    pose proof (one_pos (bool_decide (id ∈ n_held pre))) as O1. fold (hold (n_held pre) id) in O1.
    pose proof (one_pos (bool_decide (id ∈ n_held post))) as O2. fold (hold (n_held post) id) in O2.
    split; [apply hold_in; lia|]. intros Hx.
    assert (hold (n_held post) id = 1) by (unfold hold; by rewrite bool_decide_eq_true_2). lia. }
  destruct m as [from i|ids| |d1|h|h|t sup|i].
  - apply nstake_step in H as (_ & _ & _ & _ & _ & _ & ->).
    by apply elem_of_list_fmap in Hp as (? & ? & _).
  - apply nunstake_step in H as (_ & Hr & _ & _ & _ & _ & _ & _ & _ & _ & _ & Hc).
    apply remove_ok in Hr as (_ & Hst & _).
    destruct Hc as [(Hd & Hlv & _ & ->)|(d2 & _ & _ & _ & _ & ->)].
    + apply elem_of_app in Hp as [Hp|Hp]; apply elem_of_list_fmap in Hp as (x & [= -> ->] & Hx).
      destruct (Hl _ Hlv Hx). repeat (split; [done|]). left. exists ids. auto.
    + by apply elem_of_list_fmap in Hp as (? & ? & _).
  - apply nclaim_step in H as (_ & Hlv & _ & ->).
    apply elem_of_list_fmap in Hp as (c & [= -> ->] & Hx).
    assert (nc_id c ∈ map nc_id (List.filter (nmature b1) (nclaims_of (n_claims pre) a))) as Hm
      by (apply elem_of_list_fmap; eauto).
    destruct (Hl _ Hlv Hm). repeat (split; [done|]). right. split; [done|]. exists c.
    apply elem_of_filter_b in Hx as [Hx1 Hx2]. done.
  - apply nquiet_step in H as (_ & _ & _ & _ & _ & _ & _ & _ & ->); [|done]. by apply elem_of_nil in Hp.
  - apply nquiet_step in H as (_ & _ & _ & _ & _ & _ & _ & _ & ->); [|done]. by apply elem_of_nil in Hp.
  - apply nquiet_step in H as (_ & _ & _ & _ & _ & _ & _ & _ & ->); [|done]. by apply elem_of_nil in Hp.
  - apply nquiet_step in H as (_ & _ & _ & _ & _ & _ & _ & _ & ->); [|done]. by apply elem_of_nil in Hp.
  - apply ndeposit_step in H as (_ & -> & _). by apply elem_of_nil in Hp.
Qed.
(** A token leaves the module only with such a payment. *)
Lemma c43_leaves b s l pre b1 a m post subs id :
  nreached b s l -> ECall pre b1 a m post subs ∈ l -> id ∈ n_held pre -> id ∉ n_held post ->
  NPay a id ∈ subs.
Proof.
  intros HR Hin H1 H2. destruct (nreached_call _ _ _ HR _ _ _ _ _ _ Hin) as (HI & H & _).
  assert (hold (n_held pre) id = 1) as E1 by (unfold hold; by rewrite bool_decide_eq_true_2).
  assert (hold (n_held post) id = 0) as E2 by by apply hold_out.
  assert (forall ids, n_leave (n_held pre) ids = Ok (n_held post) -> id ∈ ids) as Hl.
  { intros ids Hl. pose proof (leave_ok _ _ _ Hl id) as He.
    destruct (decide (id ∈ ids)) as [|Hn]; [done|]. pose proof (times_out _ _ Hn). lia. }
  destruct m as [from i|ids| |d1|h|h|t sup|i].
  - apply nstake_step in H as (_ & _ & _ & _ & Hh & _). specialize (Hh id).
    pose proof (one_pos (i =? id)%N). lia.
  - apply nunstake_step in H as (_ & Hr & _ & _ & _ & _ & _ & _ & _ & _ & _ & Hc).
    destruct Hc as [(Hd & Hlv & _ & ->)|(d2 & _ & _ & E & _)]; [|rewrite E in *; done].
    apply elem_of_app. left. apply elem_of_list_fmap. eauto.
  - apply nclaim_step in H as (_ & Hlv & _ & ->). apply Hl in Hlv.
    apply elem_of_list_fmap in Hlv as (c & -> & Hc). apply elem_of_list_fmap. eauto.
  - apply nquiet_step in H as (_ & _ & _ & _ & _ & E & _); [|done]. by rewrite E in *.
  - apply nquiet_step in H as (_ & _ & _ & _ & _ & E & _); [|done]. by rewrite E in *.
  - apply nquiet_step in H as (_ & _ & _ & _ & _ & E & _); [|done]. by rewrite E in *.
  - apply nquiet_step in H as (_ & _ & _ & _ & _ & E & _); [|done]. by rewrite E in *.
  - apply ndeposit_step in H as (_ & _ & Hh & _). specialize (Hh id).
    pose proof (one_pos (i =? id)%N). lia.
Qed.
(** Others' calls change neither a member's staked tokens nor claims; only the
    collection adds tokens. *)
Lemma c43_others b s l pre b1 a m post subs a' id :
  nreached b s l -> ECall pre b1 a m post subs ∈ l -> a' <> a ->
  (n_staked post !! (a', id) = n_staked pre !! (a', id) \/ m = NReceive a' id /\ a = n_nft pre) /\
  default [] (n_claims post !! a') = default [] (n_claims pre !! a').
Proof.
  intros HR Hin Ha. destruct (nreached_call _ _ _ HR _ _ _ _ _ _ Hin) as (HI & H & _).
  destruct m as [from i|ids| |d1|h|h|t sup|i].
  - apply nstake_step in H as (E0 & _ & _ & _ & _ & -> & _). cbn. split; [|done].
    destruct (decide ((from, i) = (a', id))) as [[= -> ->]|Hne]; [by right|left].
    by rewrite lookup_insert_ne.
  - apply nunstake_step in H as (_ & Hr & _ & _ & _ & _ & _ & _ & _ & _ & _ & Hc).
    apply remove_ok in Hr as (_ & _ & Hlk & _). split.
    { left. rewrite Hlk. by rewrite decide_False by naive_solver. }
    destruct Hc as [(_ & _ & -> & _)|(d2 & _ & _ & _ & -> & _)]; [done|].
    unfold create_nft_claims. by rewrite lookup_insert_ne.
  - apply nclaim_step in H as (_ & _ & -> & _). cbn. rewrite lookup_insert_ne by done. auto.
  - apply nquiet_step in H as (_ & -> & _ & _ & -> & _); auto.
  - apply nquiet_step in H as (_ & -> & _ & _ & -> & _); auto.
  - apply nquiet_step in H as (_ & -> & _ & _ & -> & _); auto.
  - apply nquiet_step in H as (_ & -> & _ & _ & -> & _); auto.
  - apply ndeposit_step in H as (_ & _ & _ & ->). auto.
Qed.
(** Staked tokens can be unstaked, and due ones collected. *)
Lemma c43_can_unstake b s l a ids :
  nreached b s l -> ids <> [] -> NoDup ids -> (forall id, id ∈ ids -> n_staked s !! (a, id) = Some tt) ->
  (n_dur s <> None -> Z.of_nat (length (default [] (n_claims s !! a)) + length ids) <= 70) ->
  exists s' subs, n_handle s b a (NUnstake ids) = Ok (s', subs) /\
    (n_dur s = None -> forall id, id ∈ ids -> NPay a id ∈ subs).
Proof.
  intros HR Hne HN Hin Hc. pose proof (nreached_inv _ _ _ HR) as HI.
  destruct (remove_can _ _ _ HN Hin) as [m' Hm]. pose proof (remove_ok _ _ _ _ Hm) as (_ & _ & _ & Hs).
  assert (Z.of_nat (length ids) <= ncount s a) as Hcount.
  { pose proof (Hs (fun k => one (k.1 =? a)%N)) as H. cbn in H. rewrite N.eqb_refl in H. cbn in H.
    rewrite lsum_const1 in H. unfold ncount.
    assert (0 <= msum (fun (k : addr * N) _ => one (k.1 =? a)%N) m')
      by (apply msum_nonneg; intros; apply one_pos). lia. }
  assert (0 < length ids)%nat as Hlen by (destruct ids; cbn; [done|lia]).
  rewrite (ni_count _ _ HI) in Hcount. pose proof (ledger_le _ _ _ a (ni_led _ _ HI)) as Hle.
  cbn [n_handle]. unfold n_unstake. destruct (length ids =? 0)%nat eqn:E0; [apply Nat.eqb_eq in E0; lia|].
  cbn [negb]. unfold register_unstaked. rewrite Hm. rewrite sub128_eq by lia.
  destruct (sn_cur (smap_snap (n_bals s) a)) as [cur|] eqn:Ec.
  2: { unfold smap_get in Hcount. rewrite Ec in Hcount. cbn in Hcount. lia. }
  assert (smap_get (n_bals s) a = cur) as Eb by (unfold smap_get; by rewrite Ec).
  rewrite sub128_eq by lia. destruct (n_dur s) as [d|].
  - specialize (Hc ltac:(done)). unfold nclaims_of, NFT_MAX_CLAIMS.
    rewrite (proj2 (Z.leb_le _ _)) by lia. do 2 eexists. split; [done|]. done.
  - assert (forall id, id ∈ ids -> id ∈ n_held s) as Hheld.
    { intros id Hid. eapply (c43_one_staker _ _ _ id a a HR). auto. }
    destruct (leave_can _ _ HN Hheld) as [held ->]. do 2 eexists. split; [done|].
    intros _ id Hid. apply elem_of_app. left. apply elem_of_list_fmap. eauto.
Qed.
Lemma nodup_times ids : (forall id, times ids id <= 1) -> NoDup ids.
Proof.
  induction ids as [|x l IH]; intros H; [constructor|]. constructor.
  - intros Hx. specialize (H x). change (times (x :: l) x) with (one (x =? x)%N + times l x) in H.
    rewrite N.eqb_refl in H. cbn [one] in H. pose proof (times_in _ _ Hx). lia.
  - apply IH. intros id. specialize (H id). change (times (x :: l) id) with (one (x =? id)%N + times l id) in H.
    pose proof (one_pos (x =? id)%N). lia.
Qed.
Lemma c43_can_collect b s l a c :
  nreached b s l -> c ∈ default [] (n_claims s !! a) -> is_expired (nc_release c) b = true ->
  exists s' subs, n_handle s b a NClaim = Ok (s', subs) /\ NPay a (nc_id c) ∈ subs.
Proof.
  intros HR Hc Hdue. pose proof (nreached_inv _ _ _ HR) as HI.
  set (out := List.filter (nmature b) (nclaims_of (n_claims s) a)).
  assert (c ∈ out) as Hout by (apply elem_of_filter_b; done).
  assert (forall id, times (map nc_id out) id <= hold (n_held s) id) as Ht.
  { intros id. unfold times. rewrite lsum_map. pose proof (ni_held _ _ HI id).
    pose proof (staked_times_pos s id). pose proof (ctimes_ge (n_claims s) a id).
    pose proof (lsum_filter_split (fun c => one (nc_id c =? id)%N) (nmature b) (nclaims_of (n_claims s) a)) as Hf.
    fold out in Hf.
    assert (0 <= lsum (fun c => one (nc_id c =? id)%N) (List.filter (fun c => negb (nmature b c)) (nclaims_of (n_claims s) a)))
      by (apply lsum_nonneg; intros; apply one_pos). lia. }
  destruct (leave_can (n_held s) (map nc_id out)) as [held Hl].
  { apply nodup_times. intros id. specialize (Ht id).
    pose proof (one_pos (bool_decide (id ∈ n_held s))) as Ho. fold (hold (n_held s) id) in Ho. lia. }
  { intros id Hid. specialize (Ht id). pose proof (times_in _ _ Hid). apply hold_in. lia. }
  cbn [n_handle]. unfold n_claim, claim_nfts. fold out.
  destruct (length (map nc_id out) =? 0)%nat eqn:E0.
  { apply Nat.eqb_eq in E0. rewrite map_length in E0. destruct out; [by apply elem_of_nil in Hout|done]. }
  cbn [negb]. rewrite Hl. do 2 eexists. split; [done|].
  apply elem_of_list_fmap. exists (nc_id c). split; [done|]. apply elem_of_list_fmap. eauto.
Qed.
(** Anybody holding a token of the collection can stake it. *)
Lemma c43_can_stake b s l a id :
  nreached b s l -> id ∉ n_held s -> ncount_all s < U128_MAX ->
  exists s' subs, n_handle s b (n_nft s) (NReceive a id) = Ok (s', subs) /\
    ncount s' a = ncount s a + 1 /\ n_staked s' !! (a, id) = Some tt.
Proof.
  intros HR Hn Hmax. pose proof (nreached_inv _ _ _ HR) as HI.
  pose proof (ledger_le _ _ _ a (ni_led _ _ HI)) as Hle. rewrite (ni_all _ _ HI) in Hmax.
  cbn [n_handle]. unfold n_stake. rewrite N.eqb_refl. unfold n_arrive.
  rewrite bool_decide_eq_false_2 by done. cbn [negb]. unfold register_staked.
  rewrite !add128_eq by lia. do 2 eexists. split; [done|]. cbn.
  split; [|by rewrite lookup_insert]. unfold ncount. cbn.
  rewrite msum_insert_new by (by eapply not_held_not_staked). cbn. rewrite N.eqb_refl. cbn. lia.
Qed.

(** ** C44 for NFTs *)
Lemma thr_nft b s l : nreached b s l ->
  match n_thr s with Some (APercent p) => 0 < p <= DEC_ONE | Some (ACount n) => 0 <= n | None => True end.
Proof.
  intros (b0 & dao & nft & src & d & thr & s0 & _ & Hf & Hi & HL). revert HL.
  apply (leads_ind n_handle (fun b s l => match n_thr s with Some (APercent p) => 0 < p <= DEC_ONE | Some (ACount n) => 0 <= n | None => True end)).
  - intros b1 s1 l1 a m s' subs IH H. destruct m as [from i|ids| |d1|h|h|t sup|i].
    + apply nstake_step in H as (_ & _ & _ & _ & _ & -> & _). done.
    + apply nunstake_step in H as (_ & _ & _ & _ & _ & _ & _ & _ & _ & -> & _). done.
    + apply nclaim_step in H as (_ & _ & -> & _). done.
    + cbn [n_handle] in H. unfold n_update_config in H. res_inv H; done.
    + cbn [n_handle] in H. unfold n_set_hooks in H. res_inv H; done.
    + cbn [n_handle] in H. unfold n_set_hooks in H. res_inv H; done.
    + cbn [n_handle] in H. destruct (fits_active t) eqn:Eft; [|done]. cbn in H.
      destruct (fits128 sup); [|done]. unfold n_update_threshold in H.
      destruct (a =? n_dao s1)%N; [|done]. destruct (validate_active t sup) as [[]|] eqn:Ev; [|done].
      injection H as <- <-. cbn. destruct t as [[n|p]|]; cbn in *; [| |done].
      * unfold fits128 in Eft. lia.
      * unfold assert_valid_percentage in Ev. unfold fits128 in Eft.
        destruct (p =? 0) eqn:E0; [done|]. cbn in Ev. destruct (p <=? DEC_ONE) eqn:E1; [|done]. lia.
    + apply ndeposit_step in H as (_ & _ & _ & ->). done.
  - done.
  - eauto.
  - unfold n_instantiate in Hi. destruct (validate_duration d); [|done].
    assert (n_thr s0 = thr) as -> by (repeat (case_match; simplify_eq; try done)).
    destruct thr as [[n|p]|]; cbn in *; [| |done].
    + unfold fits128 in Hf. lia.
    + unfold assert_valid_percentage in Hi. unfold fits128 in Hf. destruct (p =? 0) eqn:E0; [done|]. cbn in Hi.
      destruct (p <=? DEC_ONE) eqn:E1; [|done]. lia.
Qed.
(** The module's answer, about the tokens staked when the block began. *)
Lemma c44_nft b s l bq supply :
  nreached b s l -> 0 <= supply <= U64_MAX ->
  let st := n_total_at s bq None in
  exists a, n_is_active s bq supply = Ok a /\
  match n_thr s with
  | None => a = true
  | Some (ACount n) => a = true <-> n <= st
  | Some (APercent p) => a = true <-> st <> 0 /\ supply * 10 ^ 9 * p / 10 ^ 18 <= st * 10 ^ 9
  end.
Proof.
  intros HR Hs st. pose proof (thr_nft _ _ _ HR) as Ht. unfold n_is_active.
  change (snap_get_at (n_total s) (height bq)) with st. unfold is_active_nft.
  destruct (n_thr s) as [[n|p]|]; [| |eauto].
  - eexists. split; [done|]. by rewrite Z.leb_le.
  - destruct (TokClaims.active_count_ok supply p) as (n & -> & Hn); [unfold U64_MAX, U128_MAX in *; lia|lia|].
    destruct (st =? 0) eqn:E; eexists; (split; [done|]).
    + split; [done|]. lia.
    + rewrite Z.leb_le, Hn. split; [|tauto]. split; [lia|done].
Qed.
(** ** C73 *)
Lemma c73_nft b s l pre b1 a m post subs :
  nreached b s l -> ECall pre b1 a m post subs ∈ l ->
  n_dao post = n_dao pre /\ n_nft post = n_nft pre /\
  (n_dur post <> n_dur pre \/ n_thr post <> n_thr pre \/ n_hooks post <> n_hooks pre -> a = n_dao pre).
Proof.
  intros HR Hin. destruct (nreached_call _ _ _ HR _ _ _ _ _ _ Hin) as (HI & H & _).
  destruct m as [from i|ids| |d1|h|h|t sup|i].
  - apply nstake_step in H as (_ & _ & _ & _ & _ & -> & _). cbn. naive_solver.
  - apply nunstake_step in H as (_ & _ & _ & _ & _ & _ & -> & -> & -> & -> & -> & _). naive_solver.
  - apply nclaim_step in H as (_ & _ & -> & _). cbn. naive_solver.
  - apply nquiet_step in H as (-> & _ & _ & _ & _ & _ & -> & -> & _); done.
  - apply nquiet_step in H as (-> & _ & _ & _ & _ & _ & -> & -> & _); done.
  - apply nquiet_step in H as (-> & _ & _ & _ & _ & _ & -> & -> & _); done.
  - apply nquiet_step in H as (-> & _ & _ & _ & _ & _ & -> & -> & _); done.
  - apply ndeposit_step in H as (_ & _ & _ & ->). cbn. naive_solver.
Qed.
(** Only the collection can stake a token for somebody. *)
Lemma c43_only_collection b s l pre b1 a from id post subs :
  nreached b s l -> ECall pre b1 a (NReceive from id) post subs ∈ l -> a = n_nft pre.
Proof.
  intros HR Hin. destruct (nreached_call _ _ _ HR _ _ _ _ _ _ Hin) as (_ & H & _).
  by apply nstake_step in H as (-> & _).
Qed.

(** ** What a module is set up with *)
(** When a module can be made. *)
Lemma c43_instantiate b dao nft src d thr :
  fits_dur d = true -> fits_active thr = true -> match src with NewNft n => 0 <= n | _ => True end ->
  is_ok (n_instantiate b dao nft src d thr) = true <->
  match d with Some (DHeight n) | Some (DTime n) => 0 < n | None => True end /\
  match src with NewNft n => 0 < n | _ => True end /\
  match thr with
  | Some (APercent p) => 0 < p <= DEC_ONE
  | Some (ACount n) =>
      match src with ExistingNft k | NewNft k => 0 < n <= k | FactoryNft => True end
  | None => True
  end.
Proof.
  intros Hd Ht Hs. unfold n_instantiate, validate_duration, assert_valid_percentage, assert_valid_absolute_count.
  assert (forall x, fits128 x = true -> 0 <= x) as Hfit by (unfold fits128; lia).
  destruct d as [[n|n]|], thr as [[k|k]|], src as [u|u|]; cbn in *;
    try pose proof (Hfit _ Ht);
    repeat (match goal with |- context [?x =? 0] => destruct (Z.eqb_spec x 0); cbn
      | |- context [?x <=? ?y] => destruct (Z.leb_spec x y); cbn end);
    (split; [intros; try discriminate; repeat split; try lia|intros (? & ? & ?); try done; lia]).
Qed.
(** The unbonding period, if there is one, is never empty. *)
Lemma c43_duration b s l :
  nreached b s l -> match n_dur s with Some (DHeight n) | Some (DTime n) => 0 < n | None => True end.
Proof.
  intros (b0 & dao & nft & src & d & thr & s0 & Hd & _ & Hi & HL). revert HL.
  assert (forall d, fits_dur d = true -> validate_duration d = Ok tt ->
    match d with Some (DHeight n) | Some (DTime n) => 0 < n | None => True end) as Hok.
  { intros [[n|n]|] Hf Hv; cbn in *; [..|done]; destruct (Z.eqb_spec n 0); cbn in *; try discriminate; lia. }
  apply (leads_ind n_handle (fun b s l => match n_dur s with Some (DHeight n) | Some (DTime n) => 0 < n | None => True end)).
  - intros b1 s1 l1 a m s' subs IH H. destruct m as [from i|ids| |d1|h|h|t sup|i]; cbn [n_handle] in H.
    + apply nstake_step in H as (_ & _ & _ & _ & _ & -> & _). done.
    + apply nunstake_step in H as (_ & _ & _ & _ & _ & _ & _ & _ & -> & _). done.
    + apply nclaim_step in H as (_ & _ & -> & _). done.
    + destruct (fits_dur d1) eqn:Ef; [|done]. unfold n_update_config in H.
      destruct (a =? n_dao s1)%N; [|done]. destruct (validate_duration d1) as [[]|] eqn:Ev; [|done].
      injection H as <- <-. cbn. by apply Hok.
    + unfold n_set_hooks in H. res_inv H; done.
    + unfold n_set_hooks in H. res_inv H; done.
    + unfold n_update_threshold in H. res_inv H; done.
    + apply (ndeposit_step _ b1 a) in H as (_ & _ & _ & ->). done.
  - done.
  - eauto.
  - unfold n_instantiate in Hi. destruct (validate_duration d) as [[]|] eqn:Ev; [|done].
    assert (n_dur s0 = d) as -> by (repeat (case_match; simplify_eq; try done)). by apply Hok.
Qed.
