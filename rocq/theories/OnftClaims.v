(** Statements of C85-C87 and their proofs. *)
From Verif Require Import Base BaseProofs Exec ExecProofs Plain PlainProofs VotingModel HooksModel
  StoreModel StoreProofs LedgerProofs ActiveModel NftModel NftSpec NftProofs OnftModel OnftSpec OnftProofs.
From Verif Require NftClaims.

(** ** C85: power *)
Lemma c85_adds_up b s l bq h : freached b s l -> fsum_at s bq h = f_total_at s bq (Some h).
Proof. intros HR. apply (lg_snap _ _ _ (freached_linv _ _ _ HR) h). Qed.
Lemma c85_any_voters b s l bq h vs :
  freached b s l -> NoDup vs ->
  lsum (fun a => f_power_at s bq a (Some h)) vs <= f_total_at s bq (Some h) <= U128_MAX /\
  (forall a, 0 <= f_power_at s bq a (Some h)).
Proof.
  intros HR Hn. pose proof (freached_linv _ _ _ HR) as HL.
  split; [split|].
  - by apply (ledger_at_list (height b)).
  - apply (lg_hmax _ _ _ HL).
  - intros a. apply (lg_hpos _ _ _ HL).
Qed.
Lemma fat_call s b a m s' subs h :
  f_handle s b a m = Ok (s', subs) -> h <= height b ->
  (forall a', smap_at (f_bals s') a' h = smap_at (f_bals s) a' h) /\
  snap_get_at (f_total s') h = snap_get_at (f_total s) h.
Proof.
  intros H Hh. apply f_handle_step in H as [_ H]. destruct H; try done; cbn.
  - split; [intros; by apply smap_at_save|by apply snap_get_at_save].
  - split; [intros; by apply smap_at_save|by apply snap_get_at_save].
Qed.
Lemma c85_past b s l b' s' l' bq bq' h :
  freached b s l -> leads f_handle b s b' s' l' -> h <= height b ->
  (forall a, f_power_at s' bq' a (Some h) = f_power_at s bq a (Some h)) /\
  f_total_at s' bq' (Some h) = f_total_at s bq (Some h).
Proof.
  intros HR HL Hle. unfold f_power_at, f_total_at. cbn.
  revert HL. apply (leads_rel_from f_handle (fun _ _ => True)
      ltac:(done) ltac:(done) (fun s s' => (forall a', smap_at (f_bals s') a' h = smap_at (f_bals s) a' h) /\
      snap_get_at (f_total s') h = snap_get_at (f_total s) h)); [done| | |done].
  - intros x y z [P1 P2] [Q1 Q2]. split; [intros; by rewrite Q1, P1|by rewrite Q2, P2].
  - intros b2 s2 a m s3 subs [Hbb _] _ Hh. apply (fat_call _ _ _ _ _ _ _ Hh). lia.
Qed.
Lemma c85_power_is_count b s l bq h :
  freached b s l -> kept l -> height b < h ->
  (forall a, f_power_at s bq a (Some h) = fcount s a) /\ f_total_at s bq (Some h) = fcount_all s.
Proof.
  intros HR HK Hlt. pose proof (freached_kinv _ _ _ HR HK) as HI. pose proof (freached_linv _ _ _ HR) as HL.
  unfold f_power_at, f_total_at. cbn. split.
  - intros a. rewrite (ki_count _ HI). eapply smap_at_now; [apply HL|done].
  - rewrite (ki_all _ HI). eapply snap_get_at_now; [apply HL|done].
Qed.

(** ** C86: custody *)
Lemma c86_held_once b s l id :
  freached b s l -> kept l ->
  fstaked_times s id + fclaimed_times s id <=
    if bool_decide (f_owner s !! id = Some (f_self s)) then 1 else 0.
Proof.
  intros HR HK. pose proof (ki_held _ (freached_kinv _ _ _ HR HK) id) as H. exact H.
Qed.
Lemma c86_one_staker b s l id a a' :
  freached b s l -> kept l -> f_staked s !! (a, id) = Some tt ->
  (f_staked s !! (a', id) = Some tt -> a' = a) /\ fclaimed_by s a' id = 0 /\
  f_owner s !! id = Some (f_self s) /\ f_prep s !! id = None.
Proof.
  intros HR HK H1. pose proof (freached_kinv _ _ _ HR HK) as HI.
  pose proof (ki_held _ HI id) as Hh. pose proof (fstaked_in _ _ _ H1) as Hs.
  pose proof (ctimes_ge (f_claims s) a' id) as Hc. pose proof (ctimes_pos (f_claims s) id) as Hc0.
  assert (0 <= fclaimed_by s a' id) by (apply lsum_nonneg; intros; apply one_pos).
  assert (f_owner s !! id = Some (f_self s)) as Ho.
  { destruct (decide (f_owner s !! id = Some (f_self s))) as [|Hn]; [done|].
    rewrite at_self_0 in Hh by done. lia. }
  rewrite at_self_1 in Hh by done. split; [|split; [|split]].
  - intros H2. destruct (decide (a' = a)) as [|Hne]; [done|exfalso].
    pose proof (msum_ge_two (fun (k : addr * N) _ => one (k.2 =? id)%N) (f_staked s) (a', id) tt (a, id) tt) as HG.
    cbn in HG. rewrite N.eqb_refl in HG. cbn in HG. fold (fstaked_times s id) in HG.
    specialize (HG ltac:(intros; apply one_pos) ltac:(congruence) H2 H1). lia.
  - unfold fclaimed_by in *. unfold nclaims_of in Hc. lia.
  - done.
  - destruct (f_prep s !! id) as [x|] eqn:Ex; [|done]. pose proof (ki_prep _ HI id x Ex). lia.
Qed.
(** What is paid in a list of messages. *)
Definition paid (a : addr) (id : N) (subs : list fsub) : Z :=
  lsum (fun x => match x with FPay to i => one ((to =? a) && (i =? id))%N | _ => 0 end) subs.
Lemma paid_app a id l l' : paid a id (l ++ l') = paid a id l + paid a id l'.
Proof. apply lsum_app. Qed.
Lemma paid_hooks a id (l : list addr) who ids : paid a id (map (fun h => FUnstakeHook h who ids) l) = 0.
Proof. unfold paid. rewrite lsum_map. by apply lsum_zero. Qed.
Lemma paid_to a id who ids : paid a id (f_pays (map (fun i => (i, who)) ids)) =
  if decide (who = a) then times ids id else 0.
Proof.
  unfold paid, f_pays, times. rewrite map_map, lsum_map. cbn. destruct (decide (who = a)) as [->|Hne].
  - by rewrite N.eqb_refl.
  - apply lsum_zero. intros i. destruct (who =? a)%N eqn:E; [apply N.eqb_eq in E; congruence|done].
Qed.
Lemma c86_conservation b s l a id :
  freached b s l -> kept l ->
  fput_in a id l = ftaken_out a id l + fclaimed_by s a id + fholds s a id.
Proof.
  intros HR HK.
  apply (freached_ind (fun s l => fput_in a id l = ftaken_out a id l + fclaimed_by s a id + fholds s a id) b s l);
    [| | |done|done].
  - intros b0 self dao d thr sup own s0 Hi. apply linv_init in Hi as [-> _].
    unfold fclaimed_by, fholds. cbn. by rewrite !lookup_empty.
  - intros b1 s1 l1 c m s' subs HL HI H Hal IH.
    unfold fput_in, ftaken_out in *. rewrite !lsum_app, IH. cbn [lsum].
    apply f_handle_step in H as [Hc H]. unfold fclaimed_by, fholds in *.
    assert (forall x, fev_out a id (ECall s1 b1 c x s' subs) =
      match x with FUnstake _ | FClaim => paid a id subs | _ => 0 end) as Ep by (by intros []).
    rewrite Ep. clear Ep. unfold fev_in.
    destruct H as [ids Ho|ids0 ids n Hp H1 H2|ids r lx own Hcc Hs|ids m own cs subs n Hne Hr Hn Ht Hcc
                  |own out Hne Hs|m d t h Hm Hd|m i own Hm Hn Ho]; cbn [f_staked f_claims f_set_prep f_set_owner f_set_claims].
    + cbn. lia.
    + rewrite add_staked_lookup. destruct (N.eqb_spec c a) as [->|Hca]; cbn [andb].
      * destruct (bool_decide (id ∈ ids0)) eqn:Eb.
        -- apply bool_decide_eq_true in Eb. rewrite decide_True by (split; [done|by apply elem_of_remove_dups]).
           destruct (Hp id Eb) as [Hq _]. pose proof (ki_prep _ HI id a Hq) as H0.
           pose proof (ctimes_pos (f_claims s1) id). destruct (f_staked s1 !! (a, id)) as [[]|] eqn:E.
           { apply fstaked_in in E. lia. } cbn. lia.
        -- apply bool_decide_eq_false in Eb.
           rewrite decide_False by (intros [_ Hx]; by apply (elem_of_remove_dups ids0) in Hx). cbn. lia.
      * rewrite decide_False by naive_solver. cbn. lia.
    + lia.
    + apply remove_ok in Hr as (HN & Hin & Hlk & _). rewrite Hlk.
      assert ((if decide (c = a) then times ids id else 0) + match (if decide (a = c /\ id ∈ ids) then None else f_staked s1 !! (a, id)) with Some _ => 1 | None => 0 end =
        match f_staked s1 !! (a, id) with Some _ => 1 | None => 0 end) as Hk.
      { destruct (decide (c = a)) as [->|Hx].
        - destruct (decide (id ∈ ids)) as [Hi2|Hi2].
          + rewrite decide_True by done. rewrite (Hin id Hi2).
            pose proof (times_in _ _ Hi2). pose proof (times_nodup _ id HN). lia.
          + rewrite decide_False by naive_solver. rewrite times_out by done. lia.
        - rewrite decide_False by naive_solver. lia. }
      destruct Hcc as [(_ & _ & -> & ->)|(d2 & _ & _ & _ & -> & ->)].
      * rewrite paid_app, paid_to, paid_hooks. lia.
      * rewrite paid_hooks. unfold create_nft_claims. destruct (decide (c = a)) as [->|Hx].
        { rewrite lookup_insert. cbn [default]. unfold nclaims_of.
          cbn. rewrite lsum_app, lsum_map. unfold times in Hk. cbn. lia. }
        { rewrite lookup_insert_ne by done. lia. }
    + rewrite paid_to. destruct (decide (c = a)) as [->|Hx].
      * rewrite lookup_insert. cbn. unfold times. rewrite lsum_map.
        pose proof (lsum_filter_split (fun c => one (nc_id c =? id)%N) (nmature b1) (nclaims_of (f_claims s1) a)).
        unfold out, nclaims_of in *. lia.
      * rewrite lookup_insert_ne by done. lia.
    + destruct m; try done; cbn; lia.
    + destruct m; try done; cbn; lia.
  - intros s1 l1 x IH Hx. unfold fput_in, ftaken_out in *. rewrite !lsum_app. cbn [lsum].
    destruct x as [pre bx c m post subs|]; [by destruct (Hx pre bx c m post subs)|]. cbn. lia.
Qed.
Lemma nodup_fst (a : addr) (ids : list N) : map fst (map (fun id => (id, a)) ids) = ids.
Proof. rewrite map_map. cbn. apply map_id. Qed.
Lemma pays_in (a : addr) ids id : id ∈ ids -> FPay a id ∈ f_pays (map (fun i => (i, a)) ids).
Proof.
  intros H. unfold f_pays. rewrite map_map. cbn. apply elem_of_list_fmap. eauto.
Qed.
Lemma f_self_call s b a m s' subs : f_handle s b a m = Ok (s', subs) -> f_self s' = f_self s.
Proof. intros H. apply f_handle_step in H as [_ H]. by destruct H. Qed.
(** Staked tokens can be unstaked, and due ones collected. *)
Lemma c86_can_unstake b s l a ids :
  freached b s l -> kept l -> a <> f_self s ->
  ids <> [] -> NoDup ids -> (forall id, id ∈ ids -> f_staked s !! (a, id) = Some tt) ->
  (f_dur s <> None -> Z.of_nat (length (default [] (f_claims s !! a)) + length ids) <= 70) ->
  exists s' subs, f_handle s b a (FUnstake ids) = Ok (s', subs) /\
    (forall d, f_dur s = Some d -> forall id, id ∈ ids -> fclaimed_by s' a id = 1) /\
    (f_dur s = None -> forall id, id ∈ ids -> FPay a id ∈ subs /\ f_owner s' !! id = Some a).
Proof.
  intros HR HK Ha Hne HN Hin Hc. pose proof (freached_kinv _ _ _ HR HK) as HI.
  pose proof (freached_linv _ _ _ HR) as HL.
  destruct (remove_can _ _ _ HN Hin) as [m' Hm]. pose proof (remove_ok _ _ _ _ Hm) as (_ & _ & _ & Hs).
  assert (Z.of_nat (length ids) <= fcount s a) as Hcount.
  { pose proof (Hs (fun k => one (k.1 =? a)%N)) as H. cbn in H. rewrite N.eqb_refl in H. cbn in H.
    rewrite lsum_const1 in H. unfold fcount.
    assert (0 <= msum (fun (k : addr * N) _ => one (k.1 =? a)%N) m')
      by (apply msum_nonneg; intros; apply one_pos). lia. }
  assert (0 < length ids)%nat as Hlen by (destruct ids; cbn; [done|lia]).
  rewrite (ki_count _ HI) in Hcount. pose proof (ledger_le _ _ _ a HL) as Hle.
  unfold f_handle. rewrite (proj2 (N.eqb_neq _ _) Ha). cbn [negb]. unfold f_unstake.
  destruct (length ids =? 0)%nat eqn:E0; [apply Nat.eqb_eq in E0; lia|].
  cbn [negb]. rewrite Hm. rewrite sub128_eq by lia.
  destruct (sn_cur (smap_snap (f_bals s) a)) as [cur|] eqn:Ec.
  2: { unfold smap_get in Hcount. rewrite Ec in Hcount. cbn in Hcount. lia. }
  assert (smap_get (f_bals s) a = cur) as Eb by (unfold smap_get; by rewrite Ec).
  rewrite sub128_eq by lia. destruct (f_dur s) as [d|].
  - specialize (Hc ltac:(done)). unfold nclaims_of, NFT_MAX_CLAIMS.
    rewrite (proj2 (Z.leb_le _ _)) by lia. do 2 eexists. split; [done|]. split; [|done].
    intros _ _ id Hid. destruct (c86_one_staker _ _ _ id a a HR HK (Hin id Hid)) as (_ & H0 & _).
    unfold fclaimed_by in *. cbn. unfold create_nft_claims. rewrite lookup_insert. cbn. unfold nclaims_of.
    rewrite lsum_app, H0, lsum_map. cbn. change (times ids id = 1).
    pose proof (times_in _ _ Hid). pose proof (times_nodup _ id HN). lia.
  - assert (forall id, id ∈ ids -> f_owner s !! id = Some (f_self s)) as Hheld.
    { intros id Hid. eapply (c86_one_staker _ _ _ id a a HR HK). auto. }
    destruct (send_can (f_self s) (f_owner s) (map (fun id => (id, a)) ids)) as [own Hown].
    { by rewrite nodup_fst. } { by rewrite nodup_fst. }
    rewrite Hown. do 2 eexists. split; [done|]. split; [done|].
    intros _ id Hid. split.
    + apply elem_of_app. left. by apply pays_in.
    + cbn. clear -Hown Hid. revert Hown. generalize (f_owner s) as o.
      revert Hid. induction ids as [|i ids IH]; intros Hid o H; [by apply elem_of_nil in Hid|].
      cbn in H. destruct (bool_decide _); [|done].
      destruct (decide (id ∈ ids)) as [Hi|Hi]; [by apply (IH Hi _ H)|].
      apply elem_of_cons in Hid as [->|]; [|done].
      apply send_ok in H as (S1 & _). rewrite S1; [by rewrite lookup_insert|]. by rewrite nodup_fst.
Qed.
Lemma c86_can_collect b s l a c :
  freached b s l -> kept l -> a <> f_self s ->
  c ∈ default [] (f_claims s !! a) -> is_expired (nc_release c) b = true ->
  exists s' subs, f_handle s b a FClaim = Ok (s', subs) /\ FPay a (nc_id c) ∈ subs.
Proof.
  intros HR HK Ha Hc Hdue. pose proof (freached_kinv _ _ _ HR HK) as HI.
  set (out := List.filter (nmature b) (nclaims_of (f_claims s) a)).
  assert (c ∈ out) as Hout by (apply elem_of_filter_b; done).
  assert (forall id, times (map nc_id out) id <= at_self s id) as Ht.
  { intros id. unfold times. rewrite lsum_map. pose proof (ki_held _ HI id).
    pose proof (fstaked_pos s id). pose proof (ctimes_ge (f_claims s) a id).
    pose proof (lsum_filter_split (fun c => one (nc_id c =? id)%N) (nmature b) (nclaims_of (f_claims s) a)) as Hf.
    fold out in Hf.
    assert (0 <= lsum (fun c => one (nc_id c =? id)%N) (List.filter (fun c => negb (nmature b c)) (nclaims_of (f_claims s) a)))
      by (apply lsum_nonneg; intros; apply one_pos). lia. }
  destruct (send_can (f_self s) (f_owner s) (map (fun id => (id, a)) (map nc_id out))) as [own Hl].
  { rewrite nodup_fst. apply NftClaims.nodup_times. intros id. specialize (Ht id).
    pose proof (one_pos (bool_decide (f_owner s !! id = Some (f_self s)))). unfold at_self in Ht. lia. }
  { rewrite nodup_fst. intros id Hid. specialize (Ht id). pose proof (times_in _ _ Hid).
    destruct (decide (f_owner s !! id = Some (f_self s))) as [|Hn]; [done|].
    rewrite at_self_0 in Ht by done. lia. }
  unfold f_handle. rewrite (proj2 (N.eqb_neq _ _) Ha). cbn [negb].
  unfold f_claim, claim_nfts. fold out.
  destruct (length (map nc_id out) =? 0)%nat eqn:E0.
  { apply Nat.eqb_eq in E0. rewrite map_length in E0. destruct out; [by apply elem_of_nil in Hout|done]. }
  cbn [negb]. rewrite Hl. do 2 eexists. split; [done|].
  apply pays_in, elem_of_list_fmap. eauto.
Qed.
(** Others' calls change neither a member's staked tokens nor claims. *)
Lemma c86_others b s l pre b1 a m post subs a' id :
  freached b s l -> ECall pre b1 a m post subs ∈ l -> a' <> a ->
  f_staked post !! (a', id) = f_staked pre !! (a', id) /\
  default [] (f_claims post !! a') = default [] (f_claims pre !! a').
Proof.
  intros HR Hin Hne. destruct (freached_call _ _ _ _ _ _ _ _ _ HR Hin) as [_ H].
  apply f_handle_step in H as [_ H].
  destruct H as [ids Ho|ids0 ids n Hp H1 H2|ids r lx own Hcc Hs|ids m own cs subs n Hn0 Hr Hn Ht Hcc
                |own out Hn0 Hs|m d t h Hm Hd|m i own Hm Hn Ho]; try done; cbn.
  - split; [|done]. rewrite add_staked_lookup. by rewrite decide_False by naive_solver.
  - apply remove_ok in Hr as (_ & _ & Hlk & _). split.
    { rewrite Hlk. by rewrite decide_False by naive_solver. }
    destruct Hcc as [(_ & _ & -> & _)|(d2 & _ & _ & _ & -> & _)]; [done|].
    unfold create_nft_claims. by rewrite lookup_insert_ne.
  - split; [done|]. by rewrite lookup_insert_ne.
Qed.

(** ** C87: where tokens go *)
Lemma pays_out l to id : FPay to id ∈ f_pays l -> (id, to) ∈ l.
Proof. intros H. unfold f_pays in H. apply elem_of_list_fmap in H as ([i t] & [= -> ->] & H). done. Qed.
Lemma c87_payments b s l pre b1 a m post subs to id :
  freached b s l -> ECall pre b1 a m post subs ∈ l -> FPay to id ∈ subs ->
  f_owner pre !! id = Some (f_self pre) /\
  ((exists ids, m = FUnstake ids /\ id ∈ ids /\ to = a /\ f_dur pre = None /\
      f_staked pre !! (a, id) = Some tt) \/
   (m = FClaim /\ to = a /\ exists c, c ∈ default [] (f_claims pre !! a) /\ nc_id c = id /\
      is_expired (nc_release c) b1 = true) \/
   (exists ids r, m = FCancel ids r /\ id ∈ ids /\ to = a /\ f_prep pre !! id = Some a) \/
   (exists ids r, m = FCancel ids r /\ id ∈ ids /\ a = f_dao pre /\
      (r = Some to \/ r = None /\ f_prep pre !! id = Some to))).
Proof.
  intros HR Hin Hp. destruct (freached_call _ _ _ _ _ _ _ _ _ HR Hin) as [_ H].
  apply f_handle_step in H as [Ha H].
  destruct H as [ids Ho|ids0 ids n Hq H1 H2|ids r lx own Hcc Hs|ids m own cs subs n Hn0 Hr Hn Ht Hcc
                |own out Hn0 Hs|m d t h Hm Hd|m i own Hm Hn Ho]; try (by apply elem_of_nil in Hp).
  - apply elem_of_list_In, in_flat_map in Hp as (x & _ & Hx). apply in_map_iff in Hx as (? & ? & _). done.
  - apply pays_out in Hp. destruct Hcc as (_ & _ & C & _). destruct (C _ _ Hp) as (Hi & Ho & Hd).
    split; [done|]. right. right. destruct Hd as [(-> & Hr)|(_ & Hq & [->|Hd])].
    + right. exists ids, r. auto.
    + left. exists ids, r. auto.
    + done.
  - destruct Hcc as [(Hd & Hl & _ & ->)|(d2 & _ & _ & _ & _ & ->)].
    2: { by apply elem_of_list_fmap in Hp as (? & ? & _). }
    apply elem_of_app in Hp as [Hp|Hp]; [|by apply elem_of_list_fmap in Hp as (? & ? & _)].
    apply pays_out in Hp. apply elem_of_list_fmap in Hp as (i & [= -> ->] & Hi).
    apply send_ok in Hl as (_ & S2 & _). rewrite nodup_fst in S2. split; [auto|]. left. exists ids.
    apply remove_ok in Hr as (_ & Hst & _). auto 10.
  - apply pays_out in Hp. apply elem_of_list_fmap in Hp as (i & [= -> ->] & Hi).
    apply send_ok in Hs as (_ & S2 & _). rewrite nodup_fst in S2. split; [auto|]. right. left.
    split; [done|]. split; [done|]. apply elem_of_list_fmap in Hi as (c & -> & Hc).
    apply elem_of_filter_b in Hc as [Hx1 Hx2]. eauto.
Qed.
(** A token leaves the module only with such a payment. *)
Lemma c87_leaves b s l pre b1 a m post subs id :
  freached b s l -> ECall pre b1 a m post subs ∈ l ->
  f_owner pre !! id = Some (f_self pre) -> f_owner post !! id <> Some (f_self pre) ->
  exists to, FPay to id ∈ subs.
Proof.
  intros HR Hin H1 H2. destruct (freached_call _ _ _ _ _ _ _ _ _ HR Hin) as [_ H].
  apply f_handle_step in H as [Ha H].
  assert (forall l own, f_send (f_self pre) (f_owner pre) l = Ok own -> own !! id <> Some (f_self pre) ->
    exists to, FPay to id ∈ f_pays l) as Hs.
  { intros lx own Hs Hn. apply send_ok in Hs as (S1 & _).
    destruct (decide (id ∈ map fst lx)) as [Hi|Hi]; [|rewrite S1 in Hn by done; done].
    apply elem_of_list_fmap in Hi as ([i to] & -> & Hi). exists to. cbn. unfold f_pays.
    apply elem_of_list_fmap. by exists (i, to). }
  destruct H as [ids Ho|ids0 ids n Hq H3 H4|ids r lx own Hcc Hx|ids m own cs subs n Hn0 Hr Hn Ht Hcc
                |own out Hn0 Hx|m d t h Hm Hd|m i own Hm Hn Ho]; try done; cbn in H2.
  - by eapply Hs.
  - destruct Hcc as [(Hd & Hl & _ & ->)|(d2 & _ & _ & -> & _ & ->)]; [|done].
    destruct (Hs _ _ Hl H2) as [to Hto]. exists to. apply elem_of_app. by left.
  - by eapply Hs.
  - destruct (decide (i = id)) as [->|Hi]; [done|]. rewrite Ho in H2 by done. done.
Qed.
(** The preparations recorded are those of the log. *)
Lemma preparer_app id l e : preparer id (l ++ [e]) = default (preparer id l) (prepares id e).
Proof. unfold preparer. by rewrite fold_left_app. Qed.
Lemma c87_prepared_by b s l id : freached b s l -> f_prep s !! id = preparer id l.
Proof.
  intros (b0 & self & dao & d & thr & sup & own & s0 & _ & _ & Hi & HL). revert HL.
  apply (leads_ind f_handle (fun b s l => f_prep s !! id = preparer id l)).
  - intros b1 s1 l1 a m s' subs IH H. rewrite preparer_app, <- IH. apply f_handle_step in H as [_ H].
    destruct H as [ids Ho|ids0 ids n Hq H3 H4|ids r lx own1 Hcc Hx|ids m own1 cs subs n Hn0 Hr Hn Ht Hcc
                |own1 out Hn0 Hx|m d1 t h Hm Hd|m i own1 Hm Hn Ho]; cbn; try done.
    + rewrite put_lookup. destruct (decide (id ∈ ids)).
      * by rewrite bool_decide_eq_true_2.
      * by rewrite bool_decide_eq_false_2.
    + rewrite drop_lookup. destruct (decide (id ∈ ids)) as [Hi1|Hi1].
      * rewrite bool_decide_eq_true_2; [done|]. by apply (elem_of_remove_dups ids0).
      * rewrite bool_decide_eq_false_2; [done|]. intros Hx. by apply Hi1, elem_of_remove_dups.
    + rewrite drop_lookup. destruct (decide (id ∈ ids)).
      * by rewrite bool_decide_eq_true_2.
      * by rewrite bool_decide_eq_false_2.
    + by destruct m.
    + by destruct m.
  - intros b1 s1 l1 x IH. rewrite preparer_app. done.
  - done.
  - apply linv_init in Hi as [-> _]. done.
Qed.
Lemma c87_prepares b s l pre b1 a ids post subs id :
  freached b s l -> ECall pre b1 a (FPrepare ids) post subs ∈ l -> id ∈ ids -> f_owner pre !! id = Some a.
Proof.
  intros HR Hin Hid. destruct (freached_call _ _ _ _ _ _ _ _ _ HR Hin) as [_ H].
  apply f_handle_step in H as [Ha H]. inversion H; subst; [auto|done|done].
Qed.
Lemma c87_confirms b s l pre b1 a ids post subs id :
  freached b s l -> ECall pre b1 a (FConfirm ids) post subs ∈ l -> id ∈ ids ->
  f_prep pre !! id = Some a /\ f_owner pre !! id = Some (f_self pre) /\
  f_prep post !! id = None /\ f_staked post !! (a, id) = Some tt.
Proof.
  intros HR Hin Hid. destruct (freached_call _ _ _ _ _ _ _ _ _ HR Hin) as [_ H].
  apply f_handle_step in H as [Ha H]. inversion H as [|ids0 ids1 n Hq H3 H4| | | | |]; subst; [|done|done].
  destruct (Hq id Hid) as [Q1 Q2]. split; [done|]. split; [done|]. cbn.
  rewrite drop_lookup, add_staked_lookup, !decide_True; [done| |].
  - split; [done|]. by apply elem_of_remove_dups.
  - by apply elem_of_remove_dups.
Qed.
(** Tokens become staked by such a call only. *)
Lemma c87_staked_by b s l pre b1 a m post subs a' id :
  freached b s l -> ECall pre b1 a m post subs ∈ l ->
  f_staked pre !! (a', id) = None -> f_staked post !! (a', id) = Some tt ->
  a' = a /\ exists ids, m = FConfirm ids /\ id ∈ ids.
Proof.
  intros HR Hin H1 H2. destruct (freached_call _ _ _ _ _ _ _ _ _ HR Hin) as [_ H].
  apply f_handle_step in H as [Ha H].
  destruct H as [ids Ho|ids0 ids n Hq H3 H4|ids r lx own Hcc Hx|ids m own cs subs n Hn0 Hr Hn Ht Hcc
                |own out Hn0 Hx|m d t h Hm Hd|m i own Hm Hn Ho]; try (cbn in H2; congruence).
  - cbn in H2. rewrite add_staked_lookup in H2.
    destruct (decide (a' = a /\ id ∈ ids)) as [[-> Hi]|]; [|congruence].
    split; [done|]. exists ids0. split; [done|]. by apply (elem_of_remove_dups ids0) in Hi.
  - cbn in H2. apply remove_ok in Hr as (_ & _ & Hlk & _). rewrite Hlk in H2. case_decide; congruence.
Qed.
(** A token moved in after its owner prepared it is safe with the module: only that account,
    or the DAO, changes that; and that account can stake it or have it back. *)
Lemma c87_safe b s l id a x m s' subs :
  freached b s l -> kept l -> f_prep s !! id = Some a -> f_owner s !! id = Some (f_self s) ->
  x <> a -> x <> f_dao s -> f_handle s b x m = Ok (s', subs) ->
  f_prep s' !! id = Some a /\ f_owner s' !! id = Some (f_self s).
Proof.
  intros HR HK Hp Ho Hx Hd H. pose proof (freached_kinv _ _ _ HR HK) as HI.
  pose proof (ki_prep _ HI _ _ Hp) as H0. pose proof (fstaked_pos s id) as Hsp.
  apply f_handle_step in H as [Ha H].
  destruct H as [ids Hw|ids0 ids n Hq H3 H4|ids r lx own Hcc Hs|ids m own cs subs n Hn0 Hr Hn Ht Hcc
                |own out Hn0 Hs|m d t h Hm Hdd|m i own Hm Hn Hw]; cbn; try done.
  - rewrite put_lookup. destruct (decide (id ∈ ids)) as [Hi|]; [|done].
    specialize (Hw id Hi). congruence.
  - rewrite drop_lookup. destruct (decide (id ∈ ids)) as [Hi|]; [|done].
    apply (elem_of_remove_dups ids0) in Hi. destruct (Hq id Hi). congruence.
  - destruct Hcc as (_ & _ & C3 & C4).
    assert (id ∉ ids) as Hi. { intros Hi. destruct (C4 id Hd Hi); congruence. }
    rewrite drop_lookup, decide_False by done. split; [done|].
    apply send_ok in Hs as (S1 & _). rewrite S1; [done|]. intros Hf.
    apply elem_of_list_fmap in Hf as ([j to] & -> & Hf). by destruct (C3 _ _ Hf) as [Hj _].
  - split; [done|]. apply remove_ok in Hr as (_ & Hst & _).
    destruct Hcc as [(_ & Hl & _)|(d2 & _ & _ & -> & _)]; [|done].
    apply send_ok in Hl as (S1 & _). rewrite nodup_fst in S1. rewrite S1; [done|]. intros Hi.
    pose proof (fstaked_in _ _ _ (Hst id Hi)). pose proof (ctimes_pos (f_claims s) id). lia.
  - split; [done|]. apply send_ok in Hs as (S1 & _). rewrite nodup_fst in S1. rewrite S1; [done|]. intros Hi.
    assert (1 <= times (map nc_id out) id) as Ht by by apply times_in.
    unfold times in Ht. rewrite lsum_map in Ht.
    pose proof (ctimes_ge (f_claims s) x id).
    pose proof (lsum_filter_split (fun c => one (nc_id c =? id)%N) (nmature b) (nclaims_of (f_claims s) x)) as Hf.
    fold out in Hf.
    assert (0 <= lsum (fun c => one (nc_id c =? id)%N) (List.filter (fun c => negb (nmature b c)) (nclaims_of (f_claims s) x)))
      by (apply lsum_nonneg; intros; apply one_pos). lia.
  - split; [done|]. destruct (decide (id = i)) as [->|]; [done|]. by rewrite Hw.
Qed.
Lemma c87_can_stake b s l id a :
  freached b s l -> kept l -> f_prep s !! id = Some a -> f_owner s !! id = Some (f_self s) ->
  a <> f_self s -> fcount_all s < U128_MAX ->
  exists s' subs, f_handle s b a (FConfirm [id]) = Ok (s', subs) /\
    f_staked s' !! (a, id) = Some tt /\ fcount s' a = fcount s a + 1.
Proof.
  intros HR HK Hp Ho Ha Hmax. pose proof (freached_kinv _ _ _ HR HK) as HI.
  pose proof (freached_linv _ _ _ HR) as HL. pose proof (ledger_le _ _ _ a HL) as Hle.
  rewrite (ki_all _ HI) in Hmax. pose proof (ki_prep _ HI _ _ Hp) as H0.
  unfold f_handle. rewrite (proj2 (N.eqb_neq _ _) Ha). cbn [negb]. unfold f_confirm.
  change (remove_dups [id]) with [id]. cbn [forallb length].
  rewrite Hp, Ho, !bool_decide_eq_true_2 by done. cbn [andb]. change (Z.of_nat 1) with 1.
  rewrite !add128_eq by lia. do 2 eexists. split; [done|]. cbn.
  split; [by rewrite lookup_insert|]. unfold fcount. cbn. rewrite msum_insert_new.
  - cbn. rewrite N.eqb_refl. cbn. lia.
  - destruct (f_staked s !! (a, id)) as [[]|] eqn:E; [|done]. apply fstaked_in in E.
    pose proof (ctimes_pos (f_claims s) id). lia.
Qed.
Lemma c87_can_cancel b s l id a :
  freached b s l -> f_prep s !! id = Some a -> f_owner s !! id = Some (f_self s) ->
  a <> f_self s ->
  exists s', f_handle s b a (FCancel [id] None) = Ok (s', [FPay a id]) /\
    f_owner s' !! id = Some a /\ f_prep s' !! id = None.
Proof.
  intros HR Hp Ho Ha.
  unfold f_handle. rewrite (proj2 (N.eqb_neq _ _) Ha). cbn [negb]. unfold f_cancel.
  assert ((if (a =? f_dao s)%N then f_cancel_dao s [id] None else f_cancel_other s a [id]) = Ok [(id, a)]) as ->.
  { destruct (a =? f_dao s)%N; cbn; rewrite Ho, Hp.
    - by rewrite bool_decide_eq_true_2.
    - rewrite (bool_decide_eq_true_2 (Some a = Some a)) by done. rewrite orb_true_r.
      by rewrite bool_decide_eq_true_2. }
  cbn [f_send]. rewrite bool_decide_eq_true_2 by done. eexists. split; [done|]. cbn.
  by rewrite lookup_insert, lookup_delete.
Qed.
