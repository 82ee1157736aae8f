(** Claims about a proposal module together with a staking voting module. *)
From Verif Require Import Base BaseProofs Exec ExecProofs Plain PlainProofs VotingModel VotingSpec
  HooksModel StoreModel StoreProofs LedgerProofs ActiveModel Compose ComposeProofs JointModel JointSpec JointProofs.
From Verif Require SingleModel SingleSpec SingleProofs SingleTally SingleFinal SingleClaims
  MultModel MultSpec MultProofs MultTally MultFinal MultClaims CondModel CondSpec CondProofs CondClaims
  TokModel TokSpec TokProofs TokClaims StakeModel StakeSpec StakeProofs StakeClaims
  NftModel NftSpec NftProofs NftClaims.

(** ** For any voting module with stable, sensible answers *)
Section any.
  Context {T MV XV : Type}.
  Variable handle_v : T -> block -> addr -> MV -> result (T * list XV).
  Variable power : T -> addr -> Z -> Z.
  Variable total : T -> Z -> Z.
  Variable active : T -> block -> Z -> bool.
  Variable vreached : block -> T -> log T MV XV -> Prop.
  Hypothesis v_stable : forall t b a m t' subs h,
    handle_v t b a m = Ok (t', subs) -> h <= height b ->
    (forall a', power t' a' h = power t a' h) /\ total t' h = total t h.
  Hypothesis v_app : forall b t l b' t' l',
    vreached b t l -> leads handle_v b t b' t' l' -> vreached b' t' (l ++ l').
  Hypothesis v_sane : forall b t l, vreached b t l ->
    (forall a h, 0 <= power t a h) /\ (forall h, total t h <= U128_MAX) /\
    (forall h vs, NoDup vs -> lsum (fun a => power t a h) vs <= total t h).
  (** What is held when a block begins is what is reported for its height. *)
  Variable hold : T -> addr -> Z.
  Variable hold_all : T -> Z.
  Hypothesis v_reported : forall b1 t1 l1 b' b2 t2 l2 h,
    vreached b1 t1 l1 -> height b1 < h -> block_le b1 b' -> h <= height b' ->
    leads handle_v b' t1 b2 t2 l2 ->
    (forall a, power t2 a h = hold t1 a) /\ total t2 h = hold_all t1.

  Lemma leads_stable b t b' t' l h :
    leads handle_v b t b' t' l -> h <= height b ->
    (forall a, power t' a h = power t a h) /\ total t' h = total t h.
  Proof.
    intros HL Hh. revert HL.
    apply (leads_rel_from handle_v (fun _ _ => True) ltac:(done) ltac:(done)
      (fun t t' => (forall a, power t' a h = power t a h) /\ total t' h = total t h)); [done| | |done].
    - intros x y z [P1 P2] [Q1 Q2]. split; [intros; by rewrite Q1, P1|by rewrite Q2, P2].
    - intros b1 t1 a m t2 subs [Hb _] _ H. eapply v_stable; [exact H|lia].
  Qed.

  (** *** Single *)
  Notation sreached := (single_reached handle_v power total active vreached).
  Notation slater := (single_later handle_v power total active).
  Notation sask := (single_ask power total).
  Lemma j_single_sees d b s t l :
    sreached d b s t l ->
    SingleSpec.sane (sask t) d /\ SingleSpec.reached_for (sask t) d b s (seen_p (single_look active) l).
  Proof.
    intros HR. split; [by eapply single_sane|]. eapply single_part; eauto. apply sagree_refl.
  Qed.
  Lemma j_single_tally d b s t l id p :
    sreached d b s t l -> SingleModel.s_props s !! id = Some p ->
    (forall v, SingleSpec.tally_of p v = SingleSpec.ballot_total s id v) /\
    (forall a bl, SingleModel.s_ballots s !! (id, a) = Some bl ->
       SingleModel.bl_power bl = power t a (SingleModel.p_start p) /\ 0 < SingleModel.bl_power bl) /\
    SingleModel.p_total p = total t (SingleModel.p_start p) /\
    SingleSpec.tally_of p Yes + SingleSpec.tally_of p No + SingleSpec.tally_of p Abstain
      <= SingleModel.p_total p.
  Proof.
    intros HR Hp. destruct (j_single_sees _ _ _ _ _ HR) as [HS HF].
    destruct (SingleClaims.c01_powers _ _ _ _ _ _ _ HS HF Hp) as (A & B & C).
    split; [|done]. intros v. eapply SingleClaims.c01_tally; [|done].
    by eapply SingleClaims.reached_for_reached.
  Qed.
  Lemma j_single_electorate d b1 s1 t1 l1 b' b2 s2 t2 l2 id p :
    sreached d b1 s1 t1 l1 -> block_le b1 b' -> slater d b' s1 t1 b2 s2 t2 l2 ->
    SingleModel.s_props s2 !! id = Some p ->
    height b1 < SingleModel.p_start p <= height b' ->
    SingleModel.p_total p = hold_all t1 /\
    (forall a, power t2 a (SingleModel.p_start p) = hold t1 a) /\
    forall a bl, SingleModel.s_ballots s2 !! (id, a) = Some bl ->
      SingleModel.bl_power bl = hold t1 a.
  Proof.
    intros HR Hb HL Hp Hh.
    assert (sreached d b' s1 t1 l1) as HR'.
    { destruct HR as (b0 & s0 & t0 & l0 & h & H). exists b0, s0, t0, l0, h.
      repeat (split; [apply H|]). eapply block_le_trans; [apply H|done]. }
    pose proof (single_app _ _ _ _ _ _ _ _ _ _ _ _ _ _ HR' HL) as HR2.
    destruct (single_votes _ _ _ _ _ v_app _ _ _ _ _ HR) as [lv HV].
    destruct (v_reported _ _ _ _ _ _ _ (SingleModel.p_start p) HV ltac:(lia) Hb ltac:(lia)
      (single_later_leads _ _ _ _ _ _ _ _ _ _ _ _ HL)) as [A B].
    destruct (j_single_tally _ _ _ _ _ _ _ HR2 Hp) as (_ & D & E & _).
    rewrite E, B. split; [done|]. split; [done|]. intros a bl Hbl.
    destruct (D _ _ Hbl) as [-> _]. done.
  Qed.
  Lemma j_single_same d b s t l b' t' l' bx a m :
    sreached d b s t l -> leads handle_v b t b' t' l' -> not_propose m ->
    SingleModel.handle (sask t') s bx a m = SingleModel.handle (sask t) s bx a m.
  Proof.
    intros HR HL Hm. pose proof (single_started _ _ _ _ _ v_stable v_app v_sane _ _ _ _ _ HR) as HK.
    assert (forall id p a', SingleModel.s_props s !! id = Some p ->
      power t' a' (SingleModel.p_start p) = power t a' (SingleModel.p_start p)) as Hs.
    { intros id p a' Hp. by apply (leads_stable _ _ _ _ _ _ HL (HK _ _ Hp)). }
    destruct m as [pm|id v r|id r|id|id|id|c|i|h|h|h|h]; try done; cbn.
    - unfold SingleModel.execute_vote. destruct (SingleModel.s_props s !! id) as [p|] eqn:E; [|done].
      cbn. by rewrite (Hs _ _ _ E).
    - unfold SingleModel.execute_execute. destruct (SingleModel.s_props s !! id) as [p|] eqn:E; [|done].
      unfold SingleModel.sender_can_execute. cbn. by rewrite (Hs _ _ _ E).
  Qed.
  Lemma j_single_rejected d b s t l id st b' s' t' l' :
    sreached d b s t l -> slater d b s t b' s' t' l' ->
    SingleModel.query_status s b id = Ok st -> SingleSpec.rejected_like st ->
    exists st', SingleModel.query_status s' b' id = Ok st' /\ SingleSpec.rejected_like st'.
  Proof.
    intros HR HL Hq Hst.
    destruct (single_sees_later _ _ _ _ _ v_stable v_app v_sane _ _ _ _ _ _ _ _ _ HR HL) as (_ & HS & A & B).
    exact (SingleClaims.c05_final _ _ _ _ _ _ _ _ _ _ HS A Hq Hst B).
  Qed.

  (** *** Multiple *)
  Notation mreached := (mult_reached handle_v power total active vreached).
  Notation mlater := (mult_later handle_v power total active).
  Notation mask := (mult_ask power total).
  Lemma j_mult_sees d b s t l :
    mreached d b s t l ->
    MultSpec.sane (mask t) d /\ MultSpec.reached_for (mask t) d b s (seen_p (mult_look active) l).
  Proof.
    intros HR. split; [by eapply mult_sane|]. eapply mult_part; eauto. apply magree_refl.
  Qed.
  Lemma j_mult_tally d b s t l id p :
    mreached d b s t l -> MultModel.s_props s !! id = Some p ->
    (forall v, MultSpec.tally_of p v = MultSpec.ballot_total s id v) /\
    (forall a bl, MultModel.s_ballots s !! (id, a) = Some bl ->
       MultModel.bl_power bl = power t a (MultModel.p_start p) /\ 0 < MultModel.bl_power bl) /\
    MultModel.p_total p = total t (MultModel.p_start p) /\
    MultSpec.wsum (MultModel.p_votes p) <= MultModel.p_total p.
  Proof.
    intros HR Hp. destruct (j_mult_sees _ _ _ _ _ HR) as [HS HF].
    destruct (MultClaims.c22_powers _ _ _ _ _ _ _ HS HF Hp) as (A & C).
    destruct (mult_total_made _ _ _ _ _ _ _ HS HF Hp) as (b0 & Hb0 & Et).
    destruct (MultClaims.c22_tally _ _ _ _ _ _ (MultClaims.reached_for_reached _ _ _ _ _ HF) Hp) as (_ & D & _).
    split; [done|]. split; [done|]. split; [|done]. rewrite Et, <- Hb0. done.
  Qed.
  Lemma j_mult_electorate d b1 s1 t1 l1 b' b2 s2 t2 l2 id p :
    mreached d b1 s1 t1 l1 -> block_le b1 b' -> mlater d b' s1 t1 b2 s2 t2 l2 ->
    MultModel.s_props s2 !! id = Some p ->
    height b1 < MultModel.p_start p <= height b' ->
    MultModel.p_total p = hold_all t1 /\
    (forall a, power t2 a (MultModel.p_start p) = hold t1 a) /\
    forall a bl, MultModel.s_ballots s2 !! (id, a) = Some bl ->
      MultModel.bl_power bl = hold t1 a.
  Proof.
    intros HR Hb HL Hp Hh.
    assert (mreached d b' s1 t1 l1) as HR'.
    { destruct HR as (b0 & s0 & t0 & l0 & h & H). exists b0, s0, t0, l0, h.
      repeat (split; [apply H|]). eapply block_le_trans; [apply H|done]. }
    pose proof (mult_app _ _ _ _ _ _ _ _ _ _ _ _ _ _ HR' HL) as HR2.
    destruct (mult_votes _ _ _ _ _ v_app _ _ _ _ _ HR) as [lv HV].
    destruct (v_reported _ _ _ _ _ _ _ (MultModel.p_start p) HV ltac:(lia) Hb ltac:(lia)
      (mult_later_leads _ _ _ _ _ _ _ _ _ _ _ _ HL)) as [A B].
    destruct (j_mult_tally _ _ _ _ _ _ _ HR2 Hp) as (_ & D & E & _).
    rewrite E, B. split; [done|]. split; [done|]. intros a bl Hbl.
    destruct (D _ _ Hbl) as [-> _]. done.
  Qed.
  Lemma j_mult_same d b s t l b' t' l' bx a m :
    mreached d b s t l -> leads handle_v b t b' t' l' -> mnot_propose m ->
    MultModel.handle (mask t') s bx a m = MultModel.handle (mask t) s bx a m.
  Proof.
    intros HR HL Hm. pose proof (mult_started _ _ _ _ _ v_stable v_app v_sane _ _ _ _ _ HR) as HK.
    assert (forall id p a', MultModel.s_props s !! id = Some p ->
      power t' a' (MultModel.p_start p) = power t a' (MultModel.p_start p)) as Hs.
    { intros id p a' Hp. by apply (leads_stable _ _ _ _ _ _ HL (HK _ _ Hp)). }
    destruct m as [pm|id v r|id r|id|id|id|c|i|h|h|h|h]; try done; cbn.
    - unfold MultModel.execute_vote. destruct (MultModel.s_props s !! id) as [p|] eqn:E; [|done].
      cbn. by rewrite (Hs _ _ _ E).
    - unfold MultModel.execute_execute. destruct (MultModel.s_props s !! id) as [p|] eqn:E; [|done].
      unfold MultModel.sender_can_execute. cbn. by rewrite (Hs _ _ _ E).
  Qed.
  Lemma j_mult_final d b s t l id p st b' s' t' l' :
    mreached d b s t l -> mlater d b s t b' s' t' l' ->
    MultModel.s_props s !! id = Some p -> MultModel.query_status s b id = Ok st ->
    (MultSpec.passed_like st ->
     exists st' p' i, MultModel.query_status s' b' id = Ok st' /\
       (MultSpec.passed_like st' \/ st' = Vetoed) /\ MultModel.s_props s' !! id = Some p' /\
       MultSpec.chosen (MultModel.p_quorum p) (MultModel.p_total p) (MultModel.p_votes p) i /\
       MultSpec.chosen (MultModel.p_quorum p) (MultModel.p_total p) (MultModel.p_votes p') i) /\
    (MultSpec.rejected_like st ->
     exists st', MultModel.query_status s' b' id = Ok st' /\ MultSpec.rejected_like st').
  Proof.
    intros HR HL Hp Hq.
    destruct (mult_sees_later _ _ _ _ _ v_stable v_app v_sane _ _ _ _ _ _ _ _ _ HR HL) as (_ & HS & A & B).
    split; intros Hst.
    - exact (MultClaims.c23_final _ _ _ _ _ _ _ _ _ _ _ HS A Hp Hq Hst B).
    - exact (MultClaims.c24_final _ _ _ _ _ _ _ _ _ _ HS A Hq Hst B).
  Qed.

  (** *** Condorcet *)
  Notation creached := (cond_reached handle_v power total vreached).
  Notation clater := (cond_later handle_v power total).
  Notation cask := (cond_ask power total).
  Lemma j_cond_tally b s t l id ta p :
    creached b s t l -> CondModel.s_tallies s !! id = Some ta -> CondModel.s_props s !! id = Some p ->
    CondModel.p_total p = total t (CondModel.t_start ta) /\
    msum (fun (k : Z * addr) _ => if k.1 =? id then power t k.2 (CondModel.t_start ta) else 0)
      (CondModel.s_votes s) + CondModel.t_outstanding ta = CondModel.p_total p /\
    0 <= CondModel.t_outstanding ta /\
    forall x y, 0 <= x < CondModel.m_n (CondModel.t_m ta) -> 0 <= y < CondModel.m_n (CondModel.t_m ta) ->
      x <> y -> exists c, CondModel.get (CondModel.t_m ta) x y = Ok c /\
        CondSpec.val c =
        msum (fun (k : Z * addr) v => if k.1 =? id then power t k.2 (CondModel.t_start ta) * CondSpec.sg v x y else 0)
          (CondModel.s_votes s).
  Proof.
    intros HR Ht Hp. destruct (cond_sane _ _ _ active _ v_stable v_app v_sane _ _ _ _ HR) as [HT HC].
    pose proof (cond_part _ _ _ active _ v_stable _ _ _ _ _ HR (cagree_refl _ _)) as HF.
    destruct (CondClaims.reached_get _ _ _ _ _ _ HT HF Ht) as (p' & Hp' & HPO & _).
    rewrite Hp in Hp'. injection Hp' as <-.
    assert (CondSpec.start_of s id = CondModel.t_start ta) as Es.
    { unfold CondSpec.start_of. by rewrite Ht. }
    split; [|split; [|split]].
    - destruct (CondProofs.po_tnow _ _ _ _ _ _ HPO) as (b0 & Hb0 & E). cbn in E. by rewrite E, Hb0.
    - pose proof (CondProofs.po_out _ _ _ _ _ _ HPO) as E. unfold CondSpec.voted_power in E.
      rewrite Es in E. cbn in E. lia.
    - apply (CondProofs.po_out0 _ _ _ _ _ _ HPO).
    - intros x y Hx Hy Hne.
      destruct (CondClaims.c27_margins _ _ _ _ _ _ x y HT HF Ht Hx Hy Hne) as (c & Hc & Hv).
      exists c. split; [done|]. rewrite Hv. unfold CondSpec.margin. by rewrite Es.
  Qed.
  Lemma j_cond_electorate b1 s1 t1 l1 b' b2 s2 t2 l2 id ta p :
    creached b1 s1 t1 l1 -> block_le b1 b' -> clater b' s1 t1 b2 s2 t2 l2 ->
    CondModel.s_tallies s2 !! id = Some ta -> CondModel.s_props s2 !! id = Some p ->
    height b1 < CondModel.t_start ta <= height b' ->
    CondModel.p_total p = hold_all t1 /\
    forall x y, 0 <= x < CondModel.m_n (CondModel.t_m ta) -> 0 <= y < CondModel.m_n (CondModel.t_m ta) ->
      x <> y -> exists c, CondModel.get (CondModel.t_m ta) x y = Ok c /\
        CondSpec.val c =
        msum (fun (k : Z * addr) v => if k.1 =? id then hold t1 k.2 * CondSpec.sg v x y else 0)
          (CondModel.s_votes s2).
  Proof.
    intros HR Hb HL Ht Hp Hh.
    assert (creached b' s1 t1 l1) as HR'.
    { destruct HR as (b0 & s0 & t0 & l0 & h & H). exists b0, s0, t0, l0, h.
      repeat (split; [apply H|]). eapply block_le_trans; [apply H|done]. }
    pose proof (cond_app _ _ _ active _ _ _ _ _ _ _ _ _ HR' HL) as HR2.
    destruct (cond_votes _ _ _ active _ v_app _ _ _ _ HR) as [lv HV].
    destruct (v_reported _ _ _ _ _ _ _ (CondModel.t_start ta) HV ltac:(lia) Hb ltac:(lia)
      (cond_later_leads _ _ _ active _ _ _ _ _ _ _ HL)) as [A B].
    destruct (j_cond_tally _ _ _ _ _ _ _ HR2 Ht Hp) as (E & _ & _ & D).
    rewrite E, B. split; [done|]. intros x y Hx Hy Hne.
    destruct (D x y Hx Hy Hne) as (c & Hc & Hv). exists c. split; [done|]. rewrite Hv.
    apply msum_ext. intros k v _. by rewrite A.
  Qed.
  Lemma j_cond_same b s t l b' t' l' bx a m :
    creached b s t l -> leads handle_v b t b' t' l' -> cnot_propose m ->
    CondModel.handle (cask t') s bx a m = CondModel.handle (cask t) s bx a m.
  Proof.
    intros HR HL Hm. pose proof (cond_started _ _ _ _ _ _ _ _ HR) as HK.
    assert (forall id ta a', CondModel.s_tallies s !! id = Some ta ->
      power t' a' (CondModel.t_start ta) = power t a' (CondModel.t_start ta)) as Hs.
    { intros id ta a' Ht. by apply (leads_stable _ _ _ _ _ _ HL (HK _ _ Ht)). }
    destruct m as [ch|id v|id|id|c]; try done; cbn.
    - unfold CondModel.execute_vote. destruct (CondModel.s_tallies s !! id) as [ta|] eqn:E; [|done].
      cbn. by rewrite (Hs _ _ _ E).
    - unfold CondModel.execute_execute. destruct (CondModel.s_tallies s !! id) as [ta|] eqn:E; [|done].
      cbn. by rewrite (Hs _ _ _ E).
  Qed.
End any.
(** ** Instances *)
Lemma tok_stable t b a m t' subs h :
  TokModel.t_handle t b a m = Ok (t', subs) -> h <= height b ->
  (forall a', tpow t' a' h = tpow t a' h) /\ ttot t' h = ttot t h.
Proof. intros H Hh. exact (TokProofs.tat_call _ _ _ _ _ _ _ H Hh). Qed.
Lemma tok_sane b t l : TokSpec.treached b t l ->
  (forall a h, 0 <= tpow t a h) /\ (forall h, ttot t h <= U128_MAX) /\
  (forall h vs, NoDup vs -> lsum (fun a => tpow t a h) vs <= ttot t h).
Proof.
  intros HR. split; [|split].
  - intros a h. by apply (TokClaims.c41_any_voters _ _ _ (Block 0 0) h [] HR (NoDup_nil_2)).
  - intros h. by apply (TokClaims.c41_any_voters _ _ _ (Block 0 0) h [] HR (NoDup_nil_2)).
  - intros h vs Hn. by apply (TokClaims.c41_any_voters _ _ _ (Block 0 0) h vs HR Hn).
Qed.
Lemma tok_reported b1 t1 l1 b' b2 t2 l2 h :
  TokSpec.treached b1 t1 l1 -> height b1 < h -> block_le b1 b' -> h <= height b' ->
  leads TokModel.t_handle b' t1 b2 t2 l2 ->
  (forall a, tpow t2 a h = TokSpec.tstaked t1 a) /\ ttot t2 h = TokSpec.ttotal t1.
Proof. intros. by eapply TokClaims.c41_reported. Qed.
Lemma cw20_stable t b a m t' subs h :
  StakeModel.k_handle t b a m = Ok (t', subs) -> h <= height b ->
  (forall a', kpow t' a' h = kpow t a' h) /\ ktot t' h = ktot t h.
Proof. intros H Hh. exact (StakeClaims.at_call _ _ _ _ _ _ _ H Hh). Qed.
Lemma cw20_sane b t l : StakeSpec.kreached b t l ->
  (forall a h, 0 <= kpow t a h) /\ (forall h, ktot t h <= U128_MAX) /\
  (forall h vs, NoDup vs -> lsum (fun a => kpow t a h) vs <= ktot t h).
Proof.
  intros HR. split; [|split].
  - intros a h. by apply (StakeClaims.c39_any_voters _ _ _ (Block 0 0) h [] HR (NoDup_nil_2)).
  - intros h. by apply (StakeClaims.c39_any_voters _ _ _ (Block 0 0) h [] HR (NoDup_nil_2)).
  - intros h vs Hn. by apply (StakeClaims.c39_any_voters _ _ _ (Block 0 0) h vs HR Hn).
Qed.
Lemma cw20_reported b1 t1 l1 b' b2 t2 l2 h :
  StakeSpec.kreached b1 t1 l1 -> height b1 < h -> block_le b1 b' -> h <= height b' ->
  leads StakeModel.k_handle b' t1 b2 t2 l2 ->
  (forall a, kpow t2 a h = StakeSpec.staked t1 a) /\ ktot t2 h = StakeSpec.total_staked t1.
Proof. intros. by eapply StakeClaims.c39_reported. Qed.
Lemma nft_stable t b a m t' subs h :
  NftModel.n_handle t b a m = Ok (t', subs) -> h <= height b ->
  (forall a', npow t' a' h = npow t a' h) /\ ntot t' h = ntot t h.
Proof. intros H Hh. exact (NftProofs.nat_call _ _ _ _ _ _ _ H Hh). Qed.
Lemma nft_sane b t l : NftSpec.nreached b t l ->
  (forall a h, 0 <= npow t a h) /\ (forall h, ntot t h <= U128_MAX) /\
  (forall h vs, NoDup vs -> lsum (fun a => npow t a h) vs <= ntot t h).
Proof.
  intros HR. split; [|split].
  - intros a h. by apply (NftClaims.c43_any_voters _ _ _ (Block 0 0) h [] HR (NoDup_nil_2)).
  - intros h. by apply (NftClaims.c43_any_voters _ _ _ (Block 0 0) h [] HR (NoDup_nil_2)).
  - intros h vs Hn. by apply (NftClaims.c43_any_voters _ _ _ (Block 0 0) h vs HR Hn).
Qed.
Lemma nft_reported b1 t1 l1 b' b2 t2 l2 h :
  NftSpec.nreached b1 t1 l1 -> height b1 < h -> block_le b1 b' -> h <= height b' ->
  leads NftModel.n_handle b' t1 b2 t2 l2 ->
  (forall a, npow t2 a h = NftSpec.ncount t1 a) /\ ntot t2 h = NftSpec.ncount_all t1.
Proof. intros. by eapply NftClaims.c43_reported. Qed.
Lemma c42_tok_single_tally d b s t l id p :
  single_on_tok d b s t l -> SingleModel.s_props s !! id = Some p ->
  (forall v, SingleSpec.tally_of p v = SingleSpec.ballot_total s id v) /\
  (forall a bl, SingleModel.s_ballots s !! (id, a) = Some bl ->
     SingleModel.bl_power bl = tpow t a (SingleModel.p_start p) /\ 0 < SingleModel.bl_power bl) /\
  SingleModel.p_total p = ttot t (SingleModel.p_start p) /\
  SingleSpec.tally_of p Yes + SingleSpec.tally_of p No + SingleSpec.tally_of p Abstain
    <= SingleModel.p_total p.
Proof. exact (j_single_tally TokModel.t_handle tpow ttot tact TokSpec.treached tok_stable TokProofs.treached_app tok_sane _ _ _ _ _ _ _). Qed.
Lemma c42_tok_single_electorate d b1 s1 t1 l1 b' b2 s2 t2 l2 id p :
  single_on_tok d b1 s1 t1 l1 -> block_le b1 b' -> single_on_tok_later d b' s1 t1 b2 s2 t2 l2 ->
  SingleModel.s_props s2 !! id = Some p ->
  height b1 < SingleModel.p_start p <= height b' ->
  SingleModel.p_total p = TokSpec.ttotal t1 /\
  (forall a, tpow t2 a (SingleModel.p_start p) = TokSpec.tstaked t1 a) /\
  forall a bl, SingleModel.s_ballots s2 !! (id, a) = Some bl ->
    SingleModel.bl_power bl = TokSpec.tstaked t1 a.
Proof. exact (j_single_electorate TokModel.t_handle tpow ttot tact TokSpec.treached tok_stable TokProofs.treached_app tok_sane TokSpec.tstaked TokSpec.ttotal tok_reported _ _ _ _ _ _ _ _ _ _ _ _). Qed.
Lemma c42_tok_single_same d b s t l b' t' l' bx a m :
  single_on_tok d b s t l -> leads TokModel.t_handle b t b' t' l' -> not_propose m ->
  SingleModel.handle (single_ask tpow ttot t') s bx a m = SingleModel.handle (single_ask tpow ttot t) s bx a m.
Proof. exact (j_single_same TokModel.t_handle tpow ttot tact TokSpec.treached tok_stable TokProofs.treached_app tok_sane TokSpec.tstaked TokSpec.ttotal tok_reported _ _ _ _ _ _ _ _ _ _ _). Qed.
Lemma c42_tok_single_rejected d b s t l id st b' s' t' l' :
  single_on_tok d b s t l -> single_on_tok_later d b s t b' s' t' l' ->
  SingleModel.query_status s b id = Ok st -> SingleSpec.rejected_like st ->
  exists st', SingleModel.query_status s' b' id = Ok st' /\ SingleSpec.rejected_like st'.
Proof. exact (j_single_rejected TokModel.t_handle tpow ttot tact TokSpec.treached tok_stable TokProofs.treached_app tok_sane _ _ _ _ _ _ _ _ _ _ _). Qed.
Lemma c42_tok_mult_tally d b s t l id p :
  mult_on_tok d b s t l -> MultModel.s_props s !! id = Some p ->
  (forall v, MultSpec.tally_of p v = MultSpec.ballot_total s id v) /\
  (forall a bl, MultModel.s_ballots s !! (id, a) = Some bl ->
     MultModel.bl_power bl = tpow t a (MultModel.p_start p) /\ 0 < MultModel.bl_power bl) /\
  MultModel.p_total p = ttot t (MultModel.p_start p) /\
  MultSpec.wsum (MultModel.p_votes p) <= MultModel.p_total p.
Proof. exact (j_mult_tally TokModel.t_handle tpow ttot tact TokSpec.treached tok_stable TokProofs.treached_app tok_sane _ _ _ _ _ _ _). Qed.
Lemma c42_tok_mult_electorate d b1 s1 t1 l1 b' b2 s2 t2 l2 id p :
  mult_on_tok d b1 s1 t1 l1 -> block_le b1 b' -> mult_on_tok_later d b' s1 t1 b2 s2 t2 l2 ->
  MultModel.s_props s2 !! id = Some p ->
  height b1 < MultModel.p_start p <= height b' ->
  MultModel.p_total p = TokSpec.ttotal t1 /\
  (forall a, tpow t2 a (MultModel.p_start p) = TokSpec.tstaked t1 a) /\
  forall a bl, MultModel.s_ballots s2 !! (id, a) = Some bl ->
    MultModel.bl_power bl = TokSpec.tstaked t1 a.
Proof. exact (j_mult_electorate TokModel.t_handle tpow ttot tact TokSpec.treached tok_stable TokProofs.treached_app tok_sane TokSpec.tstaked TokSpec.ttotal tok_reported _ _ _ _ _ _ _ _ _ _ _ _). Qed.
Lemma c42_tok_mult_same d b s t l b' t' l' bx a m :
  mult_on_tok d b s t l -> leads TokModel.t_handle b t b' t' l' -> mnot_propose m ->
  MultModel.handle (mult_ask tpow ttot t') s bx a m = MultModel.handle (mult_ask tpow ttot t) s bx a m.
Proof. exact (j_mult_same TokModel.t_handle tpow ttot tact TokSpec.treached tok_stable TokProofs.treached_app tok_sane TokSpec.tstaked TokSpec.ttotal tok_reported _ _ _ _ _ _ _ _ _ _ _). Qed.
Lemma c42_tok_mult_final d b s t l id p st b' s' t' l' :
  mult_on_tok d b s t l -> mult_on_tok_later d b s t b' s' t' l' ->
  MultModel.s_props s !! id = Some p -> MultModel.query_status s b id = Ok st ->
  (MultSpec.passed_like st ->
   exists st' p' i, MultModel.query_status s' b' id = Ok st' /\
     (MultSpec.passed_like st' \/ st' = Vetoed) /\ MultModel.s_props s' !! id = Some p' /\
     MultSpec.chosen (MultModel.p_quorum p) (MultModel.p_total p) (MultModel.p_votes p) i /\
     MultSpec.chosen (MultModel.p_quorum p) (MultModel.p_total p) (MultModel.p_votes p') i) /\
  (MultSpec.rejected_like st ->
   exists st', MultModel.query_status s' b' id = Ok st' /\ MultSpec.rejected_like st').
Proof. exact (j_mult_final TokModel.t_handle tpow ttot tact TokSpec.treached tok_stable TokProofs.treached_app tok_sane _ _ _ _ _ _ _ _ _ _ _ _). Qed.
Lemma c42_tok_cond_tally b s t l id ta p :
  cond_on_tok b s t l -> CondModel.s_tallies s !! id = Some ta -> CondModel.s_props s !! id = Some p ->
  CondModel.p_total p = ttot t (CondModel.t_start ta) /\
  msum (fun (k : Z * addr) _ => if k.1 =? id then tpow t k.2 (CondModel.t_start ta) else 0)
    (CondModel.s_votes s) + CondModel.t_outstanding ta = CondModel.p_total p /\
  0 <= CondModel.t_outstanding ta /\
  forall x y, 0 <= x < CondModel.m_n (CondModel.t_m ta) -> 0 <= y < CondModel.m_n (CondModel.t_m ta) ->
    x <> y -> exists c, CondModel.get (CondModel.t_m ta) x y = Ok c /\
      CondSpec.val c =
      msum (fun (k : Z * addr) v => if k.1 =? id then tpow t k.2 (CondModel.t_start ta) * CondSpec.sg v x y else 0)
        (CondModel.s_votes s).
Proof. exact (j_cond_tally TokModel.t_handle tpow ttot tact TokSpec.treached tok_stable TokProofs.treached_app tok_sane TokSpec.tstaked TokSpec.ttotal tok_reported _ _ _ _ _ _ _). Qed.
Lemma c42_tok_cond_electorate b1 s1 t1 l1 b' b2 s2 t2 l2 id ta p :
  cond_on_tok b1 s1 t1 l1 -> block_le b1 b' -> cond_on_tok_later b' s1 t1 b2 s2 t2 l2 ->
  CondModel.s_tallies s2 !! id = Some ta -> CondModel.s_props s2 !! id = Some p ->
  height b1 < CondModel.t_start ta <= height b' ->
  CondModel.p_total p = TokSpec.ttotal t1 /\
  forall x y, 0 <= x < CondModel.m_n (CondModel.t_m ta) -> 0 <= y < CondModel.m_n (CondModel.t_m ta) ->
    x <> y -> exists c, CondModel.get (CondModel.t_m ta) x y = Ok c /\
      CondSpec.val c =
      msum (fun (k : Z * addr) v => if k.1 =? id then TokSpec.tstaked t1 k.2 * CondSpec.sg v x y else 0)
        (CondModel.s_votes s2).
Proof. exact (j_cond_electorate TokModel.t_handle tpow ttot tact TokSpec.treached tok_stable TokProofs.treached_app tok_sane TokSpec.tstaked TokSpec.ttotal tok_reported _ _ _ _ _ _ _ _ _ _ _ _). Qed.
Lemma c42_tok_cond_same b s t l b' t' l' bx a m :
  cond_on_tok b s t l -> leads TokModel.t_handle b t b' t' l' -> cnot_propose m ->
  CondModel.handle (cond_ask tpow ttot t') s bx a m = CondModel.handle (cond_ask tpow ttot t) s bx a m.
Proof. exact (j_cond_same TokModel.t_handle tpow ttot tact TokSpec.treached tok_stable TokProofs.treached_app tok_sane TokSpec.tstaked TokSpec.ttotal tok_reported _ _ _ _ _ _ _ _ _ _). Qed.
Lemma c42_cw20_single_tally d b s t l id p :
  single_on_cw20 d b s t l -> SingleModel.s_props s !! id = Some p ->
  (forall v, SingleSpec.tally_of p v = SingleSpec.ballot_total s id v) /\
  (forall a bl, SingleModel.s_ballots s !! (id, a) = Some bl ->
     SingleModel.bl_power bl = kpow t a (SingleModel.p_start p) /\ 0 < SingleModel.bl_power bl) /\
  SingleModel.p_total p = ktot t (SingleModel.p_start p) /\
  SingleSpec.tally_of p Yes + SingleSpec.tally_of p No + SingleSpec.tally_of p Abstain
    <= SingleModel.p_total p.
Proof. exact (j_single_tally StakeModel.k_handle kpow ktot kact StakeSpec.kreached cw20_stable StakeProofs.kreached_app cw20_sane _ _ _ _ _ _ _). Qed.
Lemma c42_cw20_single_electorate d b1 s1 t1 l1 b' b2 s2 t2 l2 id p :
  single_on_cw20 d b1 s1 t1 l1 -> block_le b1 b' -> single_on_cw20_later d b' s1 t1 b2 s2 t2 l2 ->
  SingleModel.s_props s2 !! id = Some p ->
  height b1 < SingleModel.p_start p <= height b' ->
  SingleModel.p_total p = StakeSpec.total_staked t1 /\
  (forall a, kpow t2 a (SingleModel.p_start p) = StakeSpec.staked t1 a) /\
  forall a bl, SingleModel.s_ballots s2 !! (id, a) = Some bl ->
    SingleModel.bl_power bl = StakeSpec.staked t1 a.
Proof. exact (j_single_electorate StakeModel.k_handle kpow ktot kact StakeSpec.kreached cw20_stable StakeProofs.kreached_app cw20_sane StakeSpec.staked StakeSpec.total_staked cw20_reported _ _ _ _ _ _ _ _ _ _ _ _). Qed.
Lemma c42_cw20_single_same d b s t l b' t' l' bx a m :
  single_on_cw20 d b s t l -> leads StakeModel.k_handle b t b' t' l' -> not_propose m ->
  SingleModel.handle (single_ask kpow ktot t') s bx a m = SingleModel.handle (single_ask kpow ktot t) s bx a m.
Proof. exact (j_single_same StakeModel.k_handle kpow ktot kact StakeSpec.kreached cw20_stable StakeProofs.kreached_app cw20_sane StakeSpec.staked StakeSpec.total_staked cw20_reported _ _ _ _ _ _ _ _ _ _ _). Qed.
Lemma c42_cw20_single_rejected d b s t l id st b' s' t' l' :
  single_on_cw20 d b s t l -> single_on_cw20_later d b s t b' s' t' l' ->
  SingleModel.query_status s b id = Ok st -> SingleSpec.rejected_like st ->
  exists st', SingleModel.query_status s' b' id = Ok st' /\ SingleSpec.rejected_like st'.
Proof. exact (j_single_rejected StakeModel.k_handle kpow ktot kact StakeSpec.kreached cw20_stable StakeProofs.kreached_app cw20_sane _ _ _ _ _ _ _ _ _ _ _). Qed.
Lemma c42_cw20_mult_tally d b s t l id p :
  mult_on_cw20 d b s t l -> MultModel.s_props s !! id = Some p ->
  (forall v, MultSpec.tally_of p v = MultSpec.ballot_total s id v) /\
  (forall a bl, MultModel.s_ballots s !! (id, a) = Some bl ->
     MultModel.bl_power bl = kpow t a (MultModel.p_start p) /\ 0 < MultModel.bl_power bl) /\
  MultModel.p_total p = ktot t (MultModel.p_start p) /\
  MultSpec.wsum (MultModel.p_votes p) <= MultModel.p_total p.
Proof. exact (j_mult_tally StakeModel.k_handle kpow ktot kact StakeSpec.kreached cw20_stable StakeProofs.kreached_app cw20_sane _ _ _ _ _ _ _). Qed.
Lemma c42_cw20_mult_electorate d b1 s1 t1 l1 b' b2 s2 t2 l2 id p :
  mult_on_cw20 d b1 s1 t1 l1 -> block_le b1 b' -> mult_on_cw20_later d b' s1 t1 b2 s2 t2 l2 ->
  MultModel.s_props s2 !! id = Some p ->
  height b1 < MultModel.p_start p <= height b' ->
  MultModel.p_total p = StakeSpec.total_staked t1 /\
  (forall a, kpow t2 a (MultModel.p_start p) = StakeSpec.staked t1 a) /\
  forall a bl, MultModel.s_ballots s2 !! (id, a) = Some bl ->
    MultModel.bl_power bl = StakeSpec.staked t1 a.
Proof. exact (j_mult_electorate StakeModel.k_handle kpow ktot kact StakeSpec.kreached cw20_stable StakeProofs.kreached_app cw20_sane StakeSpec.staked StakeSpec.total_staked cw20_reported _ _ _ _ _ _ _ _ _ _ _ _). Qed.
Lemma c42_cw20_mult_same d b s t l b' t' l' bx a m :
  mult_on_cw20 d b s t l -> leads StakeModel.k_handle b t b' t' l' -> mnot_propose m ->
  MultModel.handle (mult_ask kpow ktot t') s bx a m = MultModel.handle (mult_ask kpow ktot t) s bx a m.
Proof. exact (j_mult_same StakeModel.k_handle kpow ktot kact StakeSpec.kreached cw20_stable StakeProofs.kreached_app cw20_sane StakeSpec.staked StakeSpec.total_staked cw20_reported _ _ _ _ _ _ _ _ _ _ _). Qed.
Lemma c42_cw20_mult_final d b s t l id p st b' s' t' l' :
  mult_on_cw20 d b s t l -> mult_on_cw20_later d b s t b' s' t' l' ->
  MultModel.s_props s !! id = Some p -> MultModel.query_status s b id = Ok st ->
  (MultSpec.passed_like st ->
   exists st' p' i, MultModel.query_status s' b' id = Ok st' /\
     (MultSpec.passed_like st' \/ st' = Vetoed) /\ MultModel.s_props s' !! id = Some p' /\
     MultSpec.chosen (MultModel.p_quorum p) (MultModel.p_total p) (MultModel.p_votes p) i /\
     MultSpec.chosen (MultModel.p_quorum p) (MultModel.p_total p) (MultModel.p_votes p') i) /\
  (MultSpec.rejected_like st ->
   exists st', MultModel.query_status s' b' id = Ok st' /\ MultSpec.rejected_like st').
Proof. exact (j_mult_final StakeModel.k_handle kpow ktot kact StakeSpec.kreached cw20_stable StakeProofs.kreached_app cw20_sane _ _ _ _ _ _ _ _ _ _ _ _). Qed.
Lemma c42_cw20_cond_tally b s t l id ta p :
  cond_on_cw20 b s t l -> CondModel.s_tallies s !! id = Some ta -> CondModel.s_props s !! id = Some p ->
  CondModel.p_total p = ktot t (CondModel.t_start ta) /\
  msum (fun (k : Z * addr) _ => if k.1 =? id then kpow t k.2 (CondModel.t_start ta) else 0)
    (CondModel.s_votes s) + CondModel.t_outstanding ta = CondModel.p_total p /\
  0 <= CondModel.t_outstanding ta /\
  forall x y, 0 <= x < CondModel.m_n (CondModel.t_m ta) -> 0 <= y < CondModel.m_n (CondModel.t_m ta) ->
    x <> y -> exists c, CondModel.get (CondModel.t_m ta) x y = Ok c /\
      CondSpec.val c =
      msum (fun (k : Z * addr) v => if k.1 =? id then kpow t k.2 (CondModel.t_start ta) * CondSpec.sg v x y else 0)
        (CondModel.s_votes s).
Proof. exact (j_cond_tally StakeModel.k_handle kpow ktot kact StakeSpec.kreached cw20_stable StakeProofs.kreached_app cw20_sane StakeSpec.staked StakeSpec.total_staked cw20_reported _ _ _ _ _ _ _). Qed.
Lemma c42_cw20_cond_electorate b1 s1 t1 l1 b' b2 s2 t2 l2 id ta p :
  cond_on_cw20 b1 s1 t1 l1 -> block_le b1 b' -> cond_on_cw20_later b' s1 t1 b2 s2 t2 l2 ->
  CondModel.s_tallies s2 !! id = Some ta -> CondModel.s_props s2 !! id = Some p ->
  height b1 < CondModel.t_start ta <= height b' ->
  CondModel.p_total p = StakeSpec.total_staked t1 /\
  forall x y, 0 <= x < CondModel.m_n (CondModel.t_m ta) -> 0 <= y < CondModel.m_n (CondModel.t_m ta) ->
    x <> y -> exists c, CondModel.get (CondModel.t_m ta) x y = Ok c /\
      CondSpec.val c =
      msum (fun (k : Z * addr) v => if k.1 =? id then StakeSpec.staked t1 k.2 * CondSpec.sg v x y else 0)
        (CondModel.s_votes s2).
Proof. exact (j_cond_electorate StakeModel.k_handle kpow ktot kact StakeSpec.kreached cw20_stable StakeProofs.kreached_app cw20_sane StakeSpec.staked StakeSpec.total_staked cw20_reported _ _ _ _ _ _ _ _ _ _ _ _). Qed.
Lemma c42_cw20_cond_same b s t l b' t' l' bx a m :
  cond_on_cw20 b s t l -> leads StakeModel.k_handle b t b' t' l' -> cnot_propose m ->
  CondModel.handle (cond_ask kpow ktot t') s bx a m = CondModel.handle (cond_ask kpow ktot t) s bx a m.
Proof. exact (j_cond_same StakeModel.k_handle kpow ktot kact StakeSpec.kreached cw20_stable StakeProofs.kreached_app cw20_sane StakeSpec.staked StakeSpec.total_staked cw20_reported _ _ _ _ _ _ _ _ _ _). Qed.
Lemma c42_nft_single_tally d b s t l id p :
  single_on_nft d b s t l -> SingleModel.s_props s !! id = Some p ->
  (forall v, SingleSpec.tally_of p v = SingleSpec.ballot_total s id v) /\
  (forall a bl, SingleModel.s_ballots s !! (id, a) = Some bl ->
     SingleModel.bl_power bl = npow t a (SingleModel.p_start p) /\ 0 < SingleModel.bl_power bl) /\
  SingleModel.p_total p = ntot t (SingleModel.p_start p) /\
  SingleSpec.tally_of p Yes + SingleSpec.tally_of p No + SingleSpec.tally_of p Abstain
    <= SingleModel.p_total p.
Proof. exact (j_single_tally NftModel.n_handle npow ntot nact NftSpec.nreached nft_stable NftProofs.nreached_app nft_sane _ _ _ _ _ _ _). Qed.
Lemma c42_nft_single_electorate d b1 s1 t1 l1 b' b2 s2 t2 l2 id p :
  single_on_nft d b1 s1 t1 l1 -> block_le b1 b' -> single_on_nft_later d b' s1 t1 b2 s2 t2 l2 ->
  SingleModel.s_props s2 !! id = Some p ->
  height b1 < SingleModel.p_start p <= height b' ->
  SingleModel.p_total p = NftSpec.ncount_all t1 /\
  (forall a, npow t2 a (SingleModel.p_start p) = NftSpec.ncount t1 a) /\
  forall a bl, SingleModel.s_ballots s2 !! (id, a) = Some bl ->
    SingleModel.bl_power bl = NftSpec.ncount t1 a.
Proof. exact (j_single_electorate NftModel.n_handle npow ntot nact NftSpec.nreached nft_stable NftProofs.nreached_app nft_sane NftSpec.ncount NftSpec.ncount_all nft_reported _ _ _ _ _ _ _ _ _ _ _ _). Qed.
Lemma c42_nft_single_same d b s t l b' t' l' bx a m :
  single_on_nft d b s t l -> leads NftModel.n_handle b t b' t' l' -> not_propose m ->
  SingleModel.handle (single_ask npow ntot t') s bx a m = SingleModel.handle (single_ask npow ntot t) s bx a m.
Proof. exact (j_single_same NftModel.n_handle npow ntot nact NftSpec.nreached nft_stable NftProofs.nreached_app nft_sane NftSpec.ncount NftSpec.ncount_all nft_reported _ _ _ _ _ _ _ _ _ _ _). Qed.
Lemma c42_nft_single_rejected d b s t l id st b' s' t' l' :
  single_on_nft d b s t l -> single_on_nft_later d b s t b' s' t' l' ->
  SingleModel.query_status s b id = Ok st -> SingleSpec.rejected_like st ->
  exists st', SingleModel.query_status s' b' id = Ok st' /\ SingleSpec.rejected_like st'.
Proof. exact (j_single_rejected NftModel.n_handle npow ntot nact NftSpec.nreached nft_stable NftProofs.nreached_app nft_sane _ _ _ _ _ _ _ _ _ _ _). Qed.
Lemma c42_nft_mult_tally d b s t l id p :
  mult_on_nft d b s t l -> MultModel.s_props s !! id = Some p ->
  (forall v, MultSpec.tally_of p v = MultSpec.ballot_total s id v) /\
  (forall a bl, MultModel.s_ballots s !! (id, a) = Some bl ->
     MultModel.bl_power bl = npow t a (MultModel.p_start p) /\ 0 < MultModel.bl_power bl) /\
  MultModel.p_total p = ntot t (MultModel.p_start p) /\
  MultSpec.wsum (MultModel.p_votes p) <= MultModel.p_total p.
Proof. exact (j_mult_tally NftModel.n_handle npow ntot nact NftSpec.nreached nft_stable NftProofs.nreached_app nft_sane _ _ _ _ _ _ _). Qed.
Lemma c42_nft_mult_electorate d b1 s1 t1 l1 b' b2 s2 t2 l2 id p :
  mult_on_nft d b1 s1 t1 l1 -> block_le b1 b' -> mult_on_nft_later d b' s1 t1 b2 s2 t2 l2 ->
  MultModel.s_props s2 !! id = Some p ->
  height b1 < MultModel.p_start p <= height b' ->
  MultModel.p_total p = NftSpec.ncount_all t1 /\
  (forall a, npow t2 a (MultModel.p_start p) = NftSpec.ncount t1 a) /\
  forall a bl, MultModel.s_ballots s2 !! (id, a) = Some bl ->
    MultModel.bl_power bl = NftSpec.ncount t1 a.
Proof. exact (j_mult_electorate NftModel.n_handle npow ntot nact NftSpec.nreached nft_stable NftProofs.nreached_app nft_sane NftSpec.ncount NftSpec.ncount_all nft_reported _ _ _ _ _ _ _ _ _ _ _ _). Qed.
Lemma c42_nft_mult_same d b s t l b' t' l' bx a m :
  mult_on_nft d b s t l -> leads NftModel.n_handle b t b' t' l' -> mnot_propose m ->
  MultModel.handle (mult_ask npow ntot t') s bx a m = MultModel.handle (mult_ask npow ntot t) s bx a m.
Proof. exact (j_mult_same NftModel.n_handle npow ntot nact NftSpec.nreached nft_stable NftProofs.nreached_app nft_sane NftSpec.ncount NftSpec.ncount_all nft_reported _ _ _ _ _ _ _ _ _ _ _). Qed.
Lemma c42_nft_mult_final d b s t l id p st b' s' t' l' :
  mult_on_nft d b s t l -> mult_on_nft_later d b s t b' s' t' l' ->
  MultModel.s_props s !! id = Some p -> MultModel.query_status s b id = Ok st ->
  (MultSpec.passed_like st ->
   exists st' p' i, MultModel.query_status s' b' id = Ok st' /\
     (MultSpec.passed_like st' \/ st' = Vetoed) /\ MultModel.s_props s' !! id = Some p' /\
     MultSpec.chosen (MultModel.p_quorum p) (MultModel.p_total p) (MultModel.p_votes p) i /\
     MultSpec.chosen (MultModel.p_quorum p) (MultModel.p_total p) (MultModel.p_votes p') i) /\
  (MultSpec.rejected_like st ->
   exists st', MultModel.query_status s' b' id = Ok st' /\ MultSpec.rejected_like st').
Proof. exact (j_mult_final NftModel.n_handle npow ntot nact NftSpec.nreached nft_stable NftProofs.nreached_app nft_sane _ _ _ _ _ _ _ _ _ _ _ _). Qed.
Lemma c42_nft_cond_tally b s t l id ta p :
  cond_on_nft b s t l -> CondModel.s_tallies s !! id = Some ta -> CondModel.s_props s !! id = Some p ->
  CondModel.p_total p = ntot t (CondModel.t_start ta) /\
  msum (fun (k : Z * addr) _ => if k.1 =? id then npow t k.2 (CondModel.t_start ta) else 0)
    (CondModel.s_votes s) + CondModel.t_outstanding ta = CondModel.p_total p /\
  0 <= CondModel.t_outstanding ta /\
  forall x y, 0 <= x < CondModel.m_n (CondModel.t_m ta) -> 0 <= y < CondModel.m_n (CondModel.t_m ta) ->
    x <> y -> exists c, CondModel.get (CondModel.t_m ta) x y = Ok c /\
      CondSpec.val c =
      msum (fun (k : Z * addr) v => if k.1 =? id then npow t k.2 (CondModel.t_start ta) * CondSpec.sg v x y else 0)
        (CondModel.s_votes s).
Proof. exact (j_cond_tally NftModel.n_handle npow ntot nact NftSpec.nreached nft_stable NftProofs.nreached_app nft_sane NftSpec.ncount NftSpec.ncount_all nft_reported _ _ _ _ _ _ _). Qed.
Lemma c42_nft_cond_electorate b1 s1 t1 l1 b' b2 s2 t2 l2 id ta p :
  cond_on_nft b1 s1 t1 l1 -> block_le b1 b' -> cond_on_nft_later b' s1 t1 b2 s2 t2 l2 ->
  CondModel.s_tallies s2 !! id = Some ta -> CondModel.s_props s2 !! id = Some p ->
  height b1 < CondModel.t_start ta <= height b' ->
  CondModel.p_total p = NftSpec.ncount_all t1 /\
  forall x y, 0 <= x < CondModel.m_n (CondModel.t_m ta) -> 0 <= y < CondModel.m_n (CondModel.t_m ta) ->
    x <> y -> exists c, CondModel.get (CondModel.t_m ta) x y = Ok c /\
      CondSpec.val c =
      msum (fun (k : Z * addr) v => if k.1 =? id then NftSpec.ncount t1 k.2 * CondSpec.sg v x y else 0)
        (CondModel.s_votes s2).
Proof. exact (j_cond_electorate NftModel.n_handle npow ntot nact NftSpec.nreached nft_stable NftProofs.nreached_app nft_sane NftSpec.ncount NftSpec.ncount_all nft_reported _ _ _ _ _ _ _ _ _ _ _ _). Qed.
Lemma c42_nft_cond_same b s t l b' t' l' bx a m :
  cond_on_nft b s t l -> leads NftModel.n_handle b t b' t' l' -> cnot_propose m ->
  CondModel.handle (cond_ask npow ntot t') s bx a m = CondModel.handle (cond_ask npow ntot t) s bx a m.
Proof. exact (j_cond_same NftModel.n_handle npow ntot nact NftSpec.nreached nft_stable NftProofs.nreached_app nft_sane NftSpec.ncount NftSpec.ncount_all nft_reported _ _ _ _ _ _ _ _ _ _). Qed.
