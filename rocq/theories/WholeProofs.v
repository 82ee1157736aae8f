(** Proofs about a DAO with its voting module. *)
From stdpp Require Import gmap strings.
From Verif Require Import Base BaseProofs Exec ExecProofs Plain PlainProofs VotingModel VotingSpec
  HooksModel SingleModel SingleSpec SingleProofs SingleTally SingleLife CoreModel CoreSpec CoreProofs
  DaoModel DaoSpec DaoProofs DaoClaims JointModel JointProofs WholeModel WholeSpec.
From Verif Require C20Proofs ElectProofs.

(** ** Voters *)
Lemma voters_sum s id v (f : addr -> Z) :
  (forall a bl, s_ballots s !! (id, a) = Some bl -> bl_power bl = f a) ->
  ballot_total s id v = lsum f (voters s id v).
Proof.
  intros H. unfold ballot_total, voters. rewrite msum_to_list, lsum_map.
  assert (forall x, x ∈ map_to_list (s_ballots s) -> s_ballots s !! x.1 = Some x.2) as Hl.
  { intros [k bl] Hx. by apply elem_of_map_to_list. }
  revert Hl. generalize (map_to_list (s_ballots s)) as l.
  induction l as [|[[i a] bl] l IH]; intros Hl; [done|].
  cbn [lsum]. rewrite filter_cons. cbn [fst snd].
  rewrite IH by (intros; apply Hl; by right).
  destruct (decide (i = id /\ bl_vote bl = v)) as [[-> Hv]|Hn]; [|done].
  cbn [lsum fst snd]. f_equal. apply H. apply (Hl ((id, a), bl)). left.
Qed.
Lemma voters_in s id v a : a ∈ voters s id v -> exists bl, s_ballots s !! (id, a) = Some bl /\ bl_vote bl = v.
Proof.
  unfold voters. intros ([[i a'] bl] & -> & Hx)%elem_of_list_fmap.
  apply elem_of_list_filter in Hx as [[E Hv] Hx]. cbn in *. subst i.
  apply elem_of_map_to_list in Hx. by exists bl.
Qed.
Lemma voters_nodup s id v : NoDup (voters s id v).
Proof.
  unfold voters. pose proof (NoDup_fst_map_to_list (s_ballots s)) as H.
  revert H. generalize (map_to_list (s_ballots s)) as l.
  induction l as [|[[i a] bl] l IH]; intros H; [constructor|].
  rewrite fmap_cons in H. apply NoDup_cons in H as [Hn H]. specialize (IH H).
  rewrite filter_cons. cbn [fst snd].
  destruct (decide (i = id /\ bl_vote bl = v)) as [[-> Hv]|?]; [|done].
  cbn [map fst snd]. constructor; [|done]. intros ([[i' a'] bl'] & E & Hx)%elem_of_list_fmap.
  apply elem_of_list_filter in Hx as [[E' _] Hx]. cbn in *. subst i' a'.
  apply Hn. apply elem_of_list_fmap. by exists ((id, a), bl').
Qed.
Lemma voters_apart s id v v' a : v <> v' -> a ∈ voters s id v -> a ∈ voters s id v' -> False.
Proof.
  intros Hv (bl & E & H)%voters_in (bl' & E' & H')%voters_in. congruence.
Qed.

(** ** Thresholds of proposals *)
Definition all_thr (t : threshold) (s : state) : Prop :=
  forall id p, s_props s !! id = Some p -> p_thr p = t.
Lemma all_thr_save t s id p st :
  all_thr t s -> p_thr p = t -> all_thr t (save_prop s id (set_status p st)).
Proof.
  intros H E i q Hl. cbn in Hl. apply lookup_insert_Some in Hl as [[_ <-]|[_ Hl]]; [done|eauto].
Qed.
Lemma handle_thr O s b a m s' subs t :
  all_thr t s -> c_thr (s_cfg s) = t -> handle O s b a m = Ok (s', subs) -> all_thr t s'.
Proof.
  intros HA Hc H.
  assert (forall s1 i v r p a1 sb, all_thr t s1 -> execute_vote O s1 b p i v r = Ok (a1, sb) -> all_thr t a1) as HV.
  { intros s1 i v r p a1 sb H1 Hv.
    apply execute_vote_shape in Hv as (q & votes1 & st2 & H2 & _ & _ & _ & _ & -> & _).
    intros j q' Hl. cbn in Hl. apply lookup_insert_Some in Hl as [[_ <-]|[_ Hl]]; cbn; eauto. }
  destruct m; try (apply (admin_shape O s b a) in H; [|exact I];
    destruct H as (_ & _ & Hp & _); intros j q Hl; rewrite Hp in Hl; exact (HA _ _ Hl)).
  - simpl in H. apply execute_propose_shape in H
      as (proposer & st & s1 & subs2 & _ & _ & _ & _ & Hst & -> & _ & Hv).
    match type of Hv with context [State ?c ?n ?p ?b ?q ?h ?g] => assert (all_thr t (State c n p b q h g)) as H1 end.
    { intros j q' Hl. cbn in Hl. apply lookup_insert_Some in Hl as [[_ <-]|[_ Hl]]; [done|eauto]. }
    destruct (pm_vote pm) as [[v r]|]; [by eapply HV|]. by destruct Hv as [-> _].
  - simpl in H. by eapply HV.
  - simpl in H. unfold execute_update_rationale in H.
    destruct (s_ballots s !! (id, a)) as [cur|] eqn:E; [|discriminate]. by injection H as <- <-.
  - simpl in H. apply execute_execute_shape in H as (p & st & Hp & Hst & Hal & -> & _).
    apply all_thr_save; [done|exact (HA _ _ Hp)].
  - simpl in H. apply execute_veto_shape in H as (p & st & vc & Hp & Hst & _ & _ & Hal & -> & _).
    apply all_thr_save; [done|exact (HA _ _ Hp)].
  - simpl in H. apply execute_close_shape in H as (p & Hp & Hst & -> & _).
    apply all_thr_save; [done|exact (HA _ _ Hp)].
Qed.
Lemma fail_thr s b x s' t : all_thr t s -> on_fail s b x = Ok s' -> all_thr t s'.
Proof.
  intros HA H. destruct (on_fail_shape _ _ _ _ H) as [(d & id & ms & p & -> & Hp & ->)|(Hx & E1 & E2 & E3 & E4)].
  - apply all_thr_save; [done|exact (HA _ _ Hp)].
  - intros i q Hl. rewrite E1 in Hl. eauto.
Qed.
Lemma ok_thr s b x d s' t : all_thr t s -> on_ok s b x d = Ok s' -> all_thr t s'.
Proof. intros HA H. destruct x; simpl in H; injection H as <-; done. Qed.
Lemma event_thr K O s b e s' t :
  all_thr t (d_prop s) -> c_thr (s_cfg (d_prop s)) = t -> d_event K O s b e = Ok s' ->
  all_thr t (d_prop s').
Proof.
  intros HA Hc H.
  assert (forall a m rest s2, to_core s b a m rest = Ok s2 -> all_thr t (d_prop s2)) as TC.
  { intros a m rest s2 H2. unfold to_core in H2. destruct (k_execute _ _ _ _) as [[c l]|]; [|done].
    by injection H2 as <-. }
  assert (forall a m rest s2, to_prop O s b a m rest = Ok s2 -> all_thr t (d_prop s2)) as TP.
  { intros a m rest s2 H2. unfold to_prop in H2.
    destruct (handle _ _ _ _ _) as [[c l]|] eqn:E; [|done].
    injection H2 as <-. cbn. by eapply handle_thr. }
  destruct e as [a m|a m| | |a msgs| | |a]; cbn in H.
  - destruct (outside s a); [|done]. by eapply TC.
  - destruct (outside s a); [|done]. by eapply TP.
  - destruct (d_todo s) as [|[[id0 i0|[m|n]]|x0|x0] rest]; try done. by eapply TC.
  - destruct (d_todo s) as [|[[id0 i0|[m|n]]|x0|x0] rest]; try done.
    destruct (call_of K n) as [m|]; [by eapply TP|]. by injection H as <-.
  - destruct (d_todo s) as [|[[id i|x0]|x0|x0] rest]; try done.
    destruct (k_mods _ !! a); [done|]. destruct (outside s a); [|done].
    destruct (k_reply _ _ _ _) as [[c l]|]; [|done]. by injection H as <-.
  - destruct (d_todo s) as [|[|x|] rest]; try done.
    destruct x; try (by injection H as <-).
    destruct (_ =? _)%N; [by eapply TC|]. by injection H as <-.
  - destruct (d_todo s) as [|[|x|] rest]; try done.
    destruct (on_fail _ _ _) as [q|] eqn:E; [|done]. injection H as <-. by eapply fail_thr.
  - destruct (d_todo s) as [|[| |x] rest]; try done.
    destruct (on_ok _ _ _ _) as [q|] eqn:E; [|done]. injection H as <-. by eapply ok_thr.
Qed.

(** ** Answers about begun blocks *)
Lemma d_event_agree K o o' s b e :
  sstarted b (d_prop s) -> sagree b o o' -> d_event K o s b e = d_event K o' s b e.
Proof.
  intros HS HA. destruct e; cbn; try done.
  - unfold to_prop. by rewrite (sagree_call _ _ _ _ _ _ HS HA).
  - destruct (d_todo s) as [|[[id0 i0|[m|n]]|x0|x0] rest]; try done.
    destruct (call_of K n) as [m|]; [|done]. unfold to_prop. by rewrite (sagree_call _ _ _ _ _ _ HS HA).
Qed.
Lemma sstarted_event K O s b e s' :
  sstarted b (d_prop s) -> d_event K O s b e = Ok s' -> sstarted b (d_prop s').
Proof.
  intros HA H.
  assert (forall a m rest s2, to_core s b a m rest = Ok s2 -> sstarted b (d_prop s2)) as TC.
  { intros a m rest s2 H2. unfold to_core in H2. destruct (k_execute _ _ _ _) as [[c l]|]; [|done].
    by injection H2 as <-. }
  assert (forall a m rest s2, to_prop O s b a m rest = Ok s2 -> sstarted b (d_prop s2)) as TP.
  { intros a m rest s2 H2. unfold to_prop in H2.
    destruct (handle _ _ _ _ _) as [[c l]|] eqn:E; [|done].
    injection H2 as <-. cbn. by eapply sstarted_call. }
  destruct e as [a m|a m| | |a msgs| | |a]; cbn in H.
  - destruct (outside s a); [|done]. by eapply TC.
  - destruct (outside s a); [|done]. by eapply TP.
  - destruct (d_todo s) as [|[[id0 i0|[m|n]]|x0|x0] rest]; try done. by eapply TC.
  - destruct (d_todo s) as [|[[id0 i0|[m|n]]|x0|x0] rest]; try done.
    destruct (call_of K n) as [m|]; [by eapply TP|]. by injection H as <-.
  - destruct (d_todo s) as [|[[id i|x0]|x0|x0] rest]; try done.
    destruct (k_mods _ !! a); [done|]. destruct (outside s a); [|done].
    destruct (k_reply _ _ _ _) as [[c l]|]; [|done]. by injection H as <-.
  - destruct (d_todo s) as [|[|x|] rest]; try done.
    destruct x; try (by injection H as <-).
    destruct (_ =? _)%N; [by eapply TC|]. by injection H as <-.
  - destruct (d_todo s) as [|[|x|] rest]; try done.
    destruct (on_fail _ _ _) as [q|] eqn:E; [|done]. injection H as <-. by eapply sstarted_fail.
  - destruct (d_todo s) as [|[| |x] rest]; try done.
    destruct (on_ok _ _ _ _) as [q|] eqn:E; [|done]. injection H as <-. by eapply sstarted_ok.
Qed.
Lemma dleads_agree K o o' b0 s0 b s l :
  dleads K o b0 s0 b s l -> sstarted b0 (d_prop s0) -> sagree b o o' ->
  dleads K o' b0 s0 b s l /\ sstarted b (d_prop s).
Proof.
  intros H HS. induction H as [|b s l b' e s' H IH Hb Hd Hk He]; intros HA; [split; [constructor|done]|].
  destruct (IH (sagree_time _ _ _ _ Hb HA)) as [I1 I2].
  pose proof (sstarted_time _ _ _ Hb I2) as I3. split; [|by eapply sstarted_event].
  econstructor; [exact I1|done..|]. by rewrite <-(d_event_agree K o o').
Qed.

(** ** A whole history is a history of the DAO *)
Section whole.
  Context {T MV XV : Type}.
  Variable handle_v : T -> block -> addr -> MV -> result (T * list XV).
  Variable power : T -> addr -> Z -> Z.
  Variable total : T -> Z -> Z.
  Variable vreached : block -> T -> log T MV XV -> Prop.
  Hypothesis v_stable : forall t b a m t' subs h,
    handle_v t b a m = Ok (t', subs) -> h <= height b ->
    (forall a', power t' a' h = power t a' h) /\ total t' h = total t h.
  Hypothesis v_app : forall b t l b' t' l',
    vreached b t l -> leads handle_v b t b' t' l' -> vreached b' t' (l ++ l').
  Hypothesis v_sane : forall b t l, vreached b t l ->
    (forall a h, 0 <= power t a h) /\ (forall h, total t h <= U128_MAX) /\
    (forall h vs, NoDup vs -> lsum (fun a => power t a h) vs <= total t h).
  Variable hold : T -> addr -> Z.
  Variable hold_all : T -> Z.
  Hypothesis v_reported : forall b1 t1 l1 b' b2 t2 l2 h,
    vreached b1 t1 l1 -> height b1 < h -> block_le b1 b' -> h <= height b' ->
    leads handle_v b' t1 b2 t2 l2 ->
    (forall a, power t2 a h = hold t1 a) /\ total t2 h = hold_all t1.
  Variable for_v : N -> option MV.
  Variable K : codes.
  Notation ask := (single_ask power total).
  Notation wleads := (wleads handle_v power total for_v K).
  Notation wreached := (wreached handle_v power total vreached for_v K).
  Notation wstart := (wstart vreached).

  Lemma whole_sane b t l d : vreached b t l -> sane (ask t) d.
  Proof. intros H. exact (v_sane _ _ _ H). Qed.
  Lemma start_started b s : dstart b s -> sstarted b (d_prop s).
  Proof. intros (_ & _ & (_ & E & _) & _) i p Hl. rewrite E in Hl. by apply lookup_empty_Some in Hl. Qed.
  Lemma whole_votes b0 s0 b s l :
    wleads b0 s0 b s l -> exists lv, leads handle_v b0 (w_v s0) b (w_v s) lv.
  Proof.
    intros H. induction H as [|b s l b' e s' H [lv IH] Hb Hd Hk Hv He].
    { exists []. apply leads_refl, block_le_refl. }
    pose proof (leads_later _ _ _ _ _ _ _ IH Hb) as L.
    destruct e as [e|a m]; cbn in He.
    - destruct (d_event _ _ _ _ _) as [d|] eqn:E; [|done]. cbn in He.
      destruct (said for_v K (w_dao s) e) as [m|].
      + destruct (handle_v _ _ _ _) as [[t subs]|] eqn:Eh; [|done]. injection He as <-. cbn.
        exact (C20Proofs.leads_step _ _ _ _ _ _ _ _ _ _ L Eh).
      + injection He as <-. cbn. by exists lv.
    - destruct (outside _ a); [|done].
      destruct (handle_v _ _ _ _) as [[t subs]|] eqn:Eh; [|done]. injection He as <-. cbn.
      exact (C20Proofs.leads_step _ _ _ _ _ _ _ _ _ _ L Eh).
  Qed.
  Lemma whole_part b0 s0 b s l :
    sstarted b0 (d_prop (w_dao s0)) -> wleads b0 s0 b s l ->
    exists b1, block_le b1 b /\ (d_todo (w_dao s) = [] \/ b1 = b) /\
      dleads K (ask (w_v s)) b0 (w_dao s0) b1 (w_dao s) (dao_log l).
  Proof.
    intros HS H. induction H as [|b s l b' e s' H IH Hb Hd Hk Hv He].
    { exists b0. split; [apply block_le_refl|]. split; [by right|]. constructor. }
    destruct IH as (b1 & L1 & T1 & D1).
    assert (block_le b1 b') as L2 by (by eapply block_le_trans).
    assert (forall t' a m subs, handle_v (w_v s) b' a m = Ok (t', subs) ->
      sagree b' (ask (w_v s)) (ask t')) as AG.
    { intros t' a m subs Eh. by eapply (single_stable handle_v power total v_stable). }
    unfold dao_log. rewrite omap_app. destruct e as [e|a m]; cbn in He.
    - destruct (d_event _ _ _ _ _) as [d|] eqn:E; [|done]. cbn in He.
      assert (dleads K (ask (w_v s)) b0 (w_dao s0) b' d
        (dao_log l ++ [DEntry (w_dao s) b' e d])) as D2.
      { econstructor; [exact D1|done| |by apply Hk|done].
        destruct T1 as [T1| ->]; [by left|]. destruct Hd as [Hd|Hd]; [by left|by right]. }
      destruct (said for_v K (w_dao s) e) as [m|].
      + destruct (handle_v _ _ _ _) as [[t subs]|] eqn:Eh; [|done]. injection He as <-.
        exists b'. split; [apply block_le_refl|]. split; [by right|]. cbn.
        eapply dleads_agree; [exact D2|done|]. by eapply AG.
      + injection He as <-. exists b'. split; [apply block_le_refl|]. split; [by right|]. exact D2.
    - destruct (outside _ a); [|done].
      destruct (handle_v _ _ _ _) as [[t subs]|] eqn:Eh; [|done]. injection He as <-. cbn.
      rewrite app_nil_r. exists b1. split; [done|]. split.
      + destruct Hd as [Hd| ->]; [by left|done].
      + eapply dleads_agree; [exact D1|done|]. eapply sagree_time; [exact L2|]. by eapply AG.
  Qed.
  Lemma whole_reached b s l : wreached b s l ->
    exists b1, block_le b1 b /\ dreached K (ask (w_v s)) b1 (w_dao s) (dao_log l).
  Proof.
    intros (b0 & s0 & (Hs & lv0 & Hv) & Hl).
    destruct (whole_part _ _ _ _ _ (start_started _ _ Hs) Hl) as (b1 & L1 & _ & D).
    exists b1. split; [done|]. exists b0, (w_dao s0). split; [done|]. split; [|done].
    destruct (whole_votes _ _ _ _ _ Hl) as [lv HL].
    eapply whole_sane, v_app; [exact Hv|exact HL].
  Qed.
  Lemma whole_vreached b s l : wreached b s l -> exists lv, vreached b (w_v s) lv.
  Proof.
    intros (b0 & s0 & (Hs & lv0 & Hv) & Hl). destruct (whole_votes _ _ _ _ _ Hl) as [lv HL].
    eexists. by eapply v_app.
  Qed.
  Lemma whole_log (l : list (@wentry T MV)) (e : wentry) d : e ∈ l -> dao_entry e = Some d -> d ∈ dao_log l.
  Proof. intros He E. apply elem_of_list_omap. eauto. Qed.

  (** ** What is behind the messages carried *)
  Lemma mandate_backed t s id msgs :
    mandate (ask t) s id msgs ->
    exists p, s_props (d_prop s) !! id = Some p /\ p_msgs p = msgs /\
      backed power total t (d_prop s) id p.
  Proof.
    intros (p & Hp & Hm & _ & Ht & Hv & Hb & Ho). exists p. split; [done|]. split; [done|].
    split; [apply voters_nodup|]. intros Hab. specialize (Ho Hab).
    assert (forall v, tally_of p v = behind power t (d_prop s) id (p_start p) v) as E.
    { intros v. rewrite Hv. by apply voters_sum. }
    cbn in Ht. rewrite <-Ht.
    replace (Votes _ _ _) with (p_votes p); [done|].
    rewrite <-(E Yes), <-(E No), <-(E Abstain). cbn [tally_of]. destruct (p_votes p); reflexivity.
  Qed.
  Lemma whole_backed b s l e id msgs : wreached b s l -> e ∈ l -> wcarries e id msgs ->
    exists p, s_props (d_prop (w_dao (we_pre e))) !! id = Some p /\ p_msgs p = msgs /\
      backed power total (w_v s) (d_prop (w_dao (we_pre e))) id p.
  Proof.
    intros HR He (d & Ed & Hc). destruct (whole_reached _ _ _ HR) as (b1 & _ & (b0 & s0 & Hs & HS & Hl)).
    pose proof (whole_log _ _ _ He Ed) as Hd.
    destruct (dleads_inv _ _ _ _ _ _ _ HS (dstart_inv _ _ _ Hs) Hl) as [_ H].
    destruct (H d Hd) as (I1 & I2 & _).
    assert (de_pre d = w_dao (we_pre e)) as E.
    { unfold dao_entry in Ed. destruct (we_ev e); [|done]. by injection Ed as <-. }
    rewrite <-E. apply mandate_backed. destruct Hc as (_ & c & rest & Et).
    eapply exec_mandate; [exact I1| |exact Et]. by rewrite I2.
  Qed.
  Lemma whole_stakes b0 s0 b1 s1 l1 b' b s l2 h :
    wstart b0 s0 -> wleads b0 s0 b1 s1 l1 -> block_le b1 b' -> wleads b' s1 b s l2 ->
    height b1 < h <= height b' ->
    (forall a, power (w_v s) a h = hold (w_v s1) a) /\ total (w_v s) h = hold_all (w_v s1).
  Proof.
    intros Hs H1 Hb H2 Hh. destruct (whole_vreached b1 s1 l1) as [lv HV]; [by exists b0, s0|].
    destruct (whole_votes _ _ _ _ _ H2) as [lv2 HL].
    eapply v_reported; [exact HV| |exact Hb| |exact HL]; lia.
  Qed.

  (** ** Those who do not meet the threshold *)
  Lemma some_le_all t (C l : list addr) h : (forall a, 0 <= power t a h) -> NoDup l ->
    (forall a, a ∈ l -> a ∈ C) ->
    lsum (fun a => power t a h) l <= lsum (fun a => power t a h) C.
  Proof.
    intros P ND HC. apply ElectProofs.lsum_le_lsum; [done|]. by apply NoDup_submseteq.
  Qed.
  Lemma decline_short t s id p C b lv :
    vreached b t lv -> mandate (ask t) s id (p_msgs p) -> s_props (d_prop s) !! id = Some p ->
    thr_range (p_thr p) -> at_least_billionth (p_thr p) -> others_decline C (d_prop s) ->
    exists n, 0 <= n /\
    outcome_near (p_thr p) (total t (p_start p)) (Votes (lsum (fun a => power t a (p_start p)) C) n 0).
  Proof.
    intros HV HM Hp Hr Hab HC.
    destruct (mandate_backed _ _ _ _ HM) as (q & Hq & _ & _ & Ho). rewrite Hp in Hq. injection Hq as <-.
    specialize (Ho Hab). destruct (v_sane _ _ _ HV) as (P & _ & S). unfold behind in Ho.
    set (f := fun a => power t a (p_start p)) in *.
    assert (forall v, 0 <= lsum f (voters (d_prop s) id v)) as Hnn.
    { intros v. apply lsum_nonneg. intros a _. apply P. }
    pose proof (Hnn Yes) as Y0. pose proof (Hnn Abstain) as A0.
    assert (lsum f (voters (d_prop s) id No) =
      lsum f (filter (fun a => a ∈ C) (voters (d_prop s) id No)) +
      lsum f (filter (fun a => ~ a ∈ C) (voters (d_prop s) id No))) as En.
    { generalize (voters (d_prop s) id No) as l. induction l as [|a l IH]; [done|].
      rewrite !filter_cons. cbn [lsum].
      destruct (decide (a ∈ C)), (decide (~ a ∈ C)); try tauto; cbn [lsum]; lia. }
    assert (0 <= lsum f (filter (fun a => a ∈ C) (voters (d_prop s) id No))) as I0.
    { apply lsum_nonneg. intros a _. apply P. }
    assert (0 <= lsum f (filter (fun a => ~ a ∈ C) (voters (d_prop s) id No))) as O0.
    { apply lsum_nonneg. intros a _. apply P. }
    assert (lsum f (voters (d_prop s) id Yes) + (lsum f (voters (d_prop s) id Abstain) +
      lsum f (filter (fun a => a ∈ C) (voters (d_prop s) id No))) <= lsum f C) as L.
    { rewrite <-!lsum_app. apply some_le_all.
      - intros a. apply P.
      - apply NoDup_app. split; [apply voters_nodup|]. split.
        + intros a H1 [H2|[_ H2]%elem_of_list_filter]%elem_of_app.
          * by eapply (voters_apart _ _ Yes Abstain).
          * by eapply (voters_apart _ _ Yes No).
        + apply NoDup_app. split; [apply voters_nodup|]. split; [|apply NoDup_filter, voters_nodup].
          intros a H1 [_ H2]%elem_of_list_filter. by eapply (voters_apart _ _ Abstain No).
      - intros a [H|[H|[H _]%elem_of_list_filter]%elem_of_app]%elem_of_app; [| |done];
          apply voters_in in H as (bl & E & Ev); destruct (HC _ _ _ E) as [?|?]; [done|congruence|done|congruence]. }
    assert (lsum f (voters (d_prop s) id Abstain) <= total t (p_start p)) as L2.
    { apply S, voters_nodup. }
    rewrite En in Ho. revert Y0 A0 I0 O0 L L2 Ho. clear -Hr.
    generalize (lsum f (voters (d_prop s) id Yes)) as y,
      (lsum f (filter (fun a => a ∈ C) (voters (d_prop s) id No))) as ni,
      (lsum f (filter (fun a => ~ a ∈ C) (voters (d_prop s) id No))) as no,
      (lsum f (voters (d_prop s) id Abstain)) as ab,
      (lsum f C) as c, (total t (p_start p)) as tt. intros y ni no ab c tt Y0 A0 I0 O0 L L2.
    destruct (p_thr p) as [[|a]|p1 q1|k]; cbn in *; unfold share_near, cast; cbn.
    - exists 0. lia.
    - intros [H1 H2]. exists 0. split; [done|]. split; [lia|]. rewrite Z.sub_0_r.
      assert (ab * a <= ab * 10 ^ 18) by nia. nia.
    - intros [[H1 H2] [H3 H4]]. exists no. split; [done|]. rewrite Z.add_0_r. split.
      + split; [done|]. destruct q1; nia.
      + split; [lia|]. destruct Hr as [Hr _]. destruct p1 as [|a]; [lia|]. cbn in Hr.
        assert ((c - y) * a <= (c - y) * 10 ^ 18) by nia. nia.
    - exists 0. lia.
  Qed.
  Lemma no_carry t b lv C r b0 s0 b1 s l :
    vreached b t lv -> dstart b0 s0 -> sovereign s0 -> c_thr (s_cfg (d_prop s0)) = r ->
    at_least_billionth r -> hopeless power total t b r C ->
    dleads K (ask t) b0 s0 b1 s l -> block_le b1 b ->
    (forall e, e ∈ l -> others_decline C (d_prop (de_pre e))) ->
    (forall e id msgs, e ∈ l -> ~ carries e id msgs) /\ all_thr r (d_prop s).
  Proof.
    intros HV Hs HO Hc Hab HC H.
    pose proof (whole_sane _ _ _ (k_self (d_core s0)) HV) as HS.
    induction H as [|b1 s l b' e s' H IH Hb Hd Hk He]; intros Hle Hdec.
    { split; [by intros e id msgs ?%elem_of_nil|]. intros id p Hp.
      destruct Hs as (_ & _ & (_ & E & _) & _). rewrite E in Hp. by apply lookup_empty_Some in Hp. }
    destruct IH as [N HT].
    { by eapply block_le_trans. }
    { intros x Hx. apply Hdec, elem_of_app. by left. }
    destruct (c104_nothing_before K (ask t) b0 s0 b1 s l Hs HS HO H N) as [G _].
    assert (s_cfg (d_prop s) = s_cfg (d_prop s0)) as Ec by (by apply (f_equal snd) in G).
    assert (c_thr (s_cfg (d_prop s)) = r) as Hc' by (by rewrite Ec).
    split; [|by eapply event_thr].
    intros x id msgs [Hx|Hx]%elem_of_app Hcar; [by eapply N|].
    apply elem_of_list_singleton in Hx. subst x. destruct Hcar as (_ & c & rest & Et). cbn in Et.
    destruct (dleads_inv _ _ _ _ _ _ _ HS (dstart_inv _ _ _ Hs) H) as [(I1 & I2 & _) _].
    rewrite <-I2 in HS. pose proof (exec_mandate _ _ _ _ _ _ _ _ I1 HS Et) as HM.
    pose proof HM as (p & Hp & Hm & _). subst msgs.
    destruct (tprop_tally _ _ _ _ _ _ HS (proj2 (di_prop _ _ _ I1)) Hp) as (_ & _ & Hr).
    destruct (dleads_agree _ _ _ _ _ _ _ _ H (start_started _ _ Hs) (sagree_refl _ _)) as [_ HK].
    pose proof (HT _ _ Hp) as Er. rewrite <-Er in Hab.
    destruct (decline_short t s id p C b lv HV HM Hp Hr Hab) as (n & Hn & Hsh).
    { apply (Hdec (DEntry s b' e s')), elem_of_app. right. left. }
    rewrite Er in Hsh. apply (HC (p_start p) n); [|done|done].
    pose proof (HK _ _ Hp) as L. destruct Hb, Hle. lia.
  Qed.
  Lemma whole_helpless b0 s0 b s l C :
    wstart b0 s0 -> sovereign (w_dao s0) -> wleads b0 s0 b s l ->
    at_least_billionth (c_thr (s_cfg (d_prop (w_dao s0)))) ->
    hopeless power total (w_v s) b (c_thr (s_cfg (d_prop (w_dao s0)))) C ->
    (forall e, e ∈ l -> others_decline C (d_prop (w_dao (we_pre e)))) ->
    governed (w_dao s) = governed (w_dao s0) /\
    forall e d, e ∈ l -> dao_entry e = Some d -> act d = None.
  Proof.
    intros Hs HO Hl Hab HC Hdec.
    assert (wreached b s l) as HR by (by exists b0, s0).
    destruct (whole_vreached _ _ _ HR) as [lv HV].
    destruct Hs as (Hs & lv0 & HV0).
    destruct (whole_part _ _ _ _ _ (start_started _ _ Hs) Hl) as (b1 & L1 & _ & D).
    assert (forall d, d ∈ dao_log l -> others_decline C (d_prop (de_pre d))) as Hdec'.
    { intros d (e & He & Ed)%elem_of_list_omap. specialize (Hdec e He).
      unfold dao_entry in Ed. destruct (we_ev e); [|done]. by injection Ed as <-. }
    destruct (no_carry _ _ _ _ _ _ _ _ _ _ HV Hs HO eq_refl Hab HC D L1 Hdec') as [N _].
    destruct (c104_nothing_before K _ _ _ _ _ _ Hs (whole_sane _ _ _ _ HV) HO D N) as [G A].
    split; [done|]. intros e d He Ed. by eapply A, whole_log.
  Qed.
  Lemma whole_powerless b0 s0 b s l C :
    wstart b0 s0 -> sovereign (w_dao s0) -> wleads b0 s0 b s l ->
    absolute (c_thr (s_cfg (d_prop (w_dao s0)))) ->
    at_least_billionth (c_thr (s_cfg (d_prop (w_dao s0)))) ->
    short power total (w_v s) b (c_thr (s_cfg (d_prop (w_dao s0)))) C ->
    (forall e, e ∈ l -> others_decline C (d_prop (w_dao (we_pre e)))) ->
    governed (w_dao s) = governed (w_dao s0) /\
    forall e d, e ∈ l -> dao_entry e = Some d -> act d = None.
  Proof.
    intros Hs HO Hl Habs Hab HC. apply (whole_helpless b0 s0 b s l C Hs HO Hl Hab).
    intros h n Hh _ H. apply (HC h Hh). destruct (c_thr _); done.
  Qed.
  (** ** Calls of the voting module *)
  Lemma whole_lawful b0 s0 b s l e : wleads b0 s0 b s l -> e ∈ l -> v_lawful handle_v for_v K e.
  Proof.
    intros H. induction H as [|b s l b' v s' H IH Hb Hd Hk Hv He]; [by intros ?%elem_of_nil|].
    intros [Hx|Hx]%elem_of_app; [by apply IH|]. apply elem_of_list_singleton in Hx. subst e.
    unfold v_lawful, called_by, dao_entry. cbn [we_pre we_post we_ev we_block].
    destruct v as [v|a m]; cbn in He.
    - destruct (d_event _ _ _ _ _) as [d|] eqn:E; [|done]. cbn in He.
      destruct (said for_v K (w_dao s) v) as [m|] eqn:Es.
      + destruct (handle_v _ _ _ _) as [[t subs]|] eqn:Eh; [|done]. injection He as <-. cbn [w_v].
        right. exists (k_self (d_core (w_dao s))), m, subs. split; [|done]. right.
        unfold said in Es. destruct v; try done.
        destruct (d_todo (w_dao s)) as [|[[|[|n]]| |] rest] eqn:Et; try done.
        destruct (call_of K n) eqn:Ec; [done|].
        eexists _, n. split; [reflexivity|]. unfold act. cbn. rewrite Et. done.
      + injection He as <-. by left.
    - destruct (outside _ a) eqn:Eo; [|done].
      destruct (handle_v _ _ _ _) as [[t subs]|] eqn:Eh; [|done]. injection He as <-. cbn [w_v].
      right. exists a, m, subs. split; [|done]. left. split; [done|].
      unfold outside in Eo. apply andb_true_iff in Eo as [E1 E2].
      apply negb_true_iff in E1, E2. apply N.eqb_neq in E1, E2. done.
  Qed.
End whole.
