(** Migrations of the single-choice module: the claims. *)
From Verif Require Import Base BaseProofs Exec ExecProofs VotingModel VotingSpec VotingProofs
  HooksModel SingleModel SingleSpec SingleProofs SingleLife MigModel MigSpec MigProofs.

(** ** What a migration does *)
Lemma migrate_iff O t b a v close i veto :
  (exists t' subs, t_handle O t b a (TMigrate v (FromV1 close i veto)) = Ok (t', subs)) <->
  a = t_admin t /\ v <> t_version t /\
  (exists c, t_vcfg t = Some c /\ forall c', same_config c c' ->
     match veto with Some w => validate_veto w (c_max c') = Ok tt | None => True end) /\
  (forall id w n, t_vprops t !! id = Some w -> vr_deposit w = Some n -> n <> 0 ->
     vr_status w = VExecuted \/ vr_status w = VClosed).
Proof.
  assert (forall d d', dur_same d d' -> d' = dur_to_v2 d) as Hdur.
  { intros [|] [|]; simpl; intros E; try done; by rewrite E. }
  assert (forall w, outstanding w = false <-> forall n, vr_deposit w = Some n -> n <> 0 ->
    vr_status w = VExecuted \/ vr_status w = VClosed) as Hout.
  { intros w. unfold outstanding. destruct (vr_deposit w) as [n|]; [|by split].
    destruct (Z.eqb_spec n 0) as [->|Hn]; simpl.
    - split; [|done]. intros _ n' [= <-]. done.
    - split.
      + intros H n' _ _. destruct (vr_status w); auto; discriminate.
      + intros H. destruct (H n eq_refl Hn) as [->| ->]; done. }
  cbn [t_handle]. split.
  - intros (t' & subs & H). destruct (a =? t_admin t)%N eqn:Ea; [|discriminate].
    apply N.eqb_eq in Ea. apply migrate_inv in H as (c & pol & Hv & Hc & Hveto & Hset & _ & _).
    split; [done|]. split; [done|]. split.
    + exists c. split; [done|]. intros c' Hs. destruct veto as [w|]; [|done].
      rewrite (Hdur _ _ (sc_max _ _ Hs)). done.
    + intros id w n Hw. apply Hout. eauto.
  - intros (-> & Hv & (c & Hc & Hveto) & Hset). rewrite N.eqb_refl. unfold migrate.
    rewrite (proj2 (N.eqb_neq _ _)) by done. rewrite Hc. cbn [negb].
    assert (validate_veto_opt veto (dur_to_v2 (vg_max c)) = Ok tt) as ->.
    { specialize (Hveto (cfg_to_v2 c close veto) (cfg_same_v2 _ _ _)).
      destruct veto; [exact Hveto|done]. }
    destruct (into_initial_policy_and_messages i) as [pol subs].
    rewrite (proj2 (all_settled _)); [eauto|].
    intros id w Hw. apply Hout. eauto.
Qed.

Lemma migrate_keeps O t b a v close i veto t' subs :
  t_handle O t b a (TMigrate v (FromV1 close i veto)) = Ok (t', subs) ->
  (exists c c', t_vcfg t = Some c /\ t_cfg t' = Some c' /\ same_config c c' /\
     c_close_on_fail c' = close /\ c_veto c' = veto) /\
  (forall id w, t_vprops t !! id = Some w ->
     exists p, t_props t' !! id = Some p /\ same_prop w p /\ p_veto p = None) /\
  (forall id, t_vprops t !! id = None -> t_props t' !! id = t_props t !! id) /\
  t_count t' = t_count t /\ t_ballots t' = t_ballots t /\
  t_phooks t' = t_phooks t /\ t_vhooks t' = t_vhooks t /\
  t_version t' = v /\ t_admin t' = t_admin t /\
  t_vcfg t' = t_vcfg t /\ t_vprops t' = t_vprops t.
Proof.
  cbn [t_handle]. intros H. destruct (a =? t_admin t)%N; [|discriminate].
  pose proof (fun id => migrate_lookup _ _ _ _ _ _ _ id H) as Hl.
  apply migrate_inv in H as (c & pol & _ & Hc & _ & _ & _ & ->).
  split; [exists c, (cfg_to_v2 c close veto); eauto using cfg_same_v2|].
  split.
  - intros id w Hw. exists (prop_to_v2 w). rewrite (Hl id), Hw. eauto using prop_same_v2.
  - split; [|done]. intros id Hn. by rewrite (Hl id), Hn.
Qed.

Lemma compatible_keeps O t b a v t' subs :
  t_handle O t b a (TMigrate v FromCompatible) = Ok (t', subs) ->
  a = t_admin t /\ live t' = live t /\ t_vcfg t' = t_vcfg t /\ t_vprops t' = t_vprops t /\
  t_version t' = v /\ subs = [].
Proof.
  cbn [t_handle]. intros H. destruct (a =? t_admin t)%N eqn:Ea; [|discriminate].
  apply N.eqb_eq in Ea. injection H as <- <-. done.
Qed.

(** ** While version one's data are not read again *)
Lemma upgraded_inv O b t l id :
  upgraded O b t l -> tinv b t /\ t_dispatches id l <= 1.
Proof.
  intros (b0 & t0 & b1 & a & v & close & i & veto & outs & h & HL & Hh & Ho & HM & Hr & Hb).
  destruct Hh as [Hb1 Hh]. cbn [run_hist] in Hr.
  assert (v1_left b1 t0) as HL1.
  { destruct HL as [A B C D E F]. constructor; eauto using v1_prop_time. }
  destruct (run_call (t_handle O) t_fail t_ok b1 t0
    (Call a (TMigrate v (FromV1 close i veto)) outs)) as [[t1 l1]|] eqn:E1.
  - destruct (trun O t1 h) as [t2 l2] eqn:E2. injection Hr as <- <-.
    destruct (first_run O b1 t0 a v close i veto outs t1 l1 HL1 Ho E1)
      as (tm & subs & lm & Hm & -> & Hne & HI1 & HT1).
    destruct (t_run O b1 t1 h t2 l2 HI1 Hh HM E2) as [HI2 HT2].
    split; [by eapply tinv_time|].
    pose proof (trace_app _ _ _ _ _ _ _ _ _ _ _ _ _ _ HT1 HT2) as HT.
    destruct (t_trace_dispatches O _ _ _ _ _ id HT) as [[_ Hd] _].
    unfold t_dispatches in *. simpl. rewrite (no_exec_dispatch id subs Hne). lia.
  - assert (tinv b1 t0) as HI.
    { intros s Hs. destruct HL as [_ _ _ _ _ (_ & Hc & _)]. unfold live in Hs.
      by rewrite Hc in Hs. }
    destruct (t_run O b1 t0 h t l HI Hh HM Hr) as [HI2 HT2].
    split; [by eapply tinv_time|].
    destruct (t_trace_dispatches O _ _ _ _ _ id HT2) as [[_ Hd] _]. done.
Qed.

Lemma t_terminal_forever O b0 t h t' l id st :
  tinv b0 t -> hist_ok b0 h -> hist_all no_v1 h -> trun O t h = (t', l) ->
  t_status t id = Some st -> terminal st ->
  t_status t' id = Some st /\ t_dispatches id l = 0.
Proof.
  intros HI Hh HM Hr Hst Ht.
  pose (I' := fun b t => tinv b t /\ t_status t id = Some st).
  pose (P' := fun b t (x : sub) => tpend b t x /\ forall d ms c, x <> SExec d id ms c).
  assert (forall t s, live t = Some s -> status_of s id = t_status t id) as Hlive.
  { intros t1 s Hs. unfold status_of, t_status. by destruct (live_fields _ _ Hs) as (-> & _). }
  assert (forall b t s s1, tinv b t -> live t = Some s -> rtc (prim O b) s s1 ->
            t_status t id = Some st -> t_status (put t s1) id = Some st) as Hkeep.
  { intros b t1 s1 s2 HI1 Hs1 Hr1 Ht1.
    rewrite <- (Hlive _ s2) by apply live_put. rewrite <- (Hlive _ _ Hs1) in Ht1.
    unfold status_of in *.
    destruct (s_props s1 !! id) as [p|] eqn:Ep; [|done]. simpl in Ht1.
    injection Ht1 as Ht1. rewrite <- Ht1 in Ht.
    destruct (prims_terminal O b s1 s2 id p (HI1 _ Hs1) Hr1 Ep Ht) as (p' & -> & E').
    simpl. congruence. }
  assert (forall b t1 a m t2 subs, tinv b t1 -> t_status t1 id = Some st -> no_v1 a m ->
    t_handle O t1 b a m = Ok (t2, subs) -> forall x, x ∈ subs ->
    tpend b t2 x /\ forall d ms c, x <> SExec d id ms c) as Hsubs.
  { intros b t1 a m t2 subs HI1 Hs1 Hm H x Hx.
    split; [by eapply t_handle_tinv|]. intros d ms c ->.
    destruct (t_step O t1 b a m t2 subs Hm H) as [(m' & s & s' & -> & Hs & Hh' & ->)|(_ & _ & ->)];
      [|by apply elem_of_nil in Hx].
    rewrite <- (Hlive _ _ Hs) in Hs1.
    assert ((exists id, m' = Execute id) \/ (forall id, m' <> Execute id)) as [[id' ->]|Hne].
    { destruct m'; try (by right); eauto. }
    * simpl in Hh'. apply execute_execute_shape in Hh' as (p & st' & Hp & Hst' & Hal & -> & ->).
      rewrite !elem_of_app in Hx.
      destruct Hx as [Hin|[Hin|Hin]];
        [|by apply no_exec_changed in Hin|by apply no_exec_completed in Hin].
      destruct (p_msgs p); [by apply elem_of_nil in Hin|].
      apply elem_of_list_singleton in Hin. injection Hin as -> -> -> ->.
      unfold status_of in Hs1. rewrite Hp in Hs1. injection Hs1 as Hs1. subst st.
      rewrite (terminal_current_ok p b Ht) in Hst'. injection Hst' as <-.
      destruct Ht as [E|[E|[E|E]]]; rewrite E in Hal;
        destruct Hal as [[? _]|(? & ? & ? & _)]; discriminate.
    * by eapply (handle_no_exec _ _ _ _ _ _ _ Hh' Hne). }
  edestruct (run_hist_trace (t_handle O) t_fail t_ok no_v1 I' P') as [[_ Hfin] Htr];
    [..|exact Hh|exact HM|exact Hr|]; unfold I', P'.
  - intros b t1 a m t2 subs [HI1 Hs1] Hm H. split.
    + split; [by eapply t_handle_tinv|].
      destruct (t_step O t1 b a m t2 subs Hm H) as [(m' & s & s' & -> & Hs & Hh' & ->)|(Ep & _ & _)].
      * eapply Hkeep; eauto. by eapply handle_prims.
      * unfold t_status. by rewrite Ep.
    + intros x Hx. by eapply Hsubs.
  - intros b t1 x t2 [HI1 Hs1] [HP Hne] H. split; [by eapply t_fail_tinv|].
    apply t_fail_inv in H as (s & s' & Hs & Hf & ->).
    rewrite <- (Hlive _ s') by apply live_put. rewrite <- (Hlive _ _ Hs) in Hs1.
    destruct (on_fail_shape _ _ _ _ Hf) as [(d & id0 & ms & p0 & -> & Hp0 & ->)|(Hx & E1 & _)].
    + unfold status_of. simpl. rewrite lookup_insert_ne; [done|]. intros <-. by eapply Hne.
    + unfold status_of. by rewrite E1.
  - intros b t1 x d t2 [HI1 Hs1] [HP Hne] H. split; [by eapply (t_ok_tinv O)|].
    apply t_ok_inv in H as (s & s' & Hs & Hf & ->).
    eapply Hkeep; eauto. apply rtc_once. by eapply on_ok_prims.
  - intros b t1 a m t2 subs x [HI1 Hs1] Hm H [HP Hne]. split; [|done]. by eapply t_handle_pend.
  - intros b t1 x t2 y [HI1 Hs1] _ H [HP Hne]. split; [|done]. by eapply t_fail_pend.
  - intros b t1 x d t2 y [HI1 Hs1] _ H [HP Hne]. split; [|done]. by eapply (t_ok_pend O).
  - intros b b' t1 Hb [HI1 Hs1]. split; [by eapply tinv_time|done].
  - done.
  - split; [exact Hfin|].
    apply trace_forall in Htr. unfold t_dispatches.
    rewrite (lsum_ext _ (fun _ => 0)); [clear; induction l; simpl; [done|lia]|].
    intros e He. rewrite Forall_forall in Htr. destruct (Htr e He) as ((HI1 & Hs1) & _ & HE).
    destruct e as [pre b a m post subs|]; [|done]. simpl in HI1, Hs1, HE |- *.
    destruct HE as [Hm HE].
    rewrite (lsum_ext _ (fun _ => 0)); [clear; induction subs; simpl; [done|lia]|].
    intros x Hx. destruct (Hsubs _ _ _ _ _ _ HI1 Hs1 Hm HE x Hx) as [_ Hne].
    destruct x; simpl; try done. destruct (Z.eqb_spec id0 id) as [->|]; [|done].
    by destruct (Hne dao msgs caught).
Qed.

Lemma upgraded_final O b t l b' t' l' id st :
  upgraded O b t l -> t_later O no_v1 b t b' t' l' ->
  t_status t id = Some st -> terminal st ->
  t_status t' id = Some st /\ t_dispatches id l' = 0.
Proof.
  intros HU (h & Hh & HM & Hr & _) Hst Ht.
  destruct (upgraded_inv O b t l id HU) as [HI _].
  by eapply t_terminal_forever.
Qed.
Lemma upgraded_once O b t l id : upgraded O b t l -> t_dispatches id l <= 1.
Proof. intros H. by eapply upgraded_inv. Qed.

(** ** Under any further migrations *)
(** Steps of this version keep a proposal's veto configuration, and its status if final. *)
Record follows (p p' : proposal) : Prop := {
  fo_veto : p_veto p' = p_veto p;
  fo_status : terminal (p_status p) -> p_status p' = p_status p }.
Lemma follows_refl p : follows p p.
Proof. by constructor. Qed.
Lemma follows_trans p q r : follows p q -> follows q r -> follows p r.
Proof.
  intros [A B] [C D]. constructor; [congruence|]. intros H. rewrite <- (B H). apply D.
  by rewrite (B H).
Qed.
Definition ids_below (s : state) : Prop :=
  forall id, is_Some (s_props s !! id) -> id <= s_count s.
Lemma prim_follows O b s s' :
  ids_below s -> prim O b s s' ->
  ids_below s' /\ s_count s <= s_count s' /\
  (forall id p, s_props s !! id = Some p -> exists p', s_props s' !! id = Some p' /\ follows p p').
Proof.
  intros HI Hp.
  assert (forall id q q' bs, s_props s !! id = Some q -> follows q q' ->
    ids_below (with_ballots (save_prop s id q') bs) /\
    s_count s <= s_count (with_ballots (save_prop s id q') bs) /\
    forall id' p, s_props s !! id' = Some p ->
      exists p', s_props (with_ballots (save_prop s id q') bs) !! id' = Some p' /\ follows p p')
    as Hsave.
  { intros id q q' bs Hq Hf. simpl. split; [|split; [lia|]].
    - intros id'. simpl. destruct (decide (id' = id)) as [->|];
        [rewrite lookup_insert|rewrite lookup_insert_ne by done]; [|apply HI].
      intros _. apply HI. eauto.
    - intros id' p Hid. destruct (decide (id' = id)) as [->|];
        [rewrite lookup_insert|rewrite lookup_insert_ne by done]; [|eauto using follows_refl].
      rewrite Hq in Hid. injection Hid as <-. eauto. }
  destruct Hp.
  - simpl. split; [|split; [lia|]].
    + intros id. simpl. destruct (decide (id = s_count s + 1)) as [->|];
        [rewrite lookup_insert; lia|rewrite lookup_insert_ne by done].
      intros Hi. specialize (HI _ Hi). simpl. lia.
    + intros id p Hid. rewrite lookup_insert_ne; [eauto using follows_refl|].
      intros <-. assert (s_count s + 1 <= s_count s) by (apply HI; eauto). lia.
  - eapply Hsave; [done|]. constructor; [done|]. simpl. intros Ht.
    by apply (terminal_current (set_votes p votes1) b st).
  - apply (Hsave id p (set_status p fin) (s_ballots s)); [done|]. constructor; [done|].
    intros Ht. apply (terminal_current p b st Ht) in H0. subst st.
    exfalso. by eapply terminal_not_allowed.
  - simpl. split; [done|]. split; [lia|]. eauto using follows_refl.
  - unfold ids_below. rewrite H, H1. split; [done|]. split; [lia|]. eauto using follows_refl.
Qed.
Lemma prims_follow O b s s' :
  ids_below s -> rtc (prim O b) s s' ->
  ids_below s' /\ s_count s <= s_count s' /\
  (forall id p, s_props s !! id = Some p -> exists p', s_props s' !! id = Some p' /\ follows p p').
Proof.
  intros HI H. induction H as [s|s s1 s2 Hp _ IH].
  - split; [done|]. split; [lia|]. eauto using follows_refl.
  - destruct (prim_follows O b s s1 HI Hp) as (A & B & C). destruct (IH A) as (A' & B' & C').
    split; [done|]. split; [lia|]. intros id p Hp'.
    destruct (C id p Hp') as (p1 & Hp1 & F1). destruct (C' id p1 Hp1) as (p2 & Hp2 & F2).
    eauto using follows_trans.
Qed.

(** A proposal of version one, in the storage [t]. *)
Record vinv (id : Z) (w : vproposal) (b : block) (t : store) : Prop := {
  vi_old : t_vprops t !! id = Some w;
  vi_olds : forall i, is_Some (t_vprops t !! i) -> i <= t_count t;
  vi_ids : forall i, is_Some (t_props t !! i) -> i <= t_count t;
  vi_prop : is_Some (live t) -> exists p, t_props t !! id = Some p /\ follows (prop_to_v2 w) p }.
Definition vpend (id : Z) (w : vproposal) (b : block) (t : store) (x : sub) : Prop :=
  is_Some (live t) /\
  (vr_status w = VExecuted \/ vr_status w = VClosed -> forall d ms c, x <> SExec d id ms c).
Lemma vinv_put id w b t s s' :
  vinv id w b t -> live t = Some s ->
  (forall i, is_Some (s_props s' !! i) -> i <= s_count s') -> s_count s <= s_count s' ->
  (forall p, s_props s !! id = Some p -> exists p', s_props s' !! id = Some p' /\ follows p p') ->
  vinv id w b (put t s').
Proof.
  intros [A B C D] Hs H1 H2 H3. destruct (live_fields t s Hs) as (Ep & Ec & _).
  constructor; simpl; try done.
  - intros i Hi. specialize (B i Hi). lia.
  - intros _. destruct D as (p & Hp & F); [eauto|].
    rewrite <- Ep in Hp. destruct (H3 p Hp) as (p' & Hp' & F').
    eauto using follows_trans.
Qed.
Lemma vinv_ids id w b t s : vinv id w b t -> live t = Some s -> ids_below s.
Proof.
  intros [A B C D] Hs i. destruct (live_fields t s Hs) as (-> & -> & _). auto.
Qed.
Lemma old_final_st w : vr_status w = VExecuted \/ vr_status w = VClosed ->
  terminal (p_status (prop_to_v2 w)).
Proof. intros [E|E]; simpl; rewrite E; unfold terminal; simpl; auto. Qed.
Lemma vinv_handle O id w b t a m t' subs :
  vinv id w b t -> t_handle O t b a m = Ok (t', subs) ->
  vinv id w b t' /\ forall x, x ∈ subs -> vpend id w b t' x.
Proof.
  intros HI H. destruct m as [m|v [close i veto|]].
  - apply t_call in H as (s & s' & Hs & Hh & ->).
    pose proof (vinv_ids _ _ _ _ _ HI Hs) as Hid.
    destruct (prims_follow O b s s' Hid (handle_prims _ _ _ _ _ _ _ Hh)) as (A & B & C).
    split; [eapply vinv_put; eauto|].
    intros x Hx. split; [rewrite live_put; eauto|]. intros Hw d ms c ->.
    destruct HI as [_ _ _ D]. destruct D as (p & Hp & F); [eauto|].
    pose proof (old_final_st w Hw) as Ht. rewrite <- (fo_status _ _ F Ht) in Ht.
    assert ((exists id, m = Execute id) \/ (forall id, m <> Execute id)) as [[id' ->]|Hne].
    { destruct m; try (by right); eauto. }
    * simpl in Hh. apply execute_execute_shape in Hh as (p1 & st' & Hp1 & Hst' & Hal & -> & ->).
      rewrite !elem_of_app in Hx.
      destruct Hx as [Hin|[Hin|Hin]];
        [|by apply no_exec_changed in Hin|by apply no_exec_completed in Hin].
      destruct (p_msgs p1); [by apply elem_of_nil in Hin|].
      apply elem_of_list_singleton in Hin. injection Hin as -> -> -> ->.
      destruct (live_fields t s Hs) as (Ep & _). rewrite Ep, Hp in Hp1. injection Hp1 as <-.
      rewrite (terminal_current_ok p b Ht) in Hst'. injection Hst' as <-.
      destruct Ht as [E|[E|[E|E]]]; rewrite E in Hal;
        destruct Hal as [[? _]|(? & ? & ? & _)]; discriminate.
    * by eapply (handle_no_exec _ _ _ _ _ _ _ Hh Hne).
  - cbn [t_handle] in H. destruct (a =? t_admin t)%N; [|discriminate].
    pose proof (fun id => migrate_lookup _ _ _ _ _ _ _ id H) as Hl.
    apply migrate_inv in H as (c & pol & _ & _ & _ & _ & Hi & ->).
    destruct HI as [A B C D]. split.
    + constructor; [done|done| |].
      * intros j. rewrite (Hl j). cbn [t_count]. destruct (t_vprops t !! j) eqn:E; [|auto].
        intros _. apply B. eauto.
      * intros _. exists (prop_to_v2 w). rewrite (Hl id), A. split; [done|apply follows_refl].
    + intros x Hx. split; [eexists; done|]. intros _ d ms c' ->.
      by apply (no_exec_init _ _ _ Hi) in Hx.
  - cbn [t_handle] in H. destruct (a =? t_admin t)%N; [|discriminate].
    injection H as <- <-. destruct HI as [A B C D]. split; [by constructor|].
    intros x Hx. by apply elem_of_nil in Hx.
Qed.
Lemma vinv_fail id w b t x t' :
  vinv id w b t -> vpend id w b t x -> t_fail t b x = Ok t' -> vinv id w b t'.
Proof.
  intros HI [_ HP] H. apply t_fail_inv in H as (s & s' & Hs & Hf & ->).
  pose proof (vinv_ids _ _ _ _ _ HI Hs) as Hid.
  destruct (on_fail_shape _ _ _ _ Hf) as [(d & id0 & ms & p0 & -> & Hp0 & ->)|(Hx & E1 & _ & E3 & _)].
  - pose proof HI as [A B C D]. destruct D as (p & Hp & F); [eauto|].
    destruct (live_fields t s Hs) as (Ep & Ec & _).
    constructor; simpl; [done| | |].
    + rewrite Ec. exact B.
    + intros i. destruct (decide (i = id0)) as [->|];
        [rewrite lookup_insert|rewrite lookup_insert_ne by done]; [|rewrite Ec, Ep; auto].
      intros _. apply Hid. eauto.
    + intros _. destruct (decide (id = id0)) as [->|];
        [rewrite lookup_insert|rewrite lookup_insert_ne by done]; [|rewrite Ep; eauto].
      rewrite Ep, Hp in Hp0. injection Hp0 as <-. eexists. split; [done|].
      destruct F as [F1 F2]. constructor; [done|]. intros Ht. exfalso.
      apply (HP ltac:(destruct (vr_status w) eqn:Ew; auto; simpl in Ht; rewrite Ew in Ht;
        destruct Ht as [?|[?|[?|?]]]; discriminate) d ms true). done.
  - eapply vinv_put; [done|done|..].
    + rewrite E1, E3. exact Hid.
    + lia.
    + rewrite E1. eauto using follows_refl.
Qed.
Lemma vinv_ok (O : oracle) id w b t x d t' :
  vinv id w b t -> t_ok t b x d = Ok t' -> vinv id w b t'.
Proof.
  intros HI H. apply t_ok_inv in H as (s & s' & Hs & Hf & ->).
  apply (on_ok_prims O) in Hf.
  destruct (prim_follows O b s s' (vinv_ids _ _ _ _ _ HI Hs) Hf) as (A & B & C).
  eapply vinv_put; eauto.
Qed.
Lemma live_stays O t b a m t' subs :
  is_Some (live t) -> t_handle O t b a m = Ok (t', subs) -> is_Some (live t').
Proof.
  intros Hl H. destruct m as [m|v [close i veto|]].
  - apply t_call in H as (s & s' & _ & _ & ->). rewrite live_put. eauto.
  - cbn [t_handle] in H. destruct (a =? t_admin t)%N; [|discriminate].
    apply migrate_inv in H as (c & pol & _ & _ & _ & _ & _ & ->). eexists. done.
  - cbn [t_handle] in H. destruct (a =? t_admin t)%N; [|discriminate]. by injection H as <- <-.
Qed.

Lemma t_all_any (h : list (block * call tmsg)) : hist_all any_msg h.
Proof. apply hist_all_any. Qed.
Lemma grown_trace O b t l id w :
  grown O b t l -> t_vprops t !! id = Some w ->
  exists b0 t0 h, hist_ok b0 h /\ trun O t0 h = (t, l) /\ vinv id w b0 t0 /\
    vinv id w (hist_end b0 h) t /\
    trace (t_handle O) t_fail t_ok any_msg (vinv id w) (vpend id w) b0 t0 l (hist_end b0 h) t.
Proof.
  intros (b0 & t0 & h & HL & Hh & Hr & Hb) Hw.
  assert (forall w0, t_vprops t0 !! id = Some w0 ->
    vinv id w0 b0 t0 /\ vinv id w0 (hist_end b0 h) t /\
    trace (t_handle O) t_fail t_ok any_msg (vinv id w0) (vpend id w0) b0 t0 l (hist_end b0 h) t)
    as Hrun.
  { intros w0 Hw0.
    assert (vinv id w0 b0 t0) as H0.
    { destruct HL as [_ _ C _ _ (Z1 & Z2 & _)]. constructor; [done| | |].
      - intros i Hi. by apply C in Hi as [_ ?].
      - intros i. rewrite Z1, lookup_empty. by intros [? ?].
      - unfold live. rewrite Z2. by intros [? ?]. }
    split; [done|].
    eapply run_hist_trace; try done; [..|apply t_all_any].
    - intros b1 t1 a m t2 subs HI _ H. by eapply vinv_handle.
    - intros b1 t1 x t2 HI HP H. by eapply vinv_fail.
    - intros b1 t1 x d t2 HI HP H. by eapply (vinv_ok O).
    - intros b1 t1 a m t2 subs x HI _ H [HP1 HP2]. split; [by eapply live_stays|done].
    - intros b1 t1 x t2 y HI _ H [HP1 HP2]. split; [|done].
      apply t_fail_inv in H as (s & s' & _ & _ & ->). rewrite live_put. eauto.
    - intros b1 t1 x d t2 y HI _ H [HP1 HP2]. split; [|done].
      apply t_ok_inv in H as (s & s' & _ & _ & ->). rewrite live_put. eauto.
    - intros b1 b2 t1 _ [A B C D]. by constructor. }
  assert (t_vprops t = t_vprops t0) as Ev.
  { clear Hrun Hw. eapply (run_hist_rule (t_handle O) t_fail t_ok any_msg
      (fun _ _ => True) (fun t1 _ t2 => t_vprops t2 = t_vprops t1) (fun _ _ _ => True));
      [..|apply t_all_any|exact Hr]; try done.
    - intros t1 ? t2 ? t3 E1 E2. congruence.
    - intros b1 t1 a m t2 subs _ _ H. split; [done|]. split; [|done].
      destruct m as [m|v [close i veto|]].
      + apply t_call in H as (s & s' & _ & _ & ->). done.
      + cbn [t_handle] in H. destruct (a =? t_admin t1)%N; [|discriminate].
        apply migrate_inv in H as (c & pol & _ & _ & _ & _ & _ & ->). done.
      + cbn [t_handle] in H. destruct (a =? t_admin t1)%N; [|discriminate].
        by injection H as <- <-.
    - intros b1 t1 x subs t2 _ _ H. apply t_fail_inv in H as (s & s' & _ & _ & ->). done.
    - intros b1 t1 x subs l1 t2 d t3 _ _ _ _ H.
      apply t_ok_inv in H as (s & s' & _ & _ & ->). done. }
  rewrite Ev in Hw. exists b0, t0, h. destruct (Hrun w Hw) as (? & ? & ?). done.
Qed.

Lemma old_final O b t l id w :
  grown O b t l -> t_vprops t !! id = Some w ->
  vr_status w = VExecuted \/ vr_status w = VClosed ->
  t_dispatches id l = 0 /\
  (is_Some (live t) -> exists p, t_props t !! id = Some p /\ status_same (vr_status w) (p_status p)).
Proof.
  intros HG Hw Hst. destruct (grown_trace O b t l id w HG Hw) as (b0 & t0 & h & Hh & Hr & HI0 & HI & HT).
  split.
  - apply trace_forall in HT. unfold t_dispatches.
    rewrite (lsum_ext _ (fun _ => 0)); [clear; induction l; simpl; [done|lia]|].
    intros e He. rewrite Forall_forall in HT. destruct (HT e He) as (HI1 & _ & HE).
    destruct e as [pre b1 a m post subs|]; [|done]. simpl in HI1, HE |- *.
    destruct HE as [_ HE].
    rewrite (lsum_ext _ (fun _ => 0)); [clear; induction subs; simpl; [done|lia]|].
    intros x Hx. destruct (vinv_handle O id w b1 pre a m post subs HI1 HE) as [_ HP].
    destruct (HP x Hx) as [_ Hne]. specialize (Hne Hst).
    destruct x; simpl; try done. destruct (Z.eqb_spec id0 id) as [->|]; [|done].
    by destruct (Hne dao msgs caught).
  - intros Hl. destruct HI as [_ _ _ D]. destruct (D Hl) as (p & Hp & F).
    exists p. split; [done|]. rewrite (fo_status _ _ F (old_final_st w Hst)).
    apply status_same_v2.
Qed.
Lemma old_no_veto O b t l id w a b' :
  grown O b t l -> t_vprops t !! id = Some w ->
  exists e, t_handle O t b' a (TCall (Veto id)) = Err e.
Proof.
  intros HG Hw. destruct (grown_trace O b t l id w HG Hw) as (b0 & t0 & h & Hh & Hr & HI0 & HI & HT).
  destruct (t_handle O t b' a (TCall (Veto id))) as [[t' subs]|] eqn:E; [|eauto]. exfalso.
  apply t_call in E as (s & s' & Hs & Hh' & _). destruct HI as [_ _ _ D].
  destruct D as (p & Hp & F); [eauto|]. destruct (live_fields t s Hs) as (Ep & _).
  simpl in Hh'. apply execute_veto_shape in Hh' as (p1 & st & vc & Hp1 & _ & Hv & _).
  rewrite Ep, Hp in Hp1. injection Hp1 as <-. rewrite (fo_veto _ _ F) in Hv. discriminate.
Qed.
