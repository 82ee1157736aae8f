(** Migrations of the single-choice module: lemmas. *)
From Verif Require Import Base BaseProofs Exec ExecProofs VotingModel VotingSpec VotingProofs
  HooksModel SingleModel SingleSpec SingleProofs SingleLife MigModel MigSpec.

Notation tevent := (event store tmsg sub).

(** ** The store and the module *)
Lemma live_put t s : live (put t s) = Some s.
Proof. by destruct s. Qed.
Lemma live_fields t s : live t = Some s ->
  s_props s = t_props t /\ s_count s = t_count t /\ s_ballots s = t_ballots t.
Proof.
  unfold live. destruct (t_cfg t), (t_policy t); try done. intros [= <-]. done.
Qed.

(** ** Conversions *)
Lemma pct_same_v2 v : pct_same v (pct_to_v2 v).
Proof. by destruct v. Qed.
Lemma thr_same_v2 v : thr_same v (thr_to_v2 v).
Proof. destruct v; simpl; auto using pct_same_v2. Qed.
Lemma dur_same_v2 v : dur_same v (dur_to_v2 v).
Proof. by destruct v. Qed.
Lemma exp_same_v2 v : exp_same v (exp_to_v2 v).
Proof. by destruct v. Qed.
Lemma status_same_v2 v : status_same v (status_to_v2 v).
Proof. by destruct v. Qed.
Lemma prop_same_v2 v : same_prop v (prop_to_v2 v).
Proof.
  constructor; simpl; auto using exp_same_v2, thr_same_v2, status_same_v2.
  destruct (vr_min v); simpl; auto using exp_same_v2.
Qed.
Lemma cfg_same_v2 c close veto : same_config c (cfg_to_v2 c close veto).
Proof.
  constructor; simpl; auto using thr_same_v2, dur_same_v2.
  destruct (vg_min c); simpl; auto using dur_same_v2.
Qed.

Lemma over_v2 e b : is_expired (exp_to_v2 e) b = true <-> over e b.
Proof. destruct e; simpl; rewrite ?Z.leb_le; done. Qed.
Lemma min_over_v2 v b : min_ok (prop_to_v2 v) b <-> min_over v b.
Proof.
  unfold min_ok, min_over. simpl. destruct (vr_min v); simpl; [|done]. apply over_v2.
Qed.
Lemma v1_wprop b v : v1_prop b v -> wprop b (prop_to_v2 v).
Proof.
  intros [A B C D E]. constructor; simpl; try done.
  - intros b'. rewrite over_v2, min_over_v2. eauto.
  - intros e H. destruct (vr_status v); done.
  - intros H. apply min_over_v2, C. destruct (vr_status v); simpl in H; auto; done.
  - intros Hr Hd. apply over_v2, D; [done|]. intros H. by rewrite H in Hd.
  - apply E, thr_same_v2.
Qed.
Lemma v1_prop_time b b' v : block_le b b' -> v1_prop b v -> v1_prop b' v.
Proof.
  assert (forall e, block_le b b' -> over e b -> over e b') as Ho.
  { intros e [? ?]. destruct e; simpl; lia. }
  intros Hb [A B C D E]. constructor; eauto.
  - unfold block_le in Hb. lia.
  - intros H. specialize (C H). unfold min_over in *. destruct (vr_min v); eauto.
Qed.

(** ** The migration *)
Lemma all_settled (m : gmap Z vproposal) :
  forallb (fun kv => negb (outstanding kv.2)) (map_to_list m) = true <->
  forall id v, m !! id = Some v -> outstanding v = false.
Proof.
  rewrite forallb_forall. split.
  - intros H id v Hv. apply negb_true_iff, (H (id, v)).
    by apply elem_of_list_In, elem_of_map_to_list.
  - intros H [id v] Hin. apply negb_true_iff. apply elem_of_list_In, elem_of_map_to_list in Hin.
    eauto.
Qed.
Lemma migrate_inv t v close i veto t' subs :
  migrate t v (FromV1 close i veto) = Ok (t', subs) ->
  exists c pol,
    t_version t <> v /\ t_vcfg t = Some c /\
    validate_veto_opt veto (dur_to_v2 (vg_max c)) = Ok tt /\
    (forall id v, t_vprops t !! id = Some v -> outstanding v = false) /\
    into_initial_policy_and_messages i = (pol, subs) /\
    t' = Store (t_admin t) v (t_vcfg t) (t_vprops t) (Some (cfg_to_v2 c close veto)) (Some pol)
            (t_count t) ((prop_to_v2 <$> t_vprops t) ∪ t_props t) (t_ballots t)
            (t_phooks t) (t_vhooks t).
Proof.
  simpl. intros H.
  destruct (t_version t =? v)%N eqn:Ev; [discriminate|]. apply N.eqb_neq in Ev.
  cbn [negb] in H. destruct (t_vcfg t) as [c|] eqn:Ec; [|discriminate].
  destruct (validate_veto_opt veto (dur_to_v2 (vg_max c))) as [[]|] eqn:Evt; [|discriminate].
  destruct (into_initial_policy_and_messages i) as [pol subs'] eqn:Ei.
  destruct (forallb _ _) eqn:Ef; [|discriminate].
  injection H as <- <-. exists c, pol. do 3 (split; [done|]).
  split; [by apply all_settled|]. done.
Qed.
Lemma migrate_lookup t v close i veto t' subs id :
  migrate t v (FromV1 close i veto) = Ok (t', subs) ->
  t_props t' !! id =
    match t_vprops t !! id with Some w => Some (prop_to_v2 w) | None => t_props t !! id end.
Proof.
  intros H. apply migrate_inv in H as (c & pol & _ & _ & _ & _ & _ & ->). simpl.
  destruct (t_vprops t !! id) as [w|] eqn:Ew.
  - apply lookup_union_Some_l. by rewrite lookup_fmap, Ew.
  - rewrite lookup_union_r; [done|]. by rewrite lookup_fmap, Ew.
Qed.

(** ** One step *)
Lemma t_call O t b a m t' subs :
  t_handle O t b a (TCall m) = Ok (t', subs) ->
  exists s s', live t = Some s /\ handle O s b a m = Ok (s', subs) /\ t' = put t s'.
Proof.
  simpl. intros H. destruct (live t) as [s|] eqn:El; [|discriminate].
  destruct (handle O s b a m) as [[s' subs']|] eqn:E; [|discriminate].
  injection H as <- <-. eauto.
Qed.
Lemma t_step O t b a m t' subs :
  no_v1 a m -> t_handle O t b a m = Ok (t', subs) ->
  (exists m' s s', m = TCall m' /\ live t = Some s /\ handle O s b a m' = Ok (s', subs) /\
     t' = put t s') \/
  (t_props t' = t_props t /\ live t' = live t /\ subs = []).
Proof.
  intros Hm H. destruct m as [m|v [close i veto|]].
  - left. apply t_call in H as (s & s' & ? & ? & ?). eauto 10.
  - done.
  - right. simpl in H. destruct (a =? t_admin t)%N; [|discriminate]. injection H as <- <-. done.
Qed.
Lemma t_fail_inv t b x t' : t_fail t b x = Ok t' ->
  exists s s', live t = Some s /\ on_fail s b x = Ok s' /\ t' = put t s'.
Proof.
  unfold t_fail. intros H. destruct (live t) as [s|] eqn:El; [|discriminate].
  destruct (on_fail s b x) as [s'|] eqn:E; [|discriminate]. injection H as <-. eauto.
Qed.
Lemma t_ok_inv t b x d t' : t_ok t b x d = Ok t' ->
  exists s s', live t = Some s /\ on_ok s b x d = Ok s' /\ t' = put t s'.
Proof.
  unfold t_ok. intros H. destruct (live t) as [s|] eqn:El; [|discriminate].
  destruct (on_ok s b x d) as [s'|] eqn:E; [|discriminate]. injection H as <-. eauto.
Qed.

(** ** After the last reading of version one's data *)
Definition tinv (b : block) (t : store) : Prop := forall s, live t = Some s -> winv b s.
Definition tpend (b : block) (t : store) (x : sub) : Prop :=
  exists s, live t = Some s /\ pend b s x.
Lemma tinv_time b b' t : block_le b b' -> tinv b t -> tinv b' t.
Proof. intros Hb H s Hs. eapply winv_time; eauto. Qed.
Lemma tinv_put b t s : winv b s -> tinv b (put t s).
Proof. intros H s'. rewrite live_put. by intros [= <-]. Qed.

Lemma migrate_tinv b t v close i veto t' subs :
  v1_left b t -> migrate t v (FromV1 close i veto) = Ok (t', subs) -> tinv b t'.
Proof.
  intros [(c & Hc & Hcfg) B C D E (Z1 & Z2 & Z3)] H.
  pose proof (fun id => migrate_lookup _ _ _ _ _ _ _ id H) as Hl.
  apply migrate_inv in H as (c' & pol & _ & Hc' & Hv & _ & _ & ->).
  rewrite Hc in Hc'. injection Hc' as <-.
  assert (forall id, is_Some (((prop_to_v2 <$> t_vprops t) ∪ t_props t) !! id) <->
    is_Some (t_vprops t !! id)) as Hdom.
  { intros id. specialize (Hl id). cbn [t_props] in Hl. rewrite Hl. rewrite Z1, lookup_empty. destruct (t_vprops t !! id); split; intros [? ?]; try done; eauto. }
  intros s Hs. injection Hs as <-. constructor; simpl.
  - specialize (Hcfg (cfg_to_v2 c close None) (cfg_same_v2 c close None) eq_refl).
    unfold validate_config in *. simpl in *.
    destruct (validate_threshold _) as [[]|]; [|discriminate].
    destruct (validate_voting_period _ _) as [[]|]; [|discriminate]. done.
  - done.
  - intros id. by rewrite <- C, <- Hdom.
  - intros id p Hp. specialize (Hl id). cbn [t_props] in Hl. rewrite Hp in Hl. rewrite Z1, lookup_empty in Hl.
    destruct (t_vprops t !! id) as [w|] eqn:Ew; [|discriminate]. injection Hl as ->.
    apply v1_wprop. eauto.
  - intros id a bl Hb. apply Hdom. eauto.
Qed.

Notation ttrace O := (trace (t_handle O) t_fail t_ok no_v1 tinv tpend).
Lemma t_handle_tinv O b t a m t' subs :
  tinv b t -> no_v1 a m -> t_handle O t b a m = Ok (t', subs) ->
  tinv b t' /\ forall x, x ∈ subs -> tpend b t' x.
Proof.
  intros HI Hm H. destruct (t_step O t b a m t' subs Hm H)
    as [(m' & s & s' & -> & Hs & Hh & ->)|(_ & El & ->)].
  - split; [apply tinv_put; eapply handle_winv; eauto|].
    intros x Hx. exists s'. split; [apply live_put|]. by eapply handle_pend.
  - split; [intros s; rewrite El; auto|]. intros x Hx. by apply elem_of_nil in Hx.
Qed.
Lemma t_fail_tinv b t x t' :
  tinv b t -> tpend b t x -> t_fail t b x = Ok t' -> tinv b t'.
Proof.
  intros HI (s1 & Hs1 & HP) H. apply t_fail_inv in H as (s & s' & Hs & Hf & ->).
  rewrite Hs1 in Hs. injection Hs as <-. apply tinv_put. eapply on_fail_winv; eauto.
Qed.
Lemma t_ok_tinv (O : oracle) b t x d t' :
  tinv b t -> t_ok t b x d = Ok t' -> tinv b t'.
Proof.
  intros HI H. apply t_ok_inv in H as (s & s' & Hs & Hf & ->).
  apply tinv_put. eapply prim_winv; [by eapply (on_ok_prims O)|eauto].
Qed.
Lemma t_handle_pend O b t a m t' subs x :
  tinv b t -> no_v1 a m -> t_handle O t b a m = Ok (t', subs) -> tpend b t x -> tpend b t' x.
Proof.
  intros HI Hm H (s1 & Hs1 & HP). destruct (t_step O t b a m t' subs Hm H)
    as [(m' & s & s' & -> & Hs & Hh & ->)|(_ & El & ->)].
  - rewrite Hs1 in Hs. injection Hs as <-. exists s'. split; [apply live_put|].
    intros d id ms c ->. eapply done_at_prims; [eauto|by eapply handle_prims|]. by eapply HP.
  - exists s1. by rewrite El.
Qed.
Lemma t_fail_pend b t x t' y :
  t_fail t b x = Ok t' -> tpend b t y -> tpend b t' y.
Proof.
  intros H (s1 & Hs1 & HP). apply t_fail_inv in H as (s & s' & Hs & Hf & ->).
  rewrite Hs1 in Hs. injection Hs as <-. exists s'. split; [apply live_put|].
  intros d id ms c ->. eapply on_fail_done; [done|]. by eapply HP.
Qed.
Lemma t_ok_pend (O : oracle) b t x d t' y :
  tinv b t -> t_ok t b x d = Ok t' -> tpend b t y -> tpend b t' y.
Proof.
  intros HI H (s1 & Hs1 & HP). apply t_ok_inv in H as (s & s' & Hs & Hf & ->).
  rewrite Hs1 in Hs. injection Hs as <-. exists s'. split; [apply live_put|].
  intros d' id ms c ->.
  eapply (done_at_prims O b s1); [eauto|apply rtc_once; by eapply on_ok_prims|]. by eapply HP.
Qed.
Lemma t_run O b0 t h t' l :
  tinv b0 t -> hist_ok b0 h -> hist_all no_v1 h -> trun O t h = (t', l) ->
  tinv (hist_end b0 h) t' /\ ttrace O b0 t l (hist_end b0 h) t'.
Proof.
  intros HI Hh HM Hr. eapply run_hist_trace; try done.
  - intros. by eapply t_handle_tinv.
  - intros. by eapply t_fail_tinv.
  - intros. by eapply (t_ok_tinv O).
  - intros. by eapply t_handle_pend.
  - intros. by eapply t_fail_pend.
  - intros. by eapply (t_ok_pend O).
  - intros. by eapply tinv_time.
Qed.
Lemma t_run_call O c b t t' l :
  tinv b t -> call_all no_v1 c -> run_call (t_handle O) t_fail t_ok b t c = Ok (t', l) ->
  tinv b t' /\ ttrace O b t l b t'.
Proof.
  intros HI HM Hr. eapply run_call_trace; try done.
  - intros. by eapply t_handle_tinv.
  - intros. by eapply t_fail_tinv.
  - intros. by eapply (t_ok_tinv O).
  - intros. by eapply t_handle_pend.
  - intros. by eapply t_fail_pend.
  - intros. by eapply (t_ok_pend O).
Qed.
Lemma t_run_calls O cs b : forall t t' l,
  tinv b t -> calls_all no_v1 cs -> run_calls (t_handle O) t_fail t_ok b t cs = (t', l) ->
  tinv b t' /\ ttrace O b t l b t'.
Proof.
  induction cs as [|c cs IH]; intros t t' l HI HM Hr; simpl in Hr.
  - injection Hr as <- <-. split; [done|]. constructor. apply block_le_refl.
  - destruct HM as [HM1 HM2].
    destruct (run_call (t_handle O) t_fail t_ok b t c) as [[t1 l1]|] eqn:E.
    + destruct (run_calls (t_handle O) t_fail t_ok b t1 cs) as [t2 l2] eqn:E2.
      injection Hr as <- <-.
      destruct (t_run_call O c b t t1 l1 HI HM1 E) as [HI1 HT1].
      destruct (IH t1 t2 l2 HI1 HM2 E2) as [HI2 HT2].
      split; [done|]. by eapply trace_app.
    + by eapply IH.
Qed.

(** ** Dispatches *)
Definition tdone (t : store) (id : Z) : Prop :=
  exists p, t_props t !! id = Some p /\ done_st (p_status p).
Lemma tdone_live t s id : live t = Some s -> (tdone t id <-> done_at s id).
Proof.
  intros H. apply live_fields in H as (E & _). unfold tdone, done_at. by rewrite E.
Qed.
Lemma t_dispatch_nonneg id e : 0 <= t_dispatch id e.
Proof.
  destruct e; simpl; [|lia]. apply lsum_nonneg. intros x _. destruct x; simpl; try lia.
  destruct (_ =? _); lia.
Qed.
Lemma t_dispatch_legit O e id :
  legit (t_handle O) t_fail t_ok no_v1 tinv tpend e ->
  t_dispatch id e <= 1 /\
  (t_dispatch id e = 1 -> tdone (ev_post e) id) /\
  (tdone (ev_pre e) id -> t_dispatch id e = 0 /\ tdone (ev_post e) id).
Proof.
  intros (HI & HI' & H). destruct e as [pre b a m post subs|pre b x ok post]; simpl in *.
  - destruct H as [Hm H]. destruct (t_step O pre b a m post subs Hm H)
      as [(m' & s & s' & -> & Hs & Hh & ->)|(Ep & El & ->)].
    + rewrite !(tdone_live pre s) by done. rewrite !(tdone_live _ s') by apply live_put.
      apply (ev_dispatch_legit O (ECall s b a m' s' subs)).
      split; [simpl; eauto|]. split; [simpl; eapply HI', live_put|]. split; done.
    + split; [simpl; lia|]. split; [simpl; lia|]. intros (p & Hp & Hd). split; [done|].
      exists p. by rewrite Ep.
  - split; [lia|]. split; [lia|]. intros Hd. split; [done|].
    destruct ok.
    + destruct H as [_ [d H]]. apply t_ok_inv in H as (s & s' & Hs & Hf & ->).
      rewrite (tdone_live pre s) in Hd by done. rewrite (tdone_live _ s') by apply live_put.
      eapply (done_at_prims O b s); [eauto| |done]. apply rtc_once. by eapply on_ok_prims.
    + destruct H as [_ H]. apply t_fail_inv in H as (s & s' & Hs & Hf & ->).
      rewrite (tdone_live pre s) in Hd by done. rewrite (tdone_live _ s') by apply live_put.
      by eapply on_fail_done.
Qed.
Lemma t_trace_dispatches O b0 t l b1 t' id :
  ttrace O b0 t l b1 t' ->
  0 <= t_dispatches id l <= 1 /\
  (t_dispatches id l = 1 -> tdone t' id) /\
  (tdone t id -> t_dispatches id l = 0 /\ tdone t' id).
Proof.
  induction 1 as [b0 b1 s Hle|b0 s e l b1 s' Hle Hpre Hleg Htr IH].
  - unfold t_dispatches. simpl. split; [lia|]. split; [lia|]. done.
  - subst s. unfold t_dispatches in *. simpl.
    pose proof (t_dispatch_nonneg id e).
    destruct (t_dispatch_legit O e id Hleg) as (A & B & C).
    destruct IH as (A' & B' & C').
    destruct (Z.eq_dec (t_dispatch id e) 1) as [E1|E1].
    + destruct (C' (B E1)) as [E0 Hd]. rewrite E0. split; [lia|]. split; [done|].
      intros Hd'. destruct (C Hd'). lia.
    + split; [lia|]. split.
      * intros E. apply B'. lia.
      * intros Hd. destruct (C Hd) as [E0 Hd1]. destruct (C' Hd1). split; [lia|done].
Qed.

(** The migration itself dispatches nothing. *)
Lemma first_run O b t a v close i veto outs t' l :
  v1_left b t -> outs_all no_v1 outs ->
  run_call (t_handle O) t_fail t_ok b t (Call a (TMigrate v (FromV1 close i veto)) outs) = Ok (t', l) ->
  exists t1 subs l1, migrate t v (FromV1 close i veto) = Ok (t1, subs) /\
    l = ECall t b a (TMigrate v (FromV1 close i veto)) t1 subs :: l1 /\
    no_exec subs /\ tinv b t' /\ ttrace O b t1 l1 b t'.
Proof.
  intros HL HM Hr. rewrite run_call_unfold in Hr.
  destruct (t_handle O t b a (TMigrate v (FromV1 close i veto))) as [[t1 subs]|] eqn:E; [|discriminate].
  destruct (run_subs (t_handle O) t_fail t_ok b t1 subs outs) as [[t2 l2]|] eqn:E2; [|discriminate].
  injection Hr as <- <-. unfold t_handle in E. destruct (a =? t_admin t)%N; [|discriminate].
  pose proof (migrate_tinv b t _ _ _ _ _ _ HL E) as HI.
  pose proof E as Hm. apply migrate_inv in E as (c & pol & _ & _ & _ & _ & Hi & _).
  exists t1, subs, l2. split; [done|]. split; [done|].
  pose proof (no_exec_init _ _ _ Hi) as Hne. split; [done|].
  assert (forall t3 x d t4, tinv b t3 -> tpend b t3 x -> t_ok t3 b x d = Ok t4 ->
    tinv b t4 /\ ttrace O b t3 [ESub t3 b x true t4] b t4) as Hstep.
  { intros t3 x d t4 HI3 HP H. pose proof (t_ok_tinv O b t3 x d t4 HI3 H) as HI4.
    split; [done|]. apply (trace_cons _ _ _ _ _ _ b t3 (ESub t3 b x true t4)); simpl;
      [apply block_le_refl|done| |constructor; apply block_le_refl].
    split; [done|]. split; [done|]. simpl. eauto. }
  destruct i as [|info]; injection Hi as <- <-.
  - assert (t2 = t1 /\ l2 = []) as [-> ->].
    { destruct outs as [|[[d inner]|] outs]; simpl in E2; injection E2 as <- <-; done. }
    split; [done|]. constructor. apply block_le_refl.
  - assert (forall t3 s, live t3 = Some s -> tpend b t3 (SInstantiate info)) as HP.
    { intros t3 s Hs. exists s. split; [done|]. intros d id ms c'. discriminate. }
    assert (forall t3 d t4, tinv b t3 -> t_ok t3 b (SInstantiate info) d = Ok t4 ->
      tinv b t4 /\ ttrace O b t3 [ESub t3 b (SInstantiate info) true t4] b t4) as Hone.
    { intros t3 d t4 HI3 H. pose proof H as H0. apply t_ok_inv in H0 as (s & s' & Hs & _).
      eapply Hstep; eauto. }
    destruct outs as [|[[d inner]|] outs]; simpl in E2.
    + destruct (t_ok t1 b (SInstantiate info) 0%N) as [t3|] eqn:E3; [|discriminate].
      injection E2 as <- <-. by eapply Hone.
    + destruct HM as [HM1 _].
      destruct (run_calls (t_handle O) t_fail t_ok b t1 inner) as [t3 l3] eqn:E3.
      destruct (t_run_calls O inner b t1 t3 l3 HI HM1 E3) as [HI3 HT3].
      destruct (t_ok t3 b (SInstantiate info) d) as [t4|] eqn:E4; [|discriminate].
      assert (t2 = t4 /\ l2 = l3 ++ [ESub t3 b (SInstantiate info) true t4]) as [-> ->].
      { destruct outs as [|[[d' inner']|] outs]; simpl in E2; injection E2 as <- <-; done. }
      destruct (Hone t3 d t4 HI3 E4) as [HI4 HT4]. split; [done|]. by eapply trace_app.
    + unfold t_fail in E2. destruct (live t1); discriminate.
Qed.
