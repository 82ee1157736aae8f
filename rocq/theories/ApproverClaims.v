(** Statements about the approver pre-propose module. *)
From Verif Require Import Base BaseProofs Exec ExecProofs VotingModel HooksModel SingleModel
  SingleSpec SingleProofs SingleLife SingleFinal PreModel PreSpec PreSingle PreProofs PreJoint
  ApproverModel.

Notation ajrun O := (run_hist (ajhandle O) ajon_fail ajon_ok).
Notation ajcall O := (run_call (ajhandle O) ajon_fail ajon_ok).
Notation ajlog := (log ajstate ajmsg ajsub).

(** An approver module instantiated for a proposal module with any past, after
    some joint history. *)
Definition ajreached (O : oracle) (b : block) (j : ajstate) (l : ajlog) : Prop :=
  exists b0 s0 l0 self pm approval v0 h,
    reached O b0 s0 l0 /\ v_instantiate pm (c_dao (s_cfg s0)) approval = Ok v0 /\
    hist_ok b0 h /\ ajrun O (AJState self s0 v0) h = (j, l) /\ block_le (hist_end b0 h) b.

Record ajinv (b : block) (j : ajstate) : Prop := {
  ai_w : winv b (aj_s j);
  ai_ids : forall id, is_Some (v_by_prop (aj_v j) !! id) -> 1 <= id <= s_count (aj_s j) }.
Definition ajpend (b : block) (j : ajstate) (x : ajsub) : Prop :=
  match x with AFromSingle x => pend b (aj_s j) x | AFromAppr _ => True end.
Record ajle (j j' : ajstate) : Prop := {
  al_prop : forall id a, v_by_prop (aj_v j) !! id = Some a -> v_by_prop (aj_v j') !! id = Some a;
  al_approval : v_approval (aj_v j') = v_approval (aj_v j);
  al_module : q_module (v_base (aj_v j')) = q_module (v_base (aj_v j));
  al_count : s_count (aj_s j) <= s_count (aj_s j');
  al_done : forall id, done_at (aj_s j) id -> done_at (aj_s j') id }.
Lemma ajle_refl j : ajle j j.
Proof. constructor; eauto; lia. Qed.
Lemma ajle_trans a b c : ajle a b -> ajle b c -> ajle a c.
Proof. intros [A1 A2 A3 A4 A5] [B1 B2 B3 B4 B5]. constructor; eauto; try congruence; lia. Qed.
Lemma ajpend_mono b j j' x : ajle j j' -> ajpend b j x -> ajpend b j' x.
Proof.
  intros HL. destruct x as [x|x]; simpl; [|done]. intros HP d id ms c ->.
  apply HL. by eapply HP.
Qed.

Lemma prims_count O b s s' : winv b s -> rtc (prim O b) s s' -> s_count s <= s_count s'.
Proof.
  intros HI H. induction H as [|s1 s2 s3 Hp Hr IH]; [lia|].
  specialize (IH (prim_winv _ _ _ _ Hp HI)). destruct Hp; simpl in *; lia.
Qed.
Lemma aj_same O b j s' :
  ajinv b j -> rtc (prim O b) (aj_s j) s' ->
  ajinv b (AJState (aj_self j) s' (aj_v j)) /\ ajle j (AJState (aj_self j) s' (aj_v j)).
Proof.
  intros [HW HI] Hr. pose proof (prims_count O b _ _ HW Hr). split; constructor; simpl; eauto.
  - by eapply prims_winv.
  - intros id Hid. apply HI in Hid. lia.
  - intros id. by apply (done_at_prims O b).
Qed.

(** The approver half of a call. *)
Lemma v_shape v self e a m v' subs :
  v_handle v self e a m = Ok (v', subs) ->
  v_approval v' = v_approval v /\ q_module (v_base v') = q_module (v_base v) /\
  ((v_by_prop v' = v_by_prop v /\ v_by_pre v' = v_by_pre v /\
    forall pm, VSPropose pm ∉ subs) \/
   exists aid act fits, m = VPropose aid act fits /\ a = v_approval v /\
     v_by_prop v' = <[e_next e := aid]> (v_by_prop v) /\
     v_by_pre v' = <[aid := e_next e]> (v_by_pre v) /\
     subs = [VSPropose (ProposeMsg [] (Some a) None act fits)]).
Proof.
  assert (forall q' xs m0, quiet_msg m0 -> pre_handle (v_base v) e a m0 = Ok (q', xs) ->
    q_module q' = q_module (v_base v)) as Hq.
  { intros q' xs m0 Hm H. by apply quiet_shape in H as ((_ & ? & _) & _). }
  assert (forall xs pm, VSPropose pm ∉ map VSBase xs) as Hno.
  { intros xs pm Hx. by apply elem_of_list_In, in_map_iff in Hx as (? & ? & _). }
  intros H. destruct m as [aid act fits|id st| |m]; cbn [v_handle] in H.
  - unfold v_propose in H. destruct (a =? v_approval v)%N eqn:Ea; [|discriminate].
    apply N.eqb_eq in Ea. injection H as <- <-. simpl. split; [done|]. split; [done|]. right.
    eauto 10.
  - unfold v_completed in H. destruct (_ =? _)%N; [|discriminate].
    destruct (v_by_prop v !! id); [|discriminate].
    destruct st; try discriminate; injection H as <- <-; split; try done; split; try done; left;
      split; try done; split; try done; intros pm Hx; by apply elem_of_list_singleton in Hx.
  - unfold v_reset in H. destruct (_ =? _)%N; [|discriminate]. injection H as <- <-.
    split; [done|]. split; [done|]. left. split; [done|]. split; [done|]. intros pm Hx.
    apply elem_of_cons in Hx as [?|Hx]; [done|]. by apply elem_of_list_singleton in Hx.
  - assert (exists m0 q' xs, quiet_msg m0 /\ pre_handle (v_base v) e a m0 = Ok (q', xs) /\
      v' = VState q' (v_approval v) (v_by_prop v) (v_by_pre v) /\ subs = map VSBase xs)
      as (m0 & q' & xs & Hm & E & -> & ->).
    { destruct m; try discriminate;
        (destruct (pre_handle (v_base v) e a _) as [[q' xs]|] eqn:E; [|discriminate]);
        injection H as <- <-; eexists _, q', xs; (split; [|split; [exact E|done]]); done. }
    simpl. split; [done|]. split; [by eapply Hq|]. left. eauto.
Qed.

Lemma ajhandle_step O b j a m j' subs :
  ajinv b j -> ajhandle O j b a m = Ok (j', subs) ->
  ajinv b j' /\ ajle j j' /\ (forall x, x ∈ subs -> ajpend b j' x) /\
  forall e aid act fits, m = AJAppr e (VPropose aid act fits) ->
    a = v_approval (aj_v j) /\ s_count (aj_s j') = s_count (aj_s j) + 1 /\
    v_by_prop (aj_v j') !! (s_count (aj_s j) + 1) = Some aid.
Proof.
  intros HI H. destruct m as [m|e0 m]; cbn [ajhandle] in H.
  - destruct (handle O (aj_s j) b a m) as [[s' ss]|] eqn:E; [|discriminate].
    injection H as <- <-.
    destruct (aj_same O b j s' HI ltac:(by eapply handle_prims)) as [A B].
    split; [done|]. split; [done|]. split; [|done].
    intros x Hx. apply elem_of_list_In, in_map_iff in Hx as (y & <- & Hy).
    apply elem_of_list_In in Hy. simpl. by eapply handle_pend.
  - destruct (a =? q_module _)%N; [discriminate|]. cbn [negb] in H.
    set (e := PEnv _ _ _ _) in H.
    destruct (v_handle (aj_v j) (aj_self j) e a m) as [[v' xs]|] eqn:Ev; [|discriminate].
    destruct (v_shape _ _ _ _ _ _ _ Ev) as (E1 & E2 & [(E3 & E4 & Hno)|Hp]).
    + assert (j' = AJState (aj_self j) (aj_s j) v' /\ subs = map AFromAppr xs) as [-> ->].
      { destruct xs as [|[pm| | | | |] rest]; try (by injection H as <- <-).
        exfalso. apply (Hno pm). left. }
      split; [|split; [|split]].
      * constructor; simpl; [apply HI|]. rewrite E3. apply (ai_ids _ _ HI).
      * constructor; simpl; rewrite ?E3; eauto; lia.
      * intros x Hx. by apply elem_of_list_In, in_map_iff in Hx as (y & <- & Hy).
      * intros e' aid act fits [= -> ->]. simpl in Ev. unfold v_propose in Ev.
        destruct (_ =? _)%N; [|discriminate]. injection Ev as <- <-.
        exfalso. eapply Hno. left.
    + destruct Hp as (aid & act & fits & -> & -> & E3 & E4 & ->).
      destruct (handle O (aj_s j) b (aj_self j) _) as [[s' ss]|] eqn:E; [|discriminate].
      injection H as <- <-. pose proof (propose_counts _ _ _ _ _ _ _ E) as Hc.
      assert (winv b s') as HW by (eapply handle_winv; [apply HI|exact E]).
      pose proof (wi_count _ _ (ai_w _ _ HI)) as H0.
      split; [|split; [|split]].
      * constructor; simpl; [done|]. intros id. rewrite E3. unfold e. simpl.
        destruct (decide (id = s_count (aj_s j) + 1)) as [->|Hne]; [lia|].
        rewrite lookup_insert_ne by done. intros Hid. apply (ai_ids _ _ HI) in Hid. lia.
      * constructor; simpl; eauto; try lia.
        -- intros id a Hl. rewrite E3. unfold e. simpl. rewrite lookup_insert_ne; [done|].
           pose proof (ai_ids _ _ HI id ltac:(eauto)). lia.
        -- intros id. apply (done_at_prims O b); [apply HI|by eapply handle_prims].
      * intros x Hx. rewrite app_nil_r in Hx.
        apply elem_of_list_In, in_map_iff in Hx as (y & <- & Hy).
        apply elem_of_list_In in Hy. simpl. by eapply handle_pend.
      * intros e' aid' act' fits' [= -> -> -> ->]. simpl. split; [done|]. split; [done|].
        rewrite E3. unfold e. simpl. by rewrite lookup_insert.
Qed.
Lemma ajfail_step b j x j' :
  ajinv b j -> ajpend b j x -> ajon_fail j b x = Ok j' -> ajinv b j' /\ ajle j j'.
Proof.
  intros HI HP H. destruct x as [x|x]; simpl in H; [|discriminate].
  destruct (on_fail (aj_s j) b x) as [s'|] eqn:E; [|discriminate]. injection H as <-.
  assert (s_count s' = s_count (aj_s j)) as Hc.
  { destruct (on_fail_shape _ _ _ _ E) as [(d & i & ms & p & -> & Hp & ->)|(_ & _ & _ & E3 & _)];
      done. }
  split; constructor; simpl; eauto; try lia.
  - eapply on_fail_winv; [apply HI|done|done].
  - rewrite Hc. apply (ai_ids _ _ HI).
  - intros id. by apply (on_fail_done _ b x).
Qed.
Lemma ajok_step (O : oracle) b j x d j' :
  ajinv b j -> ajon_ok j b x d = Ok j' -> ajinv b j' /\ ajle j j'.
Proof.
  intros HI H. destruct x as [x|x]; cbn [ajon_ok] in H.
  - destruct (on_ok (aj_s j) b x d) as [s'|] eqn:E; [|discriminate].
    assert (rtc (prim O b) (aj_s j) s') as Hr by (apply rtc_once; by eapply on_ok_prims).
    assert (j' = AJState (aj_self j) s' (aj_v j)) as ->.
    { destruct x as [| | |r id st|]; try (by injection H as <-).
      destruct (r =? aj_self j)%N; [|by injection H as <-].
      cbn [v_handle] in H. unfold v_completed in H. rewrite N.eqb_refl in H. cbn [negb] in H.
      destruct (v_by_prop (aj_v j) !! id); [|discriminate].
      destruct st; try discriminate; by injection H as <-. }
    by apply (aj_same O b).
  - injection H as <-. split; [done|apply ajle_refl].
Qed.
Notation ajtrace O := (trace (ajhandle O) ajon_fail ajon_ok any_msg ajinv ajpend).
Lemma ajinv_time b b' j : block_le b b' -> ajinv b j -> ajinv b' j.
Proof. intros Hle [A B]. constructor; eauto using winv_time. Qed.
Lemma ajreached_trace O b j l :
  ajreached O b j l -> ajinv b j /\ exists b0 j0, ajtrace O b0 j0 l b j.
Proof.
  intros (b0 & s0 & l0 & self & pm & ap & v0 & h & HR & HV & Hh & Hr & Hb).
  assert (ajinv b0 (AJState self s0 v0)) as HI.
  { unfold v_instantiate in HV. simpl in HV. injection HV as <-. constructor; simpl.
    - by eapply reached_winv.
    - intros id. rewrite lookup_empty. by intros [? ?]. }
  assert (ajinv (hist_end b0 h) j /\ ajtrace O b0 (AJState self s0 v0) l (hist_end b0 h) j)
    as [A B].
  { eapply run_hist_trace; try done; [..|apply hist_all_any].
    - intros b1 j1 a m j2 subs HI1 _ H.
      destruct (ajhandle_step O b1 j1 a m j2 subs HI1 H) as (? & ? & ? & _). done.
    - intros b1 j1 x j2 HI1 HP H. by eapply ajfail_step.
    - intros b1 j1 x d j2 HI1 HP H. by eapply (ajok_step O).
    - intros b1 j1 a m j2 subs x HI1 _ H HP.
      destruct (ajhandle_step O b1 j1 a m j2 subs HI1 H) as (? & HL & _). by eapply ajpend_mono.
    - intros b1 j1 x j2 y HI1 HP H HPy.
      destruct (ajfail_step b1 j1 x j2 HI1 HP H) as (? & HL). by eapply ajpend_mono.
    - intros b1 j1 x d j2 y HI1 HP H HPy.
      destruct (ajok_step O b1 j1 x d j2 HI1 H) as (? & HL). by eapply ajpend_mono.
    - intros b1 b2 j1. apply ajinv_time. }
  split; [by eapply ajinv_time|]. exists b0, (AJState self s0 v0).
  rewrite <- (app_nil_r l). eapply trace_app; [exact B|]. by constructor.
Qed.
Lemma ajlegit_grows O e :
  legit (ajhandle O) ajon_fail ajon_ok any_msg ajinv ajpend e -> ajle (ev_pre e) (ev_post e).
Proof.
  intros (HI & _ & He). destruct e as [pre b a m post subs|pre b x ok post].
  - destruct He as [_ He]. by destruct (ajhandle_step O b pre a m post subs HI He) as (_ & ? & _).
  - destruct ok.
    + destruct He as [HP [d He]]. by destruct (ajok_step O b pre x d post HI He).
    + destruct He as [HP He]. by destruct (ajfail_step b pre x post HI HP He).
Qed.
Lemma ajtrace_grows O b0 j l b1 j' : ajtrace O b0 j l b1 j' -> ajle j j'.
Proof.
  induction 1 as [b0 b1 s Hle|b0 s e l b1 s' Hle Hpre Hleg Htr IH]; [apply ajle_refl|].
  subst s. eapply ajle_trans; [by eapply ajlegit_grows|done].
Qed.

(** * C35 *)
(** Every proposal the module created is on record with its submission, so its
    completion - executed or closed - is handled: one message, about that
    submission. *)
Lemma c35_partial O b j l pre b' a e aid act fits post subs self e' st :
  ajreached O b j l -> ECall pre b' a (AJAppr e (VPropose aid act fits)) post subs ∈ l ->
  st = Closed \/ st = Executed ->
  let id := s_count (aj_s pre) + 1 in
  s_count (aj_s post) = id /\ a = v_approval (aj_v j) /\
  v_handle (aj_v j) self e' (q_module (v_base (aj_v j))) (VCompleted id st) =
    Ok (aj_v j, [if decide (st = Executed) then VSApprove aid else VSReject aid]).
Proof.
  intros HR He Hst id. destruct (ajreached_trace O b j l HR) as (_ & b0 & j0 & Ht).
  apply elem_of_list_split in He as (l1 & l2 & ->).
  apply trace_split in Ht as (bm & jm & _ & Ht). inversion Ht as [|? ? ? ? ? ? _ _ Hleg Ht']; subst.
  destruct Hleg as (HI & _ & _ & Hok). cbn [ev_pre ev_post ev_block] in *.
  destruct (ajhandle_step O b' pre a _ post subs HI Hok) as (_ & HL & _ & Hn).
  destruct (Hn e aid act fits eq_refl) as (Ha & Hc & Hl).
  apply ajtrace_grows in Ht'. split; [done|].
  split; [rewrite (al_approval _ _ Ht'), (al_approval _ _ HL); done|].
  apply (al_prop _ _ Ht') in Hl. fold id in Hl. cbn [v_handle]. unfold v_completed.
  rewrite N.eqb_refl, Hl. cbn [negb].
  destruct Hst as [->| ->]; done.
Qed.
(** The completion hook of a vetoed proposal is always refused. *)
Lemma c35_veto_refused v self e a id : is_ok (v_handle v self e a (VCompleted id Vetoed)) = false.
Proof.
  cbn [v_handle]. unfold v_completed. destruct (_ =? _)%N; [|done]. by destruct (_ !! _).
Qed.
