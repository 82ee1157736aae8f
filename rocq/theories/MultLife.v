(** dao-proposal-multiple: life-cycle lemmas (no assumption on the voting module). *)
From Verif Require Import Base BaseProofs Exec ExecProofs VotingModel VotingSpec
  VotingProofs HooksModel MultModel MultSpec MultProofs.

Notation slog := (log state msg sub).
Notation sevent := (event state msg sub).
Notation srun O := (run_hist (handle O) on_fail on_ok).
Notation scall O := (run_call (handle O) on_fail on_ok).

(** ** Counting dispatches in the committed log *)
Lemma no_exec_dispatch id subs : no_exec subs -> lsum (sub_dispatch id) subs = 0.
Proof.
  intros H. rewrite (lsum_ext _ (fun _ => 0)); [induction subs; simpl; [done|]; apply IHsubs|].
  - intros d i ms c Hin. eapply H. right. exact Hin.
  - intros x Hx. destruct x; simpl; try done. exfalso. by eapply H.
Qed.
Lemma ev_dispatch_nonneg id e : 0 <= ev_dispatch id e.
Proof.
  destruct e; simpl; [|lia]. apply lsum_nonneg. intros x _. destruct x; simpl; try lia.
  destruct (_ =? _); lia.
Qed.
Lemma ev_dispatch_legit O e id :
  legit (handle O) on_fail on_ok any_msg winv pend e ->
  ev_dispatch id e <= 1 /\
  (ev_dispatch id e = 1 -> done_at (ev_post e) id) /\
  (done_at (ev_pre e) id -> ev_dispatch id e = 0 /\ done_at (ev_post e) id).
Proof.
  intros (HI & _ & H). destruct e as [pre b a m post subs|pre b x ok post]; simpl in *.
  - destruct H as [_ H].
    assert (done_at pre id -> done_at post id) as Hdd.
    { intros Hd. eapply done_at_prims; [done|by eapply handle_prims|done]. }
    assert ((exists id, m = Execute id) \/ (forall id, m <> Execute id)) as [[id' ->]|Hne].
    { destruct m; try (by right); eauto. }
    + simpl in H. apply execute_execute_shape in H as (p & st & c0 & Hp & Hst & Hc0 & Hal & -> & ->).
      rewrite lsum_app, (no_exec_dispatch id (_ ++ _)) by eauto with no_exec.
      assert (lsum (sub_dispatch id)
         match ch_msgs c0 with [] => []
         | ms => [SExec (c_dao (s_cfg pre)) id' ms (c_close_on_fail (s_cfg pre))] end <=
         (if id' =? id then 1 else 0)) as Hle.
      { destruct (ch_msgs c0); simpl; destruct (_ =? _); lia. }
      destruct (id' =? id) eqn:Eid.
      * apply Z.eqb_eq in Eid as ->.
        split; [lia|]. split.
        -- intros _. exists (set_status p Executed). simpl. rewrite lookup_insert.
           split; [done|by left].
        -- intros (p' & Hp' & Hd). rewrite Hp in Hp'. injection Hp' as <-.
           exfalso. rewrite (terminal_current_ok p b (done_terminal _ Hd)) in Hst.
           injection Hst as <-.
           destruct Hd as [Hd|Hd]; rewrite Hd in Hal;
             destruct Hal as [[? _]|(? & ? & ? & _)]; discriminate.
      * assert (0 <= lsum (sub_dispatch id)
         match ch_msgs c0 with [] => []
         | ms => [SExec (c_dao (s_cfg pre)) id' ms (c_close_on_fail (s_cfg pre))] end).
        { destruct (ch_msgs c0); simpl; [lia|destruct (_ =? _); lia]. }
        split; [lia|]. split; [lia|]. intros Hd. split; [lia|by apply Hdd].
    + rewrite (no_exec_dispatch id subs) by (by eapply handle_no_exec).
      split; [lia|]. split; [lia|]. intros Hd. split; [done|by apply Hdd].
  - split; [lia|]. split; [lia|]. intros Hd. split; [done|].
    destruct ok.
    + destruct H as [_ [d H]]. eapply (done_at_prims O b pre); [done| |done].
      apply rtc_once. by eapply on_ok_prims.
    + destruct H as [_ H]. by eapply on_fail_done.
Qed.

Lemma trace_dispatches O b0 s l b1 s' id :
  strace O b0 s l b1 s' ->
  0 <= dispatches id l <= 1 /\
  (dispatches id l = 1 -> done_at s' id) /\
  (done_at s id -> dispatches id l = 0 /\ done_at s' id).
Proof.
  induction 1 as [b0 b1 s Hle|b0 s e l b1 s' Hle Hpre Hleg Htr IH].
  - unfold dispatches. simpl. split; [lia|]. split; [lia|]. done.
  - subst s. unfold dispatches in *. simpl.
    pose proof (ev_dispatch_nonneg id e).
    destruct (ev_dispatch_legit O e id Hleg) as (A & B & C).
    destruct IH as (A' & B' & C').
    destruct (Z.eq_dec (ev_dispatch id e) 1) as [E1|E1].
    + destruct (C' (B E1)) as [E0 Hd]. rewrite E0. split; [lia|]. split; [done|].
      intros Hd'. destruct (C Hd'). lia.
    + split; [lia|]. split.
      * intros E. apply B'. lia.
      * intros Hd. destruct (C Hd) as [E0 Hd1]. destruct (C' Hd1). split; [lia|done].
Qed.

(** ** Terms are fixed and every proposal was proposed *)
Lemma legit_terms O e :
  legit (handle O) on_fail on_ok any_msg winv pend e -> same_terms (ev_pre e) (ev_post e).
Proof.
  intros (HI & _ & H). destruct e as [pre b a m post subs|pre b x ok post]; simpl in *.
  - destruct H as [_ H]. apply handle_prims in H.
    induction H as [|s1 s2 s3 Hp Hr IH]; [apply same_terms_refl|].
    eapply same_terms_trans; [by eapply prim_terms|]. apply IH. by eapply prim_winv.
  - destruct ok.
    + destruct H as [_ [d H]]. eapply prim_terms; [done|by eapply (on_ok_prims O)].
    + destruct H as [_ H].
      destruct (on_fail_shape _ _ _ _ H) as [(d & id & ms & p & -> & Hp & ->)|(Hx & E1 & E2 & E3 & E4)].
      * by eapply same_terms_save.
      * split; [lia|]. rewrite E1. eauto.
Qed.
Lemma trace_terms O b0 s l b1 s' : strace O b0 s l b1 s' -> same_terms s s'.
Proof.
  apply trace_rel; [apply same_terms_refl|apply same_terms_trans|apply legit_terms].
Qed.

Lemma prim_same_dom O b s s' :
  prim O b s s' -> s_count s' = s_count s \/
    exists proposer ms st, s_count s' = s_count s + 1 /\
      s_props s' = <[s_count s + 1 := new_prop O s b proposer ms st]> (s_props s).
Proof. destruct 1; simpl; eauto 10. Qed.

(** A call that creates a proposal is a [Propose]. *)
Lemma handle_count O s b a m s' subs :
  handle O s b a m = Ok (s', subs) ->
  s_count s' = s_count s \/
  exists pm, m = Propose pm /\ s_count s' = s_count s + 1.
Proof.
  intros H. destruct m;
    try (apply (admin_shape O s b a) in H; [|exact I]; destruct H as (_ & _ & _ & _ & H & _); by left);
    simpl in H.
  - right. apply execute_propose_shape in H
      as (proposer & st & s1 & subs2 & cs & _ & _ & _ & _ & Hcs & Hst & -> & -> & Hv).
    exists pm. split; [done|]. destruct (pm_vote pm) as [[v r]|].
    + apply execute_vote_shape in Hv as (p & votes1 & st2 & H1 & Hlt & H2 & H3 & H4 & H5 & -> & ->). done.
    + by destruct Hv as [-> ->].
  - apply execute_vote_shape in H as (p & votes1 & st2 & H1 & Hlt & H2 & H3 & H4 & H5 & -> & ->). by left.
  - unfold execute_update_rationale in H. destruct (s_ballots s !! _); [|discriminate].
    injection H as <- <-. by left.
  - apply execute_execute_shape in H as (p & st & c0 & Hp & Hst & Hc0 & Hal & -> & ->). by left.
  - apply execute_veto_shape in H as (p & st & vc & Hp & Hst & _ & _ & Hal & -> & ->). by left.
  - apply execute_close_shape in H as (p & Hp & Hst & -> & ->). by left.
Qed.

(** What a successful [Propose] records. *)
Lemma handle_propose_terms O s b a pm s' subs :
  handle O s b a (Propose pm) = Ok (s', subs) ->
  s_count s' = s_count s + 1 /\
  exists p, s_props s' !! (s_count s + 1) = Some p /\
    p_start p = height b /\
    p_min p = option_map (fun d => after d b) (c_min (s_cfg s)) /\
    p_exp p = after (c_max (s_cfg s)) b /\
    p_quorum p = c_quorum (s_cfg s) /\
    p_total p = tnow O (c_dao (s_cfg s)) b (s_count s + 1) /\
    into_checked (pm_options pm) = Ok (p_choices p) /\
    p_revote p = c_revote (s_cfg s) /\
    p_veto p = c_veto (s_cfg s) /\
    match s_policy s with
    | Anyone => pm_proposer pm = None /\ p_proposer p = a
    | Module mo => a = mo /\ pm_proposer pm = Some (p_proposer p)
    end.
Proof.
  simpl. intros H. apply execute_propose_shape in H
      as (proposer & st & s1 & subs2 & cs & Hper & Hpr & _ & _ & Hcs & Hst & -> & -> & Hv).
  assert (match s_policy s with
    | Anyone => pm_proposer pm = None /\ proposer = a
    | Module mo => a = mo /\ pm_proposer pm = Some proposer
    end) as Hpol.
  { unfold decide_proposer, is_permitted in *.
    destruct (s_policy s), (pm_proposer pm); try discriminate;
      injection Hpr as <-; split; try done. apply N.eqb_eq in Hper. done. }
  destruct (pm_vote pm) as [[v r]|].
  - apply execute_vote_shape in Hv as (p & votes1 & st2 & H1 & Hlt & H2 & H3 & H4 & H5 & -> & ->).
    simpl in *. split; [done|]. rewrite lookup_insert in H1. injection H1 as <-.
    rewrite lookup_insert. eexists. split; [reflexivity|]. simpl. repeat split; done.
  - destruct Hv as [-> ->]. simpl. split; [done|].
    rewrite lookup_insert. eexists. split; [reflexivity|]. simpl. repeat split; done.
Qed.

Lemma trace_created O b0 s l b1 s' id :
  strace O b0 s l b1 s' -> winv b0 s ->
  s_props s !! id = None -> is_Some (s_props s' !! id) ->
  exists pre b a pm post subs,
    ECall pre b a (Propose pm) post subs ∈ l /\
    handle O pre b a (Propose pm) = Ok (post, subs) /\
    s_count pre + 1 = id /\ same_terms post s'.
Proof.
  intros Htr. induction Htr as [b0 b1 s Hle|b0 s e l b1 s' Hle Hpre Hleg Htr IH];
    intros HI Hn Hs; [rewrite Hn in Hs; by destruct Hs|].
  subst s. pose proof Hleg as (HI1 & HI2 & He).
  destruct (s_props (ev_post e) !! id) as [p|] eqn:Ep.
  - assert (1 <= id <= s_count (ev_post e)) as Hid by (apply (wi_ids _ _ HI2); eauto).
    assert (~ (1 <= id <= s_count (ev_pre e))) as Hid0.
    { intros Hx. apply (wi_ids _ _ HI1) in Hx as [? Hx]. congruence. }
    destruct e as [pre b a m post subs|pre b x ok post]; simpl in *.
    + destruct He as [_ He]. destruct (handle_count _ _ _ _ _ _ _ He) as [Ec|(pm & -> & Ec)]; [lia|].
      exists pre, b, a, pm, post, subs. split; [left|]. split; [done|]. split; [lia|].
      by eapply trace_terms.
    + destruct ok.
      * destruct He as [_ [d He]].
        assert (s_count post = s_count pre); [|lia].
        destruct x; simpl in He; injection He as <-; done.
      * destruct He as [_ He]. destruct (on_fail_shape _ _ _ _ He)
          as [(d & id0 & ms & p0 & -> & Hp0 & ->)|(Hx & E1 & E2 & E3 & E4)]; simpl in *; lia.
  - destruct (IH HI2 eq_refl Hs) as (pre & b & a & pm & post & subs & Hin & Hrest).
    exists pre, b, a, pm, post, subs. split; [by right|done].
Qed.

(** ** Terminal statuses *)

(** From a state between transactions, a terminal status never changes. *)
Lemma terminal_forever O b0 s h s' l id st :
  winv b0 s -> hist_ok b0 h -> srun O s h = (s', l) ->
  status_of s id = Some st -> terminal st -> status_of s' id = Some st.
Proof.
  intros HI Hh Hr Hst Ht.
  pose (I' := fun b s => winv b s /\ status_of s id = Some st).
  pose (P' := fun b s (x : sub) => pend b s x /\ forall d ms c, x <> SExec d id ms c).
  assert (forall b s s1, winv b s -> rtc (prim O b) s s1 -> status_of s id = Some st ->
            status_of s1 id = Some st) as Hkeep.
  { intros b s1 s2 HI1 Hr1 Hs1. unfold status_of in *.
    destruct (s_props s1 !! id) as [p|] eqn:Ep; [|done]. simpl in Hs1.
    injection Hs1 as Hs1. rewrite <- Hs1 in Ht.
    destruct (prims_terminal O b s1 s2 id p HI1 Hr1 Ep Ht) as (p' & -> & E').
    simpl. congruence. }
  edestruct (run_hist_trace (handle O) on_fail on_ok any_msg I' P') as [[_ Hfin] _];
    [..|done|apply hist_all_any|exact Hr|exact Hfin]; unfold I', P'.
  - intros b s1 a m s2 subs [HI1 Hs1] _ H. split.
    + split; [by eapply handle_winv|]. eapply Hkeep; [done|by eapply handle_prims|done].
    + intros x Hx. split; [by eapply handle_pend|]. intros d ms c ->.
      assert ((exists id, m = Execute id) \/ (forall id, m <> Execute id)) as [[id' ->]|Hne].
      { destruct m; try (by right); eauto. }
      * simpl in H. apply execute_execute_shape in H as (p & st' & c0 & Hp & Hst' & Hc0 & Hal & -> & ->).
        rewrite !elem_of_app in Hx.
        destruct Hx as [Hin|[Hin|Hin]];
          [|by apply no_exec_changed in Hin|by apply no_exec_completed in Hin].
        destruct (ch_msgs c0); [by apply elem_of_nil in Hin|].
        apply elem_of_list_singleton in Hin. injection Hin as -> -> -> ->.
        unfold status_of in Hs1. rewrite Hp in Hs1. injection Hs1 as Hs1. subst st.
        rewrite (terminal_current_ok p b Ht) in Hst'. injection Hst' as <-.
        destruct Ht as [E|[E|[E|E]]]; rewrite E in Hal;
          destruct Hal as [[? _]|(? & ? & ? & _)]; discriminate.
      * by eapply (handle_no_exec _ _ _ _ _ _ _ H Hne).
  - intros b s1 x s2 [HI1 Hs1] [HP Hne] H. split; [by eapply on_fail_winv|].
    destruct (on_fail_shape _ _ _ _ H) as [(d & id0 & ms & p0 & -> & Hp0 & ->)|(Hx & E1 & _)].
    + unfold status_of. simpl. rewrite lookup_insert_ne; [done|]. intros <-. by eapply Hne.
    + unfold status_of. by rewrite E1.
  - intros b s1 x d s2 [HI1 Hs1] [HP Hne] H. apply (on_ok_prims O) in H.
    split; [by eapply prim_winv|]. eapply Hkeep; [done|by apply rtc_once|done].
  - intros b s1 a m s2 subs x [HI1 Hs1] _ H [HP Hne]. split; [|done].
    intros d id' ms c ->. eapply done_at_prims; [done|by eapply handle_prims|]. by eapply HP.
  - intros b s1 x s2 y [HI1 Hs1] _ H [HP Hne]. split; [|done].
    intros d id' ms c ->. eapply on_fail_done; [done|]. by eapply HP.
  - intros b s1 x d s2 y [HI1 Hs1] _ H [HP Hne]. split; [|done].
    intros d' id' ms c ->.
    eapply (done_at_prims O b s1); [done|apply rtc_once; by eapply on_ok_prims|]. by eapply HP.
  - intros b b' s1 Hb [HI1 Hs1]. split; [by eapply winv_time|done].
  - done.
Qed.

(** ** Veto *)
Lemma legit_vetoed O e id :
  legit (handle O) on_fail on_ok any_msg winv pend e ->
  status_of (ev_post e) id = Some Vetoed -> status_of (ev_pre e) id <> Some Vetoed ->
  exists pre b a post subs p vc st,
    e = ECall pre b a (Veto id) post subs /\
    s_props pre !! id = Some p /\ p_veto p = Some vc /\ a = vc_vetoer vc /\
    current_status p b = Ok st /\
    ((st = Open /\ vc_veto_before_passed vc = true) \/
     (exists x, st = VetoTimelock x /\ is_expired x b = false)).
Proof.
  intros (HI & _ & He) Hpost Hpre.
  assert (forall b p st, current_status p b = Ok st -> st = Vetoed -> p_status p = Vetoed) as Hcur.
  { intros b p st Hc ->. apply current_status_cases in Hc.
    destruct (p_status p); try congruence; naive_solver. }
  destruct e as [pre b a m post subs|pre b x ok post]; simpl in *.
  - destruct He as [_ He].
    destruct m; try (apply (admin_shape O pre b a) in He; [|exact I];
      destruct He as (_ & _ & E & _); unfold status_of in *; rewrite E in Hpost; done); simpl in He.
    + exfalso. apply execute_propose_shape in He
        as (proposer & st & s1 & subs2 & cs & _ & _ & _ & _ & Hcs & Hst & -> & -> & Hv).
      assert (forall st', current_status (new_prop O pre b proposer cs Open) b = Ok st' ->
         st' <> Vetoed) as Hnv.
      { intros st' H' E. by apply (Hcur _ _ _ H') in E. }
      destruct (pm_vote pm) as [[v r]|].
      * apply execute_vote_shape in Hv as (p & votes1 & st2 & H1 & Hlt & H2 & H3 & H4 & H5 & -> & ->).
        unfold status_of in Hpost. simpl in *.
        rewrite lookup_insert in H1. injection H1 as <-.
        destruct (decide (id = s_count pre + 1)) as [->|Hne].
        -- rewrite lookup_insert in Hpost. injection Hpost as Hpost.
           apply (Hcur _ _ _ H5) in Hpost. simpl in Hpost. by apply (Hnv st).
        -- rewrite !lookup_insert_ne in Hpost by done. done.
      * destruct Hv as [-> ->]. unfold status_of in Hpost. simpl in *.
        destruct (decide (id = s_count pre + 1)) as [->|Hne].
        -- rewrite lookup_insert in Hpost. injection Hpost as Hpost. by apply (Hnv st).
        -- rewrite !lookup_insert_ne in Hpost by done. done.
    + exfalso. apply execute_vote_shape in He as (p & votes1 & st2 & H1 & Hlt & H2 & H3 & H4 & H5 & -> & ->).
      unfold status_of in *. simpl in *.
      destruct (decide (id = id0)) as [->|Hne].
      * rewrite lookup_insert in Hpost. injection Hpost as Hpost.
        apply (Hcur _ _ _ H5) in Hpost. simpl in Hpost.
        rewrite H1 in Hpre. apply Hpre. simpl. by rewrite Hpost.
      * rewrite !lookup_insert_ne in Hpost by done. done.
    + exfalso. unfold execute_update_rationale in He. destruct (s_ballots pre !! _); [|discriminate].
      injection He as <- <-. done.
    + exfalso. apply execute_execute_shape in He as (p & st & c0 & Hp & Hst & Hc0 & Hal & -> & ->).
      unfold status_of in *. simpl in *. destruct (decide (id = id0)) as [->|Hne].
      * by rewrite lookup_insert in Hpost.
      * rewrite !lookup_insert_ne in Hpost by done. done.
    + apply execute_veto_shape in He as (p & st & vc & Hp & Hst & Hv & Ha & Hal & -> & ->).
      unfold status_of in *. simpl in *. destruct (decide (id = id0)) as [->|Hne].
      * eexists pre, b, a, _, _, p, vc, st. eauto 10.
      * rewrite !lookup_insert_ne in Hpost by done. done.
    + exfalso. apply execute_close_shape in He as (p & Hp & Hst & -> & ->).
      unfold status_of in *. simpl in *. destruct (decide (id = id0)) as [->|Hne].
      * by rewrite lookup_insert in Hpost.
      * rewrite !lookup_insert_ne in Hpost by done. done.
  - exfalso. destruct ok.
    + destruct He as [_ [d He]]. unfold status_of in *.
      destruct x; simpl in He; injection He as <-; done.
    + destruct He as [_ He]. unfold status_of in *.
      destruct (on_fail_shape _ _ _ _ He) as [(d & id0 & ms & p0 & -> & Hp0 & ->)|(Hx & E1 & _)].
      * simpl in *. destruct (decide (id = id0)) as [->|Hne].
        -- by rewrite lookup_insert in Hpost.
        -- rewrite !lookup_insert_ne in Hpost by done. done.
      * by rewrite E1 in Hpost.
Qed.

(** ** Dispatching calls *)
Lemma legit_dispatch O pre b a m post subs d id ms c :
  legit (handle O) on_fail on_ok any_msg winv pend (ECall pre b a m post subs) ->
  SExec d id ms c ∈ subs ->
  m = Execute id /\ exists p st c0,
    s_props pre !! id = Some p /\ calculate_vote_result p = Ok (SingleWinner c0) /\ ms = ch_msgs c0 /\ d = c_dao (s_cfg pre) /\
    c = c_close_on_fail (s_cfg pre) /\
    current_status p b = Ok st /\
    ((st = Passed /\ (c_only_members (s_cfg pre) = true ->
                      vp O (c_dao (s_cfg pre)) a (p_start p) <> 0) /\
      (forall vc e, p_veto p = Some vc -> exp_add (p_exp p) (vc_timelock vc) = Ok e ->
                    is_expired e b = true)) \/
     (exists e vc, st = VetoTimelock e /\ p_veto p = Some vc /\ vc_vetoer vc = a /\
                   vc_early_execute vc = true)) /\
    min_ok p b.
Proof.
  intros (HI & _ & _ & He) Hx. simpl in *.
  assert ((exists id, m = Execute id) \/ (forall id, m <> Execute id)) as [[id' ->]|Hne].
  { destruct m; try (by right); eauto. }
  - simpl in He. apply execute_execute_shape in He as (p & st & c0 & Hp & Hst & Hc0 & Hal & -> & ->).
    rewrite !elem_of_app in Hx.
    destruct Hx as [Hin|[Hin|Hin]];
      [|by apply no_exec_changed in Hin|by apply no_exec_completed in Hin].
    assert (id = id' /\ ms = ch_msgs c0 /\ d = c_dao (s_cfg pre) /\
              c = c_close_on_fail (s_cfg pre)) as (-> & -> & -> & ->).
    { destruct (ch_msgs c0); [by apply elem_of_nil in Hin|].
      apply elem_of_list_singleton in Hin. by injection Hin as -> -> -> ->. }
    split; [done|]. exists p, st, c0. repeat split; try done.
    + pose proof (wprop_current b p st (wi_props _ _ HI _ _ Hp) Hst) as Hw.
      destruct Hal as [[-> Hc]|Hal]; [left|by right].
      split; [done|]. split.
      * unfold sender_can_execute in Hc. intros E. rewrite E in Hc. lia.
      * intros vc e Hv He. by eapply (w_passed _ _ Hw).
    + pose proof (wprop_current b p st (wi_props _ _ HI _ _ Hp) Hst) as Hw.
      apply (w_passed_min _ _ Hw). simpl.
      destruct Hal as [[-> Hc]|(e & vc & -> & _)]; done.
  - by apply (handle_no_exec _ _ _ _ _ _ _ He Hne) in Hx.
Qed.

(** ** Administration *)
Lemma legit_admin O e :
  legit (handle O) on_fail on_ok any_msg winv pend e ->
  match e with
  | ECall pre b a m post subs =>
      a = c_dao (s_cfg pre) \/
      (s_cfg post = s_cfg pre /\ s_policy post = s_policy pre /\
       s_phooks post = s_phooks pre /\ s_vhooks post = s_vhooks pre)
  | ESub pre b x true post =>
      s_cfg post = s_cfg pre /\ s_phooks post = s_phooks pre /\ s_vhooks post = s_vhooks pre /\
      (s_policy post = s_policy pre \/ exists info d, x = SInstantiate info /\ s_policy post = Module d)
  | ESub pre b x false post =>
      s_cfg post = s_cfg pre /\
      (s_policy post = s_policy pre \/ exists r id st, x = SCompleted r id st /\ s_policy post = Anyone) /\
      (s_phooks post = s_phooks pre \/
       exists i r m, x = SPropHook i r m /\ remove_hook_by_index (s_phooks pre) i = Ok (s_phooks post)) /\
      (s_vhooks post = s_vhooks pre \/
       exists i r id v vt, x = SVoteHook i r id v vt /\
         remove_hook_by_index (s_vhooks pre) i = Ok (s_vhooks post))
  end.
Proof.
  intros (HI & _ & He). destruct e as [pre b a m post subs|pre b x ok post]; simpl in *.
  - destruct He as [_ He]. destruct m;
    try (apply (admin_shape O pre b a) in He; [|exact I]; left; by destruct He); simpl in He; right.
    + apply execute_propose_shape in He
        as (proposer & st & s1 & subs2 & cs & _ & _ & _ & _ & Hcs & Hst & -> & -> & Hv).
      destruct (pm_vote pm) as [[v r]|].
      * apply execute_vote_shape in Hv as (p & votes1 & st2 & H1 & Hlt & H2 & H3 & H4 & H5 & -> & ->). done.
      * by destruct Hv as [-> ->].
    + apply execute_vote_shape in He as (p & votes1 & st2 & H1 & Hlt & H2 & H3 & H4 & H5 & -> & ->). done.
    + unfold execute_update_rationale in He. destruct (s_ballots pre !! _); [|discriminate].
      by injection He as <- <-.
    + by apply execute_execute_shape in He as (p & st & c0 & Hp & Hst & Hc0 & Hal & -> & ->).
    + by apply execute_veto_shape in He as (p & st & vc & Hp & Hst & Hv & Ha & Hal & -> & ->).
    + by apply execute_close_shape in He as (p & Hp & Hst & -> & ->).
  - destruct ok.
    + destruct He as [_ [d He]]. destruct x; simpl in He; injection He as <-; simpl; eauto 10.
    + destruct He as [_ He]. destruct x; simpl in He.
      * destruct caught; [|discriminate]. destruct (s_props pre !! id); [|discriminate].
        injection He as <-. simpl. eauto 10.
      * rewrite Nat2Z.id in He.
        destruct (remove_hook_by_index _ _) eqn:E; [|discriminate]. injection He as <-. simpl.
        split; [done|]. split; [by left|]. split; [right; eauto 10|by left].
      * rewrite Nat2Z.id in He.
        destruct (remove_hook_by_index _ _) eqn:E; [|discriminate]. injection He as <-. simpl.
        split; [done|]. split; [by left|]. split; [by left|right; eauto 10].
      * destruct (s_policy pre); [discriminate|]. injection He as <-. simpl.
        split; [done|]. split; [right; eauto 10|]. split; by left.
      * discriminate.
Qed.

(** ** Execution failure *)
Lemma run_subs_status O b s subs outs s' l id st :
  winv b s -> status_of s id = Some st -> terminal st ->
  (forall x, x ∈ subs -> pend b s x) -> no_exec subs ->
  run_subs (handle O) on_fail on_ok b s subs outs = Ok (s', l) ->
  status_of s' id = Some st.
Proof.
  (* A dummy outer call whose handler yields [subs] reduces this to the rule. *)
  intros HI Hst Ht HP Hne Hr.
  pose (I' := fun b s => winv b s /\ status_of s id = Some st).
  revert s subs l HI Hst HP Hne Hr.
  assert (forall s s1, winv b s -> rtc (prim O b) s s1 -> status_of s id = Some st ->
            status_of s1 id = Some st) as Hkeep.
  { intros s1 s2 HI1 Hr1 Hs1. unfold status_of in *.
    destruct (s_props s1 !! id) as [p|] eqn:Ep; [|done]. simpl in Hs1.
    injection Hs1 as Hs1. rewrite <- Hs1 in Ht.
    destruct (prims_terminal O b s1 s2 id p HI1 Hr1 Ep Ht) as (p' & -> & E').
    simpl. congruence. }
  assert (forall subs s s' (l : slog), winv b s -> status_of s id = Some st -> no_exec subs ->
    run_quiet on_ok b s subs = Ok (s', l) -> status_of s' id = Some st) as Hquiet.
  { induction subs as [|x subs IH]; intros s s1 l HI Hst Hne Hr; simpl in Hr.
    - by injection Hr as <- <-.
    - destruct (on_ok s b x 0%N) as [s2|] eqn:E; [|discriminate].
      destruct (run_quiet on_ok b s2 subs) as [[s3 l3]|] eqn:E3; [|discriminate].
      injection Hr as <- <-. apply (on_ok_prims O) in E.
      eapply IH; [| | |exact E3].
      + by eapply prim_winv.
      + eapply Hkeep; [done|by apply rtc_once|done].
      + intros d i ms c Hin. eapply Hne. by right. }
  induction outs as [|o outs IH]; intros s subs l HI Hst HP Hne Hr.
  - eapply Hquiet; [..|exact Hr]; done.
  - cbn [run_subs] in Hr. destruct subs as [|x subs]; [by injection Hr as <- <-|].
    assert (no_exec subs) as Hne'. { intros d i ms c Hin. eapply Hne. by right. }
    destruct o as [[d inner]|].
    + change ((let '(s1, l1) := run_calls (handle O) on_fail on_ok b s inner in
         do! s' <- on_ok s1 b x d;
         do! ' (s'', l) <- run_subs (handle O) on_fail on_ok b s' subs outs;
         Ok (s'', l1 ++ ESub s1 b x true s' :: l)) = Ok (s', l)) in Hr.
      destruct (run_calls (handle O) on_fail on_ok b s inner) as [s1 l1] eqn:Ec.
      destruct (on_ok s1 b x d) as [s2|] eqn:E; [|discriminate].
      destruct (run_subs (handle O) on_fail on_ok b s2 subs outs) as [[s3 l3]|] eqn:E3; [|discriminate].
      injection Hr as <- <-.
      assert (winv b s1 /\ status_of s1 id = Some st) as [HI1 Hst1].
      { (* inner calls form a history in block b *)
        assert (forall cs s s1 l1, run_calls (handle O) on_fail on_ok b s cs = (s1, l1) ->
           run_hist (handle O) on_fail on_ok s (map (fun c => (b, c)) cs) = (s1, l1)) as Hc2h.
        { induction cs as [|c cs IHc]; intros t t1 k Hk; simpl in *; [done|].
          destruct (run_call (handle O) on_fail on_ok b t c) as [[t2 k2]|]; [|by apply IHc].
          destruct (run_calls (handle O) on_fail on_ok b t2 cs) as [t3 k3] eqn:Ek.
          rewrite (IHc _ _ _ Ek). done. }
        apply Hc2h in Ec.
        assert (forall cs, hist_ok b (map (fun c : call msg => (b, c)) cs)) as Hok.
        { induction cs; simpl; [done|]. split; [apply block_le_refl|done]. }
        assert (forall cs, hist_end b (map (fun c : call msg => (b, c)) cs) = b) as Hend.
        { induction cs; simpl; done. }
        destruct (mult_trace O b s _ s1 l1 HI (Hok inner) Ec) as [HI1 _].
        rewrite Hend in HI1. split; [done|].
        by eapply (terminal_forever O b s _ s1 l1 id st HI (Hok inner) Ec). }
      assert (status_of s2 id = Some st) as Hst2.
      { eapply Hkeep; [exact HI1|apply rtc_once; by eapply on_ok_prims|done]. }
      eapply (IH s2 subs l3); try done.
      * eapply prim_winv; [by eapply (on_ok_prims O)|done].
      * intros y Hy. by eapply no_exec_pend.
    + destruct (on_fail s b x) as [s2|] eqn:E; [|discriminate].
      change ((do! ' (s'', l) <- run_subs (handle O) on_fail on_ok b s2 subs outs;
         Ok (s'', ESub s b x false s2 :: l)) = Ok (s', l)) in Hr.
      destruct (run_subs (handle O) on_fail on_ok b s2 subs outs) as [[s3 l3]|] eqn:E3; [|discriminate].
      injection Hr as <- <-.
      eapply (IH s2 subs l3); try done.
      * eapply on_fail_winv; [done| |done]. apply HP. left.
      * destruct (on_fail_shape _ _ _ _ E) as [(d & id0 & ms & p0 & -> & Hp0 & ->)|(Hx & E1 & _)].
        -- exfalso. eapply Hne. left.
        -- unfold status_of. by rewrite E1.
      * intros y Hy. by eapply no_exec_pend.
Qed.

Lemma execution_failure O b s a id outs p :
  winv b s -> s_props s !! id = Some p ->
  (forall c, calculate_vote_result p = Ok (SingleWinner c) -> ch_msgs c <> []) ->
  match scall O b s (Call a (Execute id) (None :: outs)) with
  | Ok (s', _) => c_close_on_fail (s_cfg s) = true /\ status_of s' id = Some ExecutionFailed
  | Err _ => True
  end.
Proof.
  intros HI Hp Hm.
  destruct (scall O b s (Call a (Execute id) (None :: outs))) as [[s' l]|] eqn:E; [|done].
  rewrite run_call_unfold in E.
  destruct (handle O s b a (Execute id)) as [[s1 subs]|] eqn:Eh; [|discriminate].
  pose proof (handle_winv _ _ _ _ _ _ _ HI Eh) as HI1. simpl in Eh.
  apply execute_execute_shape in Eh as (p' & st & c0 & Hp' & Hst & Hc0 & Hal & -> & ->).
  rewrite Hp in Hp'. injection Hp' as <-.
  specialize (Hm c0 Hc0). destruct (ch_msgs c0) as [|m0 ms] eqn:Em; [done|].
  set (rest := proposal_status_changed_hooks _ _ _ _ ++ _) in *.
  set (x := SExec (c_dao (s_cfg s)) id (m0 :: ms) (c_close_on_fail (s_cfg s))) in *.
  change ([x] ++ rest) with (x :: rest) in E.
  change (run_subs (handle O) on_fail on_ok b (save_prop s id (set_status p Executed)) (x :: rest) (None :: outs))
    with (do! s' <- on_fail (save_prop s id (set_status p Executed)) b x;
          do! ' (s'', l) <- run_subs (handle O) on_fail on_ok b s' rest outs;
          Ok (s'', ESub (save_prop s id (set_status p Executed)) b x false s' :: l)) in E.
  destruct (on_fail (save_prop s id (set_status p Executed)) b x) as [s2|] eqn:Ef; [|discriminate].
  destruct (run_subs (handle O) on_fail on_ok b s2 rest outs) as [[s3 l3]|] eqn:Er; [|discriminate].
  injection E as <- <-.
  assert (no_exec rest) as Hne by (subst rest; eauto with no_exec).
  assert (winv b s2) as HI2.
  { eapply on_fail_winv; [exact HI1| |exact Ef]. intros d id' ms' c'. subst x.
    intros [= <- <- <- <-]. exists (set_status p Executed). simpl. rewrite lookup_insert.
    split; [done|by left]. }
  subst x. simpl in Ef. destruct (c_close_on_fail (s_cfg s)); [|discriminate].
  split; [done|]. rewrite lookup_insert in Ef. injection Ef as <-.
  eapply (run_subs_status O b); [exact HI2| | | |exact Hne|exact Er].
  - unfold status_of. simpl. by rewrite lookup_insert.
  - by right; right; right.
  - intros y Hy. by eapply no_exec_pend.
Qed.
