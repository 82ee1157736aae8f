(** Claims about the proposals of a DAO that exchanges its voting module. *)
From stdpp Require Import gmap strings numbers.
From Verif Require Import Base BaseProofs Exec ExecProofs VotingModel VotingSpec VotingProofs HooksModel
  SingleModel SingleSpec SingleProofs SingleLife SingleTally SingleFinal SingleClaims WholeSpec
  ExchModel ExchSpec ExchProofs.
From Verif Require WholeProofs.

Lemma xreached_trace O d b xs l :
  xreached O d b xs l ->
  exists b0 xs0, fresh (x_s xs0) /\ xw d b xs /\ xtrace O d b0 xs0 l b xs.
Proof.
  intros (b0 & xs0 & h & Hf & Ha & Hh & Hk & Hr & Hb). exists b0, xs0. split; [done|].
  destruct (exch_trace O d b0 xs0 h xs l (fresh_xw _ _ _ Hf Ha) Hh Hk Hr) as ((A & B & C) & T).
  split; [split; [by eapply winv_time|done]|].
  rewrite <- (app_nil_r l). eapply trace_app; [exact T|by constructor].
Qed.

(** Tallies are the recorded ballots. *)
Lemma x_tally O d b xs l id p v :
  xreached O d b xs l -> s_props (x_s xs) !! id = Some p ->
  tally_of p v = ballot_total (x_s xs) id v.
Proof.
  intros HR Hp. destruct (xreached_trace _ _ _ _ _ HR) as (b0 & xs0 & _ & (_ & _ & HT) & _).
  by apply HT.
Qed.
(** Terms and ballots stand, whatever is exchanged. *)
Lemma x_stand O d b xs l b' xs' l' :
  xreached O d b xs l -> xlater O d b xs b' xs' l' ->
  (forall id p, s_props (x_s xs) !! id = Some p ->
     exists p', s_props (x_s xs') !! id = Some p' /\ terms p' = terms p) /\
  (forall id a bl p, s_ballots (x_s xs) !! (id, a) = Some bl -> s_props (x_s xs) !! id = Some p ->
     p_revote p = false ->
     exists bl', s_ballots (x_s xs') !! (id, a) = Some bl' /\
       bl_vote bl' = bl_vote bl /\ bl_power bl' = bl_power bl).
Proof.
  intros HR (h & Hh & Hk & Hr & Hb). destruct (xreached_trace _ _ _ _ _ HR) as (b0 & xs0 & _ & HW & _).
  destruct (exch_trace _ _ _ _ _ _ _ HW Hh Hk Hr) as (_ & T).
  destruct (xtrace_keeps _ _ _ _ _ _ _ T) as [[_ A] B]. done.
Qed.

Lemma x_calm O d b xs l :
  all_sane O d -> xreached O d b xs l -> calm O d l -> xcalm O d l b xs.
Proof.
  intros HS HR Hc. destruct (xreached_trace _ _ _ _ _ HR) as (b0 & xs0 & Hf & _ & T).
  apply (xcalm_trace O d b0 xs0 l b xs HS T (calm_forall _ _ _ Hc) []).
  destruct Hf as (_ & E & _). exists (fun _ => x_mod xs0). split; intros id; rewrite E, lookup_empty; [done|].
  by intros [? ?].
Qed.

(** The electorate of a proposal is that of the module it was made under. *)
Lemma x_electorate O d b xs l id p :
  all_sane O d -> xreached O d b xs l -> calm O d l ->
  s_props (x_s xs) !! id = Some p -> ~ terminal (p_status p) ->
  exists v, born l id v /\ p_total p = tp (O v) d (p_start p) /\
    (forall a bl, s_ballots (x_s xs) !! (id, a) = Some bl ->
       bl_power bl = vp (O v) d a (p_start p) /\ 0 < bl_power bl) /\
    tally_of p Yes + tally_of p No + tally_of p Abstain <= p_total p.
Proof.
  intros HS HR Hc Hp Ht. destruct (x_calm _ _ _ _ _ HS HR Hc) as (G & HK & HB).
  destruct (xreached_trace _ _ _ _ _ HR) as (b0 & xs0 & _ & (_ & _ & HT) & _).
  destruct (HK _ _ Hp) as [?|Hg]; [done|]. exists (G id). split; [apply HB; by rewrite Hp|].
  split; [apply (t_total _ _ _ _ (g_prop _ _ _ _ _ _ _ Hg))|].
  split; [apply (g_power _ _ _ _ _ _ _ Hg)|].
  destruct (good_tally _ _ _ _ _ _ _ (HS _) HT Hp Hg) as ((_ & _ & _ & H) & _). unfold cast in H. simpl. lia.
Qed.

(** Every proposal's status can be told, and every page of the list. *)
Lemma x_status O d b xs l id p b' :
  all_sane O d -> xreached O d b xs l -> calm O d l -> s_props (x_s xs) !! id = Some p ->
  exists st, current_status p b' = Ok st.
Proof.
  intros HS HR Hc Hp. destruct (x_calm _ _ _ _ _ HS HR Hc) as (G & HK & HB).
  destruct (xreached_trace _ _ _ _ _ HR) as (b0 & xs0 & _ & (HW & _ & HT) & _).
  destruct (HK _ _ Hp) as [Ht|Hg].
  - exists (p_status p). by apply terminal_current_ok.
  - destruct (good_tally _ _ _ _ _ _ _ (HS _) HT Hp Hg) as (Hok & HTm & Hthr).
    eapply current_status_total; try done. by apply (wi_props _ _ HW id).
Qed.
Lemma x_answers O d b xs l b' :
  all_sane O d -> xreached O d b xs l -> calm O d l ->
  (forall id p, s_props (x_s xs) !! id = Some p -> exists st, query_status (x_s xs) b' id = Ok st) /\
  (forall start limit, exists r, query_list (x_s xs) b' start limit = Ok r).
Proof.
  intros HS HR Hc. split.
  - intros id p Hp. unfold query_status. rewrite Hp. by eapply x_status.
  - intros start limit. unfold query_list.
    match goal with |- exists r, responses _ ?l = _ => assert (forall x, x ∈ l -> s_props (x_s xs) !! x.1 = Some x.2) as Hl;
      [|generalize dependent l] end.
    { intros [i p] Hx. apply elem_of_take in Hx as (n & Hx & _). apply elem_of_list_lookup_2 in Hx.
      apply elem_of_list_omap in Hx as (j & _ & E). destruct (s_props (x_s xs) !! j) eqn:Ej; [|discriminate].
      simpl in E. injection E as <- <-. done. }
    intros k. induction k as [|[i p] k IH]; intros Hk; simpl; [eauto|].
    destruct (x_status O d b xs l i p b' HS HR Hc) as [st ->]; [exact (Hk (i, p) ltac:(left))|]. simpl.
    destruct IH as [r ->]; [|simpl; eauto]. intros x Hx. apply Hk. by right.
Qed.

(** Once voting and timelock are over a proposal can be brought to its end. *)
Lemma x_not_stuck O d b xs l id p :
  all_sane O d -> xreached O d b xs l -> calm O d l -> s_props (x_s xs) !! id = Some p ->
  is_expired (p_exp p) b = true ->
  (forall vc e, p_veto p = Some vc -> exp_add (p_exp p) (vc_timelock vc) = Ok e ->
                is_expired e b = true) ->
  (exists st, query_status (x_s xs) b id = Ok st /\ terminal st) \/
  (query_status (x_s xs) b id = Ok Passed /\
   forall a, (c_only_members (s_cfg (x_s xs)) = true -> 0 < vp (O (x_mod xs)) d a (p_start p)) ->
     exists xs' subs, xhandle O xs b a (XSingle (Execute id)) = Ok (xs', subs) /\
       query_status (x_s xs') b id = Ok Executed) \/
  (query_status (x_s xs) b id = Ok Rejected /\
   forall a, exists xs' subs, xhandle O xs b a (XSingle (Close id)) = Ok (xs', subs) /\
       query_status (x_s xs') b id = Ok Closed).
Proof.
  intros HS HR Hc Hp Hx Hlock.
  destruct (x_status O d b xs l id p b HS HR Hc Hp) as [st Hst].
  destruct (xreached_trace _ _ _ _ _ HR) as (b0 & xs0 & _ & (HW & [Ed _] & HT) & _).
  assert (query_status (x_s xs) b id = Ok st) as Hq by (unfold query_status; by rewrite Hp).
  assert (st = Passed \/ st = Rejected \/ terminal st) as [->|[->|Ht]]; [..|left; eauto].
  { pose proof (wprop_current b p st (wi_props _ _ HW _ _ Hp) Hst) as Hw.
    pose proof Hst as Hcs. apply current_status_cases in Hcs. unfold terminal.
    assert (forall e, st = VetoTimelock e -> is_expired e b = false -> False) as Hl.
    { intros e -> Hn. destruct (w_lock _ _ Hw e eq_refl) as (vc & Hv & He). simpl in Hv, He.
      specialize (Hlock vc e Hv He). congruence. }
    destruct (p_status p); subst; try tauto.
    - destruct Hcs as [(-> & _)|[(vc & e & -> & _ & _ & _ & Hn)|[(-> & _)|(-> & _ & Hn & _)]]]; try tauto.
      + exfalso. by eapply Hl.
      + congruence.
    - destruct Hcs as [[_ ->]|[Hn ->]]; [tauto|]. exfalso. by eapply Hl. }
  - right; left. split; [done|]. intros a Ha.
    assert (is_ok (handle (O (x_mod xs)) (x_s xs) b a (Execute id)) = true) as Hok.
    { apply execute_iff. exists p, Passed. split; [done|]. split; [done|]. left. split; [done|].
      rewrite Ed. intros Hm. specialize (Ha Hm). lia. }
    cbn [xhandle]. destruct (handle _ _ b a (Execute id)) as [[s1 subs]|] eqn:Eh; [|done].
    exists (XState s1 (x_mod xs)), subs. split; [done|]. simpl in Eh.
    apply execute_execute_shape in Eh as (p' & st & Hp' & _ & _ & -> & _).
    unfold query_status. simpl. by rewrite lookup_insert.
  - right; right. split; [done|]. intros a.
    assert (is_ok (handle (O (x_mod xs)) (x_s xs) b a (Close id)) = true) as Hok by (by apply close_iff).
    cbn [xhandle]. destruct (handle _ _ b a (Close id)) as [[s1 subs]|] eqn:Eh; [|done].
    exists (XState s1 (x_mod xs)), subs. split; [done|]. simpl in Eh.
    apply execute_close_shape in Eh as (p' & Hp' & _ & -> & _).
    unfold query_status. simpl. by rewrite lookup_insert.
Qed.

(** What is behind the messages of a proposal when they are sent to the DAO. *)
Lemma x_mandate O d b xs l pre b' a m post subs id ms c dd :
  all_sane O d -> xreached O d b xs l -> calm O d l ->
  ECall pre b' a m post subs ∈ l -> SExec dd id ms c ∈ subs ->
  exists p v, s_props (x_s pre) !! id = Some p /\ ms = p_msgs p /\ dd = d /\ born l id v /\
    (at_least_billionth (p_thr p) ->
     let w := backing (O v) d (x_s pre) id (p_start p) in
     outcome_near (p_thr p) (tp (O v) d (p_start p)) (Votes (w Yes) (w No) (w Abstain))).
Proof.
  intros HS HR Hc He Hx. destruct (xreached_trace _ _ _ _ _ HR) as (b0 & xs0 & Hf & _ & T).
  apply elem_of_list_split in He as (l1 & l2 & ->).
  apply trace_split in T as (bm & sm & T1 & T2).
  inversion T2 as [|? ? ? ? ? ? Hle Hpre Hleg Htr]; subst. cbn [ev_block ev_pre ev_post] in *.
  assert (xcalm O d l1 b' pre) as (G & HK & HB).
  { refine (xcalm_trace O d b0 xs0 l1 b' pre HS _ _ [] _).
    - rewrite <- (app_nil_r l1). eapply trace_app; [exact T1|by constructor].
    - apply calm_forall in Hc. by apply Forall_app in Hc as [? _].
    - destruct Hf as (_ & E & _). exists (fun _ => x_mod xs0). split; intros i; rewrite E, lookup_empty; [done|].
      by intros [? ?]. }
  destruct Hleg as ((HW & [Ed _] & HT) & _ & _ & Hh). cbn [ev_block ev_pre ev_post] in *.
  destruct (xhandle_shape _ _ _ _ _ _ _ Hh) as [(m' & -> & E & _)|(v & _ & _ & _ & _ & ->)];
    [|by apply elem_of_nil in Hx].
  assert ((exists i, m' = Execute i) \/ (forall i, m' <> Execute i)) as [[i ->]|Hne].
  { destruct m'; try (by right); eauto. }
  2: { pose proof (handle_no_exec _ _ _ _ _ _ _ E Hne) as Hn. exfalso. by eapply Hn. }
  simpl in E. apply execute_execute_shape in E as (p & st & Hp & Hst & Hal & _ & Hsubs).
  assert (i = id /\ ms = p_msgs p /\ dd = d) as (-> & Ems & Edd).
  { rewrite Hsubs in Hx. rewrite !elem_of_app in Hx.
    destruct Hx as [Hin|[Hin|Hin]];
      [|by apply no_exec_changed in Hin|by apply no_exec_completed in Hin].
    destruct (p_msgs p); [by apply elem_of_nil in Hin|].
    apply elem_of_list_singleton in Hin. injection Hin as -> -> -> ->. done. }
  exists p, (G id). split; [done|]. split; [done|]. split; [done|].
  split; [apply born_mono, HB; by rewrite Hp|]. intros Hbil. set (w := backing (O (G id)) d (x_s pre) id (p_start p)).
  assert (passed_like st) as Hps by (destruct Hal as [[-> _]|(e & vc & -> & _)]; done).
  destruct (HK _ _ Hp) as [Ht|Hg].
  { pose proof (terminal_current _ _ _ Ht Hst) as ->. exfalso.
    destruct Hal as [[Hal _]|(e & vc & Hal & _)]; rewrite Hal in Ht; unfold terminal in Ht; naive_solver. }
  destruct (good_tally _ _ _ _ _ _ _ (HS _) HT Hp Hg) as (Hok & HTm & Hthr).
  pose proof (tprop_current (O (G id)) d b' p st (wi_props _ _ HW _ _ Hp) (g_prop _ _ _ _ _ _ _ Hg) Hok HTm Hst) as Htp.
  assert (outcome_near (p_thr p) (p_total p) (p_votes p)) as Ho.
  { destruct (t_pass _ _ _ _ Htp Hbil Hps) as [[_ H]|[_ H]]; [|exact H].
    by apply (early_mono (p_thr p) (p_total p) (p_votes p) (p_votes p)). }
  assert (forall v, tally_of p v = w v) as Ew.
  { intros v. rewrite (HT _ _ v Hp). subst w. unfold backing. apply WholeProofs.voters_sum.
    intros a' bl Hbl. apply (g_power _ _ _ _ _ _ _ Hg _ _ Hbl). }
  rewrite <- (t_total _ _ _ _ (g_prop _ _ _ _ _ _ _ Hg)). rewrite <- !Ew.
  simpl. by destruct (p_votes p).
Qed.

(** A proposal whose voting has ended and whose status cannot be told stays as it is. *)
Definition dead (p : proposal) (b : block) : Prop :=
  is_expired (p_exp p) b = true /\ forall b' st, block_le b b' -> current_status p b' <> Ok st.
Lemma dead_time p b b' : block_le b b' -> dead p b -> dead p b'.
Proof.
  intros Hb [A B]. split; [by eapply is_expired_mono|]. intros b'' st Hb'. apply B. by eapply block_le_trans.
Qed.
Lemma dead_prims O b s s' id p :
  rtc (prim O b) s s' -> winv b s -> dead p b -> s_props s !! id = Some p -> s_props s' !! id = Some p.
Proof.
  intros H. induction H as [|s1 s2 s3 Hp Hr IH]; [done|]. intros HW Hd E.
  apply IH; [by eapply prim_winv|done|]. destruct Hd as [Hx Hd].
  destruct Hp as [s proposer ms st Hst|s i a q v r votes1 st Hq Hn Hv Hvr Hst|s i q st fin Hq Hst Hal|s i a cur r Hc|s s' E1 E2 E3 E4].
  - simpl. rewrite lookup_insert_ne; [done|]. pose proof (proj1 (wi_ids _ _ HW id) ltac:(by rewrite E)). lia.
  - simpl. destruct (decide (i = id)) as [->|Hne]; [|by rewrite lookup_insert_ne].
    rewrite E in Hq. injection Hq as <-. congruence.
  - simpl. destruct (decide (i = id)) as [->|Hne]; [|by rewrite lookup_insert_ne].
    rewrite E in Hq. injection Hq as <-. exfalso. eapply Hd; [apply block_le_refl|done].
  - done.
  - by rewrite E1.
Qed.
Lemma dead_trace O d b0 xs l b1 xs' id p :
  xtrace O d b0 xs l b1 xs' -> dead p b0 -> s_props (x_s xs) !! id = Some p ->
  s_props (x_s xs') !! id = Some p.
Proof.
  induction 1 as [|b0 s e l b1 s' Hb Hpre Hl Ht IH]; [done|]. intros Hd Hp.
  apply (dead_time _ _ _ Hb) in Hd. apply IH; [done|]. clear IH Ht. subst s.
  destruct Hl as ((HW & _) & _ & H). destruct e as [pre b a m post subs|pre b x [|] post]; simpl in *.
  - destruct H as [_ H].
    destruct (xhandle_shape _ _ _ _ _ _ _ H) as [(m' & -> & E & _)|(v & -> & _ & E & _)]; [|by rewrite E].
    eapply dead_prims; [by eapply handle_prims|done..].
  - destruct H as [_ [r H]]. apply xon_ok_shape in H as [H _].
    eapply dead_prims; [apply rtc_once; by eapply (on_ok_prims (O 0%N))|done..].
  - destruct H as [HP H]. apply xon_fail_shape in H as [H _].
    destruct (on_fail_shape _ _ _ _ H) as [(d0 & i & ms & q & -> & Hq & E)|(Hx & E1 & E2 & E3 & E4)]; [|by rewrite E1].
    rewrite E. simpl. destruct (decide (i = id)) as [->|Hne]; [|by rewrite lookup_insert_ne].
    destruct (HP _ _ _ _ eq_refl) as (q' & Hq' & Hdn). rewrite Hq' in Hp. injection Hp as ->.
    destruct Hd as [_ Hd]. exfalso. eapply Hd; [apply block_le_refl|].
    apply terminal_current_ok. by apply done_terminal.
Qed.
Lemma x_dead O d b xs l b' xs' l' id p :
  xreached O d b xs l -> s_props (x_s xs) !! id = Some p -> dead p b -> xlater O d b xs b' xs' l' ->
  s_props (x_s xs') !! id = Some p /\ dead p b' /\ 1 <= id <= s_count (x_s xs').
Proof.
  intros HR Hp Hd (h & Hh & Hk & Hr & Hb). destruct (xreached_trace _ _ _ _ _ HR) as (b0 & xs0 & _ & HW & _).
  destruct (exch_trace _ _ _ _ _ _ _ HW Hh Hk Hr) as ((HW' & _) & T).
  assert (s_props (x_s xs') !! id = Some p) as E by (by eapply dead_trace).
  split; [done|]. split; [|apply (wi_ids _ _ HW'); by rewrite E].
  eapply dead_time; [exact Hb|]. eapply dead_time; [by eapply trace_le|done].
Qed.
Lemma dead_fails O xs b id p a m :
  s_props (x_s xs) !! id = Some p -> dead p b ->
  (exists v r, m = CastVote id v r) \/ m = Execute id \/ m = Close id \/ m = Veto id ->
  is_ok (xhandle O xs b a (XSingle m)) = false.
Proof.
  intros Hp [Hx Hd] Hm. simpl. destruct (handle (O (x_mod xs)) (x_s xs) b a m) as [[s subs]|] eqn:E; [|done].
  exfalso. destruct Hm as [(v & r & ->)|[->|[->| ->]]]; simpl in E.
  - apply execute_vote_shape in E as (q & ? & ? & Hq & Hn & _). rewrite Hp in Hq. injection Hq as <-. congruence.
  - apply execute_execute_shape in E as (q & st & Hq & Hst & _). rewrite Hp in Hq. injection Hq as <-.
    eapply Hd; [apply block_le_refl|done].
  - apply execute_close_shape in E as (q & Hq & Hst & _). rewrite Hp in Hq. injection Hq as <-.
    eapply Hd; [apply block_le_refl|done].
  - apply execute_veto_shape in E as (q & st & vc & Hq & Hst & _). rewrite Hp in Hq. injection Hq as <-.
    eapply Hd; [apply block_le_refl|done].
Qed.
Lemma dead_list s b p limit :
  s_props s !! 1 = Some p -> 1 <= s_count s -> dead p b -> is_ok (query_list s b 0 (S limit)) = false.
Proof.
  intros Hp Hc [_ Hd]. unfold query_list. rewrite Z.sub_0_r. simpl (0 + 1).
  rewrite seqZ_cons by lia. cbn [omap list_omap]. change (Z.succ 0) with 1.
  replace (0 + 1) with 1 by lia. rewrite Hp. simpl.
  destruct (current_status p b) eqn:E; [|done]. exfalso. eapply Hd; [apply block_le_refl|done].
Qed.
Lemma dead_all O d b xs l p :
  xreached O d b xs l -> s_props (x_s xs) !! 1 = Some p -> dead p b ->
  forall b' xs' l', xlater O d b xs b' xs' l' ->
    is_ok (query_status (x_s xs') b' 1) = false /\
    (forall limit, is_ok (query_list (x_s xs') b' 0 (S limit)) = false) /\
    (forall a m, (exists v r, m = CastVote 1 v r) \/ m = Execute 1 \/ m = Close 1 \/ m = Veto 1 ->
       is_ok (xhandle O xs' b' a (XSingle m)) = false).
Proof.
  intros HR Ep Hd b' xs' l' HL. destruct (x_dead _ _ _ _ _ _ _ _ _ _ HR Ep Hd HL) as (Hp & Hd' & Hc).
  split; [|split].
  - unfold query_status. rewrite Hp. destruct (current_status p b') eqn:E; [|done]. exfalso.
    destruct Hd' as [_ Hd']. eapply Hd'; [apply block_le_refl|done].
  - intros limit. eapply dead_list; [done|lia|done].
  - intros a m Hm. by eapply dead_fails.
Qed.
(** Nobody executes for an electorate that has nothing. *)
Lemma nobody_executes O xs id p :
  s_props (x_s xs) !! id = Some p -> p_veto p = None -> c_only_members (s_cfg (x_s xs)) = true ->
  (forall a, vp (O (x_mod xs)) (c_dao (s_cfg (x_s xs))) a (p_start p) = 0) ->
  forall b a, is_ok (xhandle O xs b a (XSingle (Execute id))) = false.
Proof.
  intros Hp Hv Hm H0 b a. destruct (xhandle O xs b a (XSingle (Execute id))) as [[xs' subs]|] eqn:E; [|done].
  exfalso. destruct (xhandle_shape _ _ _ _ _ _ _ E) as [(m' & Em & Eh & _)|(v & Em & _)]; [|done].
  injection Em as <-. simpl in Eh. apply execute_execute_shape in Eh as (q & st & Hq & Hst & Hal & _).
  rewrite Hp in Hq. injection Hq as <-. destruct Hal as [[_ Hs]|(e & vc & _ & Hv' & _)]; [|congruence].
  unfold sender_can_execute in Hs. rewrite Hm, H0 in Hs. lia.
Qed.

(** ** Who exchanges the module *)
Lemma x_module O d b xs l e :
  xreached O d b xs l -> e ∈ l -> x_mod (ev_post e) <> x_mod (ev_pre e) ->
  exists pre b' post subs, e = ECall pre b' (c_dao (s_cfg (x_s pre))) (XExchange (x_mod post)) post subs.
Proof.
  intros HR He Hn. destruct (xreached_trace _ _ _ _ _ HR) as (b0 & xs0 & _ & _ & T).
  apply trace_forall in T. rewrite Forall_forall in T. destruct (T e He) as (_ & _ & H). clear T.
  destruct e as [pre b1 a m post subs|pre b1 x ok post]; cbn [ev_pre ev_post] in *.
  - destruct H as [_ H]. destruct (xhandle_shape _ _ _ _ _ _ _ H) as [(m' & -> & _ & E)|(v & -> & -> & _ & <- & _)];
      [by rewrite E in Hn|]. eauto.
  - destruct ok.
    + destruct H as [_ [r H]]. by apply xon_ok_shape in H as [_ H].
    + destruct H as [_ H]. by apply xon_fail_shape in H as [_ H].
Qed.
