(** Claims about the multiple-choice proposals of a DAO that exchanges its voting module. *)
From stdpp Require Import gmap strings numbers.
From Verif Require Import Base BaseProofs Exec ExecProofs VotingModel VotingSpec VotingProofs HooksModel
  MultModel MultSpec MultProofs MultRules MultLife MultTally MultFinal MultMore
  MExchModel MExchSpec MExchProofs.
From Verif Require MWholeProofs.

Lemma xreached_trace O d b xs l :
  xreached O d b xs l ->
  exists b0 xs0, fresh (x_s xs0) /\ xw d b xs /\ xtrace O d b0 xs0 l b xs.
Proof.
  intros (b0 & xs0 & h & Hf & Ha & Hh & Hk & Hr & Hb). exists b0, xs0. split; [done|].
  destruct (exch_trace O d b0 xs0 h xs l (fresh_xw _ _ _ Hf Ha) Hh Hk Hr) as ((A & B & C) & T).
  split; [split; [by eapply winv_time|done]|].
  rewrite <- (app_nil_r l). eapply trace_app; [exact T|by constructor].
Qed.

(** Tallies are the recorded ballots. *)
Lemma x_tally O d b xs l id p v :
  xreached O d b xs l -> s_props (x_s xs) !! id = Some p ->
  tally_of p v = ballot_total (x_s xs) id v.
Proof.
  intros HR Hp. destruct (xreached_trace _ _ _ _ _ HR) as (b0 & xs0 & _ & (_ & _ & HT) & _).
  by apply HT.
Qed.
(** Terms and ballots stand, whatever is exchanged. *)
Lemma x_stand O d b xs l b' xs' l' :
  xreached O d b xs l -> xlater O d b xs b' xs' l' ->
  (forall id p, s_props (x_s xs) !! id = Some p ->
     exists p', s_props (x_s xs') !! id = Some p' /\ terms p' = terms p) /\
  (forall id a bl p, s_ballots (x_s xs) !! (id, a) = Some bl -> s_props (x_s xs) !! id = Some p ->
     p_revote p = false ->
     exists bl', s_ballots (x_s xs') !! (id, a) = Some bl' /\
       bl_vote bl' = bl_vote bl /\ bl_power bl' = bl_power bl).
Proof.
  intros HR (h & Hh & Hk & Hr & Hb). destruct (xreached_trace _ _ _ _ _ HR) as (b0 & xs0 & _ & HW & _).
  destruct (exch_trace _ _ _ _ _ _ _ HW Hh Hk Hr) as (_ & T).
  destruct (xtrace_keeps _ _ _ _ _ _ _ T) as [[_ A] B]. done.
Qed.

Lemma x_calm O d b xs l :
  all_sane O d -> xreached O d b xs l -> calm O d l -> xcalm O d l b xs.
Proof.
  intros HS HR Hc. destruct (xreached_trace _ _ _ _ _ HR) as (b0 & xs0 & Hf & _ & T).
  apply (xcalm_trace O d b0 xs0 l b xs HS T (calm_forall _ _ _ Hc) []).
  destruct Hf as (_ & E & _). exists (fun _ => x_mod xs0). split; intros id; rewrite E, lookup_empty; [done|].
  by intros [? ?].
Qed.

Lemma good_voters o oc d b s id p :
  winv b s -> tally_inv s -> s_props s !! id = Some p -> good o oc d b s id p ->
  (forall v, tally_of p v = backing o d s id (p_start p) v) /\
  wsum (p_votes p) = backing_all o d s id (p_start p).
Proof.
  intros HW [HT HB] Hp Hg.
  assert (forall a bl, s_ballots s !! (id, a) = Some bl -> bl_power bl = vp o d a (p_start p)) as Hf.
  { intros a bl Hbl. apply (g_power _ _ _ _ _ _ _ Hg _ _ Hbl). }
  split.
  - intros v. rewrite (HT _ _ v Hp). exact (MWholeProofs.voters_sum_by s id (fun v' => v' = v) _ Hf).
  - assert (length (p_votes p) = length (p_choices p)) as Hlen.
    { apply (w_len b). by apply (wi_props _ _ HW id). }
    rewrite wsum_seq.
    rewrite (lsum_ext _ (fun v : nat => ballot_total s id v)) by (intros v _; apply (HT id p v Hp)).
    unfold ballot_total. rewrite options_sum. unfold backing_all.
    rewrite <- (MWholeProofs.voters_sum_by s id (fun _ => True) _ Hf).
    apply msum_ext. intros [i a] bl Hbl. simpl.
    destruct (decide (i = id /\ (bl_vote bl < length (p_votes p))%nat)) as [[? ?]|H1];
      destruct (decide (i = id /\ True)) as [[Ei ?]|H2]; try done; exfalso.
    + naive_solver.
    + subst i. apply H1. split; [done|]. rewrite Hlen. by eapply HB.
Qed.

(** The electorate of a proposal is that of the module it was made under. *)
Lemma x_electorate O d b xs l id p :
  all_sane O d -> xreached O d b xs l -> calm O d l ->
  s_props (x_s xs) !! id = Some p -> ~ terminal (p_status p) ->
  exists v, born l id v /\
    (exists b0, height b0 = p_start p /\ p_total p = tnow (O v) d b0 id) /\
    (forall a bl, s_ballots (x_s xs) !! (id, a) = Some bl ->
       bl_power bl = vp (O v) d a (p_start p) /\ 0 < bl_power bl) /\
    lsum (tally_of p) (seq 0 (length (p_choices p))) <= p_total p.
Proof.
  intros HS HR Hc Hp Ht. destruct (x_calm _ _ _ _ _ HS HR Hc) as (G & HK & HB).
  destruct (xreached_trace _ _ _ _ _ HR) as (b0 & xs0 & _ & (HW & _ & HT) & _).
  destruct (HK _ _ Hp) as [?|Hg]; [done|]. exists (G id). split; [apply HB; by rewrite Hp|].
  split; [apply (g_total _ _ _ _ _ _ _ Hg)|].
  split; [apply (g_power _ _ _ _ _ _ _ Hg)|].
  destruct (good_tally _ _ _ _ _ _ _ HW HT Hp Hg) as ((_ & H) & _). rewrite wsum_seq in H.
  rewrite (w_len b) in H by (by apply (wi_props _ _ HW id)). exact H.
Qed.

(** Every proposal's status can be told, and every page of the list. *)
Lemma x_status O d b xs l id p b' :
  all_sane O d -> xreached O d b xs l -> calm O d l -> s_props (x_s xs) !! id = Some p ->
  exists st, current_status p b' = Ok st.
Proof.
  intros HS HR Hc Hp. destruct (x_calm _ _ _ _ _ HS HR Hc) as (G & HK & HB).
  destruct (xreached_trace _ _ _ _ _ HR) as (b0 & xs0 & _ & (HW & _ & HT) & _).
  destruct (HK _ _ Hp) as [Ht|Hg].
  - exists (p_status p). by apply terminal_current_ok.
  - destruct (good_tally _ _ _ _ _ _ _ HW HT Hp Hg) as (Hok & HTm).
    eapply current_status_total; try done. by apply (wi_props _ _ HW id).
Qed.
Lemma x_answers O d b xs l b' :
  all_sane O d -> xreached O d b xs l -> calm O d l ->
  (forall id p, s_props (x_s xs) !! id = Some p -> exists st, query_status (x_s xs) b' id = Ok st) /\
  (forall start limit, exists r, query_list (x_s xs) b' start limit = Ok r).
Proof.
  intros HS HR Hc. split.
  - intros id p Hp. unfold query_status. rewrite Hp. by eapply x_status.
  - intros start limit. unfold query_list.
    match goal with |- exists r, responses _ ?l = _ => assert (forall x, x ∈ l -> s_props (x_s xs) !! x.1 = Some x.2) as Hl;
      [|generalize dependent l] end.
    { intros [i p] Hx. apply elem_of_take in Hx as (n & Hx & _). apply elem_of_list_lookup_2 in Hx.
      apply elem_of_list_omap in Hx as (j & _ & E). destruct (s_props (x_s xs) !! j) eqn:Ej; [|discriminate].
      simpl in E. injection E as <- <-. done. }
    intros k. induction k as [|[i p] k IH]; intros Hk; simpl; [eauto|].
    destruct (x_status O d b xs l i p b' HS HR Hc) as [st ->]; [exact (Hk (i, p) ltac:(left))|]. simpl.
    destruct IH as [r ->]; [|simpl; eauto]. intros x Hx. apply Hk. by right.
Qed.

(** A passed proposal has a winner, and its messages are those of that option. *)
Lemma good_winner o oc d b s id p st :
  winv b s -> tally_inv s -> s_props s !! id = Some p -> good o oc d b s id p ->
  current_status p b = Ok st -> passed_like st ->
  exists i c, calculate_vote_result p = Ok (SingleWinner c) /\ p_choices p !! i = Some c /\
    chosen (p_quorum p) (p_total p) (p_votes p) i.
Proof.
  intros HW HT Hp Hg Hst Hps. destruct (good_tally _ _ _ _ _ _ _ HW HT Hp Hg) as (Hok & HTm).
  pose proof (tprop_current o d b p st (wi_props _ _ HW _ _ Hp) (g_prop _ _ _ _ _ _ _ Hg) Hok Hst) as Htp.
  assert (exists i, chosen (p_quorum p) (p_total p) (p_votes p) i) as [w Hch].
  { destruct (t_pass _ _ _ _ Htp Hps) as [[_ [i Hi]]|[_ [i Hi]]]; simpl in Hi; exists i; [|exact Hi].
    apply (decided_mono _ _ _ _ _ Hi); [|done]. apply weights_le_refl. }
  pose proof Hch as (_ & Hw & Hn).
  destruct (calculate_spec p) as [(i & c & Hc & Hwi & Hci & _ & Hnone)|[_ Hno]].
  - apply (wprop_shaped b). apply (wi_props _ _ HW id p Hp).
  - exists i, c. rewrite (strict_winner_inj _ _ _ Hwi Hw) in *. done.
  - exfalso. by eapply Hno.
Qed.

(** Once voting and timelock are over a proposal can be brought to its end. *)
Lemma x_not_stuck O d b xs l id p :
  all_sane O d -> xreached O d b xs l -> calm O d l -> s_props (x_s xs) !! id = Some p ->
  is_expired (p_exp p) b = true ->
  (forall vc e, p_veto p = Some vc -> exp_add (p_exp p) (vc_timelock vc) = Ok e ->
                is_expired e b = true) ->
  (exists st, query_status (x_s xs) b id = Ok st /\ terminal st) \/
  (query_status (x_s xs) b id = Ok Passed /\
   forall a, (c_only_members (s_cfg (x_s xs)) = true -> 0 < vp (O (x_mod xs)) d a (p_start p)) ->
     exists xs' subs, xhandle O xs b a (XMult (Execute id)) = Ok (xs', subs) /\
       query_status (x_s xs') b id = Ok Executed) \/
  (query_status (x_s xs) b id = Ok Rejected /\
   forall a, exists xs' subs, xhandle O xs b a (XMult (Close id)) = Ok (xs', subs) /\
       query_status (x_s xs') b id = Ok Closed).
Proof.
  intros HS HR Hc Hp Hx Hlock.
  destruct (x_status O d b xs l id p b HS HR Hc Hp) as [st Hst].
  destruct (xreached_trace _ _ _ _ _ HR) as (b0 & xs0 & _ & (HW & [Ed _] & HT) & _).
  assert (query_status (x_s xs) b id = Ok st) as Hq by (unfold query_status; by rewrite Hp).
  assert (st = Passed \/ st = Rejected \/ terminal st) as [->|[->|Ht]]; [..|left; eauto].
  { pose proof (wprop_current b p st (wi_props _ _ HW _ _ Hp) Hst) as Hw.
    pose proof Hst as Hcs. apply current_status_cases in Hcs. unfold terminal.
    assert (forall e, st = VetoTimelock e -> is_expired e b = false -> False) as Hl.
    { intros e -> Hn. destruct (w_lock _ _ Hw e eq_refl) as (vc & Hv & He). simpl in Hv, He.
      specialize (Hlock vc e Hv He). congruence. }
    destruct (p_status p); subst; try tauto.
    - destruct Hcs as [(-> & _)|[(vc & e & -> & _ & _ & _ & Hn)|[(-> & _)|(-> & _ & Hn & _)]]]; try tauto.
      + exfalso. by eapply Hl.
      + congruence.
    - destruct Hcs as [[_ ->]|[Hn ->]]; [tauto|]. exfalso. by eapply Hl. }
  - right; left. split; [done|]. intros a Ha.
    assert (is_ok (handle (O (x_mod xs)) (x_s xs) b a (Execute id)) = true) as Hok.
    { destruct (x_calm _ _ _ _ _ HS HR Hc) as (G & HK & _). destruct (HK _ _ Hp) as [Ht|Hg].
      { pose proof (terminal_current _ _ _ Ht Hst) as E. rewrite <- E in Ht. unfold terminal in Ht. naive_solver. }
      destruct (good_winner _ _ _ _ _ _ _ _ HW HT Hp Hg Hst I) as (i & c & Hw & _).
      assert (calculate_vote_result (set_status p Passed) = Ok (SingleWinner c)) as Hw' by exact Hw.
      simpl. unfold execute_execute, update_status. rewrite Hp, Hst. cbn [p_status set_status].
      unfold sender_can_execute. destruct (c_only_members (s_cfg (x_s xs))) eqn:Em; [|by rewrite Hw'].
      rewrite Ed. specialize (Ha eq_refl). cbn [p_start]. destruct (_ =? 0) eqn:E0; [lia|]. by rewrite Hw'. }
    cbn [xhandle]. destruct (handle _ _ b a (Execute id)) as [[s1 subs]|] eqn:Eh; [|done].
    exists (XState s1 (x_mod xs)), subs. split; [done|]. simpl in Eh.
    apply execute_execute_shape in Eh as (p' & st & c0 & Hp' & _ & _ & _ & -> & _).
    unfold query_status. simpl. by rewrite lookup_insert.
  - right; right. split; [done|]. intros a.
    assert (is_ok (handle (O (x_mod xs)) (x_s xs) b a (Close id)) = true) as Hok by (by apply close_iff).
    cbn [xhandle]. destruct (handle _ _ b a (Close id)) as [[s1 subs]|] eqn:Eh; [|done].
    exists (XState s1 (x_mod xs)), subs. split; [done|]. simpl in Eh.
    apply execute_close_shape in Eh as (p' & Hp' & _ & -> & _).
    unfold query_status. simpl. by rewrite lookup_insert.
Qed.

(** What is behind the messages of a proposal when they are sent to the DAO. *)
Lemma x_mandate O d b xs l pre b' a m post subs id ms c dd :
  all_sane O d -> xreached O d b xs l -> calm O d l ->
  ECall pre b' a m post subs ∈ l -> SExec dd id ms c ∈ subs ->
  exists p v i ch, s_props (x_s pre) !! id = Some p /\ dd = d /\ born l id v /\
    p_choices p !! i = Some ch /\ ms = ch_msgs ch /\ (S i < length (p_choices p))%nat /\
    (forall j, (j < length (p_choices p))%nat -> j <> i ->
       backing (O v) d (x_s pre) id (p_start p) j < backing (O v) d (x_s pre) id (p_start p) i) /\
    exists b0, height b0 = p_start p /\
      share_near (backing_all (O v) d (x_s pre) id (p_start p)) (tnow (O v) d b0 id) (p_quorum p).
Proof.
  intros HS HR Hc He Hx. destruct (xreached_trace _ _ _ _ _ HR) as (b0 & xs0 & Hf & _ & T).
  apply elem_of_list_split in He as (l1 & l2 & ->).
  apply trace_split in T as (bm & sm & T1 & T2).
  inversion T2 as [|? ? ? ? ? ? Hle Hpre Hleg Htr]; subst. cbn [ev_block ev_pre ev_post] in *.
  assert (xcalm O d l1 b' pre) as (G & HK & HB).
  { refine (xcalm_trace O d b0 xs0 l1 b' pre HS _ _ [] _).
    - rewrite <- (app_nil_r l1). eapply trace_app; [exact T1|by constructor].
    - apply calm_forall in Hc. by apply Forall_app in Hc as [? _].
    - destruct Hf as (_ & E & _). exists (fun _ => x_mod xs0). split; intros i; rewrite E, lookup_empty; [done|].
      by intros [? ?]. }
  destruct Hleg as ((HW & [Ed _] & HT) & _ & _ & Hh). cbn [ev_block ev_pre ev_post] in *.
  destruct (xhandle_shape _ _ _ _ _ _ _ Hh) as [(m' & -> & E & _)|(v & _ & _ & _ & _ & ->)];
    [|by apply elem_of_nil in Hx].
  assert ((exists i, m' = Execute i) \/ (forall i, m' <> Execute i)) as [[i ->]|Hne].
  { destruct m'; try (by right); eauto. }
  2: { pose proof (handle_no_exec _ _ _ _ _ _ _ E Hne) as Hn. exfalso. by eapply Hn. }
  simpl in E. apply execute_execute_shape in E as (p & st & ch & Hp & Hst & Hch & Hal & _ & Hsubs).
  assert (i = id /\ ms = ch_msgs ch /\ dd = d) as (-> & Ems & Edd).
  { rewrite Hsubs in Hx. rewrite !elem_of_app in Hx.
    destruct Hx as [Hin|[Hin|Hin]];
      [|by apply no_exec_changed in Hin|by apply no_exec_completed in Hin].
    destruct (ch_msgs ch); [by apply elem_of_nil in Hin|].
    apply elem_of_list_singleton in Hin. injection Hin as -> -> -> ->. done. }
  assert (passed_like st) as Hps by (destruct Hal as [[-> _]|(e & vc & -> & _)]; done).
  destruct (HK _ _ Hp) as [Ht|Hg].
  { pose proof (terminal_current _ _ _ Ht Hst) as ->. exfalso.
    destruct Hal as [[Hal _]|(e & vc & Hal & _)]; rewrite Hal in Ht; unfold terminal in Ht; naive_solver. }
  destruct (good_winner _ _ _ _ _ _ _ _ HW HT Hp Hg Hst Hps) as (i & ch' & Hw & Hci & Hq & Hsw & Hno).
  rewrite Hch in Hw. injection Hw as <-.
  destruct (good_voters _ _ _ _ _ _ _ HW HT Hp Hg) as [Ev Ea].
  assert (length (p_votes p) = length (p_choices p)) as Hlen.
  { apply (w_len b'). by apply (wi_props _ _ HW id). }
  exists p, (G id), i, ch. split; [done|]. split; [done|].
  split; [apply born_mono, HB; by rewrite Hp|]. split; [done|]. split; [done|].
  split. { apply lookup_lt_Some in Hci. unfold none_option in Hno. lia. }
  split.
  - intros j Hj Hne. rewrite <- !Ev. unfold tally_of. destruct Hsw as (x & Hxi & Hlt). rewrite Hxi. simpl.
    destruct (lookup_lt_is_Some_2 (p_votes p) j) as [y Hy]; [lia|]. rewrite Hy. simpl. by eapply Hlt.
  - destruct (g_total _ _ _ _ _ _ _ Hg) as (b1 & Hb1 & Et). exists b1. split; [done|].
    rewrite <- Ea, <- Et. exact Hq.
Qed.

(** Nobody executes for an electorate that has nothing. *)
Lemma nobody_executes O xs id p :
  s_props (x_s xs) !! id = Some p -> p_veto p = None -> c_only_members (s_cfg (x_s xs)) = true ->
  (forall a, vp (O (x_mod xs)) (c_dao (s_cfg (x_s xs))) a (p_start p) = 0) ->
  forall b a, is_ok (xhandle O xs b a (XMult (Execute id))) = false.
Proof.
  intros Hp Hv Hm H0 b a. destruct (xhandle O xs b a (XMult (Execute id))) as [[xs' subs]|] eqn:E; [|done].
  exfalso. destruct (xhandle_shape _ _ _ _ _ _ _ E) as [(m' & Em & Eh & _)|(v & Em & _)]; [|done].
  injection Em as <-. simpl in Eh. apply execute_execute_shape in Eh as (q & st & c0 & Hq & Hst & _ & Hal & _).
  rewrite Hp in Hq. injection Hq as <-. destruct Hal as [[_ Hs]|(e & vc & _ & Hv' & _)]; [|congruence].
  unfold sender_can_execute in Hs. rewrite Hm, H0 in Hs. lia.
Qed.

(** ** Who exchanges the module *)
Lemma x_module O d b xs l e :
  xreached O d b xs l -> e ∈ l -> x_mod (ev_post e) <> x_mod (ev_pre e) ->
  exists pre b' post subs, e = ECall pre b' (c_dao (s_cfg (x_s pre))) (XExchange (x_mod post)) post subs.
Proof.
  intros HR He Hn. destruct (xreached_trace _ _ _ _ _ HR) as (b0 & xs0 & _ & _ & T).
  apply trace_forall in T. rewrite Forall_forall in T. destruct (T e He) as (_ & _ & H). clear T.
  destruct e as [pre b1 a m post subs|pre b1 x ok post]; cbn [ev_pre ev_post] in *.
  - destruct H as [_ H]. destruct (xhandle_shape _ _ _ _ _ _ _ H) as [(m' & -> & _ & E)|(v & -> & -> & _ & <- & _)];
      [by rewrite E in Hn|]. eauto.
  - destruct ok.
    + destruct H as [_ [r H]]. by apply xon_ok_shape in H as [_ H].
    + destruct H as [_ H]. by apply xon_fail_shape in H as [_ H].
Qed.
