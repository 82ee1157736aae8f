(** Proposals of a DAO that exchanges its voting module: invariants. *)
From stdpp Require Import gmap strings.
From Verif Require Import Base BaseProofs Exec ExecProofs VotingModel VotingSpec VotingProofs HooksModel
  SingleModel SingleSpec SingleProofs SingleLife SingleTally SingleFinal WholeSpec ExchModel ExchSpec.

(** ** Every history: the invariant without assumptions *)
Definition xw (d : addr) (b : block) (xs : xstate) : Prop :=
  winv b (x_s xs) /\ attached d (x_s xs) /\ tally_inv (x_s xs).
Definition xpend (b : block) (xs : xstate) (x : sub) : Prop := pend b (x_s xs) x.
Notation xtrace O d := (trace (xhandle O) xon_fail xon_ok (xkeeps d) (xw d) xpend).

Lemma xhandle_shape O xs b a m xs' subs :
  xhandle O xs b a m = Ok (xs', subs) ->
  (exists m', m = XSingle m' /\ handle (O (x_mod xs)) (x_s xs) b a m' = Ok (x_s xs', subs) /\
     x_mod xs' = x_mod xs) \/
  (exists v, m = XExchange v /\ a = c_dao (s_cfg (x_s xs)) /\ x_s xs' = x_s xs /\ x_mod xs' = v /\ subs = []).
Proof.
  destruct m as [m|v]; simpl; intros H.
  - destruct (handle _ _ _ _ _) as [[s subs']|] eqn:E; [|discriminate]. injection H as <- <-.
    left. eauto.
  - destruct (a =? _)%N eqn:E; [|discriminate]. apply N.eqb_eq in E. injection H as <- <-.
    right. eauto 10.
Qed.
Lemma xon_fail_shape xs b x xs' :
  xon_fail xs b x = Ok xs' -> on_fail (x_s xs) b x = Ok (x_s xs') /\ x_mod xs' = x_mod xs.
Proof.
  unfold xon_fail. destruct (on_fail _ _ _) as [s|] eqn:E; [|discriminate]. intros [= <-]. done.
Qed.
Lemma xon_ok_shape xs b x d xs' :
  xon_ok xs b x d = Ok xs' -> on_ok (x_s xs) b x d = Ok (x_s xs') /\ x_mod xs' = x_mod xs.
Proof.
  unfold xon_ok. destruct (on_ok _ _ _ _) as [s|] eqn:E; [|discriminate]. intros [= <-]. done.
Qed.

Lemma aprims_prims O d b s s' : rtc (aprim O d b) s s' -> rtc (prim O b) s s'.
Proof. intros H. induction H as [|s1 s2 s3 [Hp _] Hr IH]; [done|]. by eapply rtc_l. Qed.
Lemma aprims_attached O d b s s' : rtc (aprim O d b) s s' -> attached d s -> attached d s'.
Proof. intros H. induction H as [|s1 s2 s3 [_ Ha] Hr IH]; [done|]. auto. Qed.
Lemma prims_winv O b s s' : rtc (prim O b) s s' -> winv b s -> winv b s'.
Proof. intros H. induction H as [|s1 s2 s3 Hp Hr IH]; [done|]. intros HI. apply IH. by eapply prim_winv. Qed.
Lemma on_fail_attached d s b x s' : on_fail s b x = Ok s' -> attached d s -> attached d s'.
Proof.
  intros H. destruct (on_fail_shape _ _ _ _ H) as [(d0 & id & ms & p & -> & Hp & ->)|(Hx & E1 & E2 & E3 & E4)].
  - done.
  - unfold attached. by rewrite E4.
Qed.
Lemma on_ok_attached d s b x r s' : on_ok s b x r = Ok s' -> attached d s -> attached d s'.
Proof. intros H. destruct (on_ok_aprim (Oracle (fun _ _ _ => 0) (fun _ _ => 0)) d _ _ _ _ _ H). done. Qed.

Lemma exch_trace O d b0 xs h xs' l :
  xw d b0 xs -> hist_ok b0 h -> hist_all (xkeeps d) h ->
  run_hist (xhandle O) xon_fail xon_ok xs h = (xs', l) ->
  xw d (hist_end b0 h) xs' /\ xtrace O d b0 xs l (hist_end b0 h) xs'.
Proof.
  intros HI Hh Ha Hr. eapply run_hist_trace; try done; unfold xpend, xw.
  - intros b s1 a m s2 subs (HW & HA & HT) Hm H.
    destruct (xhandle_shape _ _ _ _ _ _ _ H) as [(m' & -> & E & _)|(v & -> & _ & E & _ & ->)].
    + pose proof (handle_aprims _ d _ _ _ _ _ _ E Hm) as Hp.
      split; [|intros x Hx; by eapply handle_pend].
      split; [by eapply handle_winv|]. split; [by eapply aprims_attached|].
      eapply prims_tally; [done|done|]. by eapply aprims_prims.
    + rewrite E. split; [done|]. intros x Hx. by apply elem_of_nil in Hx.
  - intros b s1 x s2 (HW & HA & HT) HP H. apply xon_fail_shape in H as [H _].
    split; [by eapply on_fail_winv|]. split; [by eapply on_fail_attached|by eapply on_fail_tally].
  - intros b s1 x r s2 (HW & HA & HT) HP H. apply xon_ok_shape in H as [H _].
    pose proof (on_ok_prims (O 0%N) _ _ _ _ _ H) as Hp.
    split; [by eapply prim_winv|]. split; [by eapply on_ok_attached|by eapply prim_tally].
  - intros b s1 a m s2 subs x (HW & HA & HT) Hm H HP d' id ms c ->.
    destruct (xhandle_shape _ _ _ _ _ _ _ H) as [(m' & -> & E & _)|(v & -> & _ & E & _ & ->)].
    + eapply done_at_prims; [done|by eapply handle_prims|]. by eapply HP.
    + rewrite E. by eapply HP.
  - intros b s1 x s2 y HI1 _ H HP d' id ms c ->. apply xon_fail_shape in H as [H _].
    eapply on_fail_done; [done|]. by eapply HP.
  - intros b s1 x r s2 y (HW & _) _ H HP d' id ms c ->. apply xon_ok_shape in H as [H _].
    eapply (done_at_prims (O 0%N) b (x_s s1)); [done|apply rtc_once; by eapply on_ok_prims|]. by eapply HP.
  - intros b b' s1 Hb (HW & HA & HT). split; [by eapply winv_time|done].
Qed.
Lemma fresh_xw d b xs : fresh (x_s xs) -> attached d (x_s xs) -> xw d b xs.
Proof. intros Hf Ha. split; [by apply fresh_winv|]. split; [done|by apply fresh_tally]. Qed.

(** What stands recorded. *)
Lemma xlegit_keeps O d e :
  legit (xhandle O) xon_fail xon_ok (xkeeps d) (xw d) xpend e ->
  keeps_ballots (x_s (ev_pre e)) (x_s (ev_post e)).
Proof.
  intros ((HW & _) & _ & H). destruct e as [pre b a m post subs|pre b x ok post]; simpl in *.
  - destruct H as [_ H].
    destruct (xhandle_shape _ _ _ _ _ _ _ H) as [(m' & -> & E & _)|(v & -> & _ & E & _)].
    + apply handle_prims in E. clear H. revert HW.
      induction E as [|s1 s2 s3 Hp Hr IH]; intros HW; [apply keeps_ballots_refl|].
      eapply keeps_ballots_trans; [by eapply prim_keeps_ballots|]. apply IH. by eapply prim_winv.
    + rewrite E. apply keeps_ballots_refl.
  - destruct ok.
    + destruct H as [_ [r H]]. apply xon_ok_shape in H as [H _].
      eapply prim_keeps_ballots; [done|by eapply (on_ok_prims (O 0%N))].
    + destruct H as [_ H]. apply xon_fail_shape in H as [H _].
      destruct (on_fail_shape _ _ _ _ H) as [(d0 & id & ms & p & -> & Hp & E)|(Hx & E1 & E2 & E3 & E4)].
      * rewrite E. split; [by eapply same_terms_save|]. simpl. eauto.
      * split; [|rewrite E2; eauto]. split; [lia|]. rewrite E1. eauto.
Qed.
Lemma xtrace_keeps O d b0 xs l b1 xs' :
  xtrace O d b0 xs l b1 xs' -> keeps_ballots (x_s xs) (x_s xs').
Proof.
  apply (trace_rel (xhandle O) xon_fail xon_ok (xkeeps d) (xw d) xpend
    (fun a c => keeps_ballots (x_s a) (x_s c))).
  - intros; apply keeps_ballots_refl.
  - intros a c e; apply keeps_ballots_trans.
  - apply xlegit_keeps.
Qed.

(** ** One proposal with its electorate *)
Lemma tally_ok_one o d s id p :
  sane o d -> tally_inv s ->
  (forall a bl, s_ballots s !! (id, a) = Some bl ->
    bl_power bl = vp o d a (p_start p) /\ 0 < bl_power bl) ->
  s_props s !! id = Some p -> p_total p = tp o d (p_start p) ->
  tally_ok (p_total p) (p_votes p).
Proof.
  intros (S1 & S2 & S3) HT HP Hp Htot.
  assert (forall v, 0 <= ballot_total s id v) as Hnn.
  { intros v. apply msum_nonneg. intros [i a] bl Hbl.
    destruct (decide _) as [[E _]|]; [|lia]. simpl in E. subst i.
    destruct (HP _ _ Hbl). lia. }
  pose proof (HT id p Yes Hp) as HY. pose proof (HT id p No Hp) as HN.
  pose proof (HT id p Abstain Hp) as HA. simpl in HY, HN, HA.
  pose proof (Hnn Yes). pose proof (Hnn No). pose proof (Hnn Abstain).
  assert (ballot_total s id Yes + ballot_total s id No + ballot_total s id Abstain <= p_total p) as Hle.
  { unfold ballot_total. rewrite <- !msum_add.
    destruct (voters_sum (fun a => vp o d a (p_start p)) id (s_ballots s)) as (l & Hnd & Hs & _).
    rewrite Htot. etransitivity; [|apply (S3 (p_start p) l Hnd)]. rewrite <- Hs.
    apply msum_le. intros [i a] bl Hbl. simpl.
    destruct (decide (i = id)) as [->|Hne].
    - destruct (HP _ _ Hbl) as [<- ?].
      destruct (bl_vote bl); repeat (destruct (decide _) as [[? ?]|?]); try congruence; try tauto; lia.
    - repeat (destruct (decide _) as [[? ?]|?]); try congruence; lia. }
  unfold tally_ok, cast. lia.
Qed.

(** Proposal [id] with electorate [o], while the DAO asks [oc]. *)
Record good (o oc : oracle) (d : addr) (b : block) (s : state) (id : Z) (p : proposal) : Prop := {
  g_prop : tprop o d b p;
  g_power : forall a bl, s_ballots s !! (id, a) = Some bl ->
    bl_power bl = vp o d a (p_start p) /\ 0 < bl_power bl;
  g_asked : is_expired (p_exp p) b = false ->
    forall a, vp oc d a (p_start p) = vp o d a (p_start p) }.

Lemma good_tally o oc d b s id p :
  sane o d -> tally_inv s -> s_props s !! id = Some p -> good o oc d b s id p ->
  tally_ok (p_total p) (p_votes p) /\ p_total p <= U128_MAX /\ thr_range (p_thr p).
Proof.
  intros HS HT Hp [A B C]. pose proof (t_total _ _ _ _ A) as E.
  split; [by eapply tally_ok_one|]. split; [rewrite E; apply HS|apply (t_thr _ _ _ _ A)].
Qed.

Section prims.
  Context (O : addr -> oracle) (d cur : addr) (HS : all_sane O d).
  Definition kept (G : Z -> addr) (b : block) (s : state) : Prop :=
    forall id p, s_props s !! id = Some p ->
      terminal (p_status p) \/ good (O (G id)) (O cur) d b s id p.
  Definition regrown (G G' : Z -> addr) (s s' : state) : Prop :=
    (forall id, is_Some (s_props s !! id) -> G' id = G id) /\
    (forall id, s_props s !! id = None -> is_Some (s_props s' !! id) -> G' id = cur).

  Lemma good_frame o b s s' id p :
    (forall a, s_ballots s' !! (id, a) = s_ballots s !! (id, a)) ->
    good o (O cur) d b s id p -> good o (O cur) d b s' id p.
  Proof. intros E [A B C]. constructor; try done. intros a bl. rewrite E. apply B. Qed.

  Lemma prim_kept G b s s' :
    winv b s -> attached d s -> tally_inv s -> kept G b s -> prim (O cur) b s s' ->
    exists G', kept G' b s' /\ regrown G G' s s'.
  Proof.
    intros HI [A1 A2] HT HK Hprim.
    pose proof (prim_winv _ _ _ _ Hprim HI) as HI'.
    pose proof (prim_tally _ _ _ _ HI HT Hprim) as Htal'.
    assert (forall s'', (forall id, is_Some (s_props s'' !! id) -> is_Some (s_props s !! id)) ->
      regrown G G s s'') as Hsame.
    { intros s'' Hd. split; [done|]. intros id Hn Hs. apply Hd in Hs. rewrite Hn in Hs. by destruct Hs. }
    destruct Hprim as [s proposer ms st Hst|s id a p v r votes1 st Hp Hx Hpw Hvr Hst|s id p st fin Hp Hst Hal|s id a cur' r Hb|s s' E1 E2 E3 E4].
    - set (n := s_count s + 1). assert (s_props s !! n = None) as Hn.
      { destruct (s_props s !! n) eqn:E; [|done].
        assert (is_Some (s_props s !! n)) as Hs by (rewrite E; done).
        apply (wi_ids _ _ HI) in Hs. subst n. lia. }
      exists (fun i => if decide (i = n) then cur else G i). split; [|split].
      + intros id p Hp. simpl in Hp. fold n in Hp. destruct (decide (id = n)) as [->|Hne].
        * rewrite lookup_insert in Hp. injection Hp as <-. right.
          constructor.
          -- apply (tprop_open (O cur) d b (new_prop (O cur) s b proposer ms Open)); try done; simpl.
             ++ by rewrite A1.
             ++ pose proof (wi_cfg _ _ HI) as Hc. apply validate_config_ok in Hc as (Hc & _).
                by apply thr_typed_range.
             ++ assert (wprop b (new_prop (O cur) s b proposer ms st)) as [W1 W2 W3 _ _ _ _ W8].
                { apply (wi_props _ _ HI' n). simpl. apply lookup_insert. }
                constructor; simpl in *; done.
             ++ unfold tally_ok, cast. simpl. pose proof (HS cur) as (_ & _ & S3).
                specialize (S3 (height b) [] (NoDup_nil_2)). simpl in S3. rewrite A1. lia.
             ++ rewrite A1. apply (HS cur).
          -- simpl. intros a bl Hbl. apply (wi_ballots _ _ HI) in Hbl. rewrite Hn in Hbl. by destruct Hbl.
          -- done.
        * rewrite lookup_insert_ne in Hp by done.
          destruct (HK _ _ Hp) as [?|Hg]; [by left|right]. refine (good_frame _ _ s _ _ _ _ Hg); done.
      + intros id Hs. destruct (decide (id = n)) as [->|]; [|done]. rewrite Hn in Hs. by destruct Hs.
      + intros id Hnone Hs. simpl in Hs. fold n in Hs. destruct (decide (id = n)) as [|Hne]; [done|].
        rewrite lookup_insert_ne in Hs by done. rewrite Hnone in Hs. by destruct Hs.
    - exists G. split; [|apply Hsame; intros i; simpl; destruct (decide (i = id)) as [->|];
        [by rewrite Hp|by rewrite lookup_insert_ne]].
      intros id' p' Hp'. destruct (decide (id' = id)) as [->|Hne].
      2: { simpl in Hp'. rewrite lookup_insert_ne in Hp' by done. destruct (HK _ _ Hp') as [?|Hg]; [by left|right].
           eapply good_frame; [|exact Hg]. intros a'. simpl. by rewrite lookup_insert_ne by congruence. }
      pose proof Hp' as Hlook. simpl in Hp'. rewrite lookup_insert in Hp'. injection Hp' as <-. simpl.
      destruct (HK _ _ Hp) as [Ht|Hg].
      { left. pose proof (terminal_current (set_votes p votes1) b st Ht Hst). simpl in *. by subst st. }
      right. pose proof Hg as [Dp Hpow Hask]. specialize (Hask Hx). rewrite A1 in *.
      assert (forall a' bl, (<[(id, a):=Ballot (vp (O cur) d a (p_start p)) v r]> (s_ballots s)) !! (id, a') = Some bl ->
        bl_power bl = vp (O (G id)) d a' (p_start p) /\ 0 < bl_power bl) as Hpow'.
      { intros a' bl Hbl. destruct (decide (a' = a)) as [->|Hne].
        - rewrite lookup_insert in Hbl. injection Hbl as <-. simpl. rewrite Hask in *. split; [done|].
          destruct (HS (G id)) as [S1 _]. specialize (S1 a (p_start p)). lia.
        - rewrite lookup_insert_ne in Hbl by congruence. by apply Hpow. }
      assert (tally_ok (p_total p) votes1) as Hok'.
      { exact (tally_ok_one (O (G id)) d _ id (set_status (set_votes p votes1) st) (HS _) Htal' Hpow' Hlook (t_total _ _ _ _ Dp)). }
      pose proof (wi_props _ _ HI _ _ Hp) as Wp.
      assert (p_total p <= U128_MAX) as HT' by (rewrite (t_total _ _ _ _ Dp); apply (HS (G id))).
      constructor; [|exact Hpow'|done].
      destruct (decide (p_status p = Open)) as [Eo|Eno].
      + apply (tprop_open (O (G id)) d b (set_votes p votes1)); try done.
        * apply (t_total _ _ _ _ Dp).
        * apply (t_thr _ _ _ _ Dp).
        * by apply wprop_votes.
      + apply (tprop_current (O (G id)) d b (set_votes p votes1)); try done; [by apply wprop_votes|].
        apply tprop_votes; try done. intros Hr. eapply vote_result_le; [|done..]. apply (HS cur).
    - exists G. split; [|apply Hsame; intros i; simpl; destruct (decide (i = id)) as [->|];
        [by rewrite Hp|by rewrite lookup_insert_ne]].
      intros id' p' Hp'. simpl in Hp'. destruct (decide (id' = id)) as [->|Hne].
      2: { rewrite lookup_insert_ne in Hp' by done.
           destruct (HK _ _ Hp') as [?|Hg]; [by left|right]. refine (good_frame _ _ s _ _ _ _ Hg); done. }
      rewrite lookup_insert in Hp'. injection Hp' as <-. left. simpl.
      destruct Hal as [[-> _]|[[-> _]|[-> _]]]; unfold terminal; tauto.
    - exists G. split; [|apply Hsame; done].
      intros id' p' Hp'. destruct (HK _ _ Hp') as [?|[X Y Z]]; [by left|right].
      constructor; [done| |done]. simpl. intros a' bl Hbl.
      destruct (decide ((id, a) = (id', a'))) as [[= <- <-]|Hne].
      + rewrite lookup_insert in Hbl. injection Hbl as <-. simpl. by apply Y.
      + rewrite lookup_insert_ne in Hbl by done. by apply Y.
    - exists G. split; [|apply Hsame; by rewrite E1].
      intros id' p' Hp'. rewrite E1 in Hp'. destruct (HK _ _ Hp') as [?|Hg]; [by left|right].
      eapply good_frame; [|exact Hg]. intros a. by rewrite E2.
  Qed.
  Lemma regrown_trans G G1 G2 s s1 s2 :
    regrown G G1 s s1 -> regrown G1 G2 s1 s2 ->
    (forall id, is_Some (s_props s !! id) -> is_Some (s_props s1 !! id)) -> regrown G G2 s s2.
  Proof.
    intros [A B] [A' B'] Hd. split.
    - intros id Hs. rewrite A' by auto. auto.
    - intros id Hn Hs. destruct (s_props s1 !! id) eqn:E.
      + rewrite A' by (by rewrite E). apply B; [done|by rewrite E].
      + by apply B'.
  Qed.
  Lemma prims_kept G b s s' :
    winv b s -> attached d s -> tally_inv s -> kept G b s -> rtc (aprim (O cur) d b) s s' ->
    exists G', kept G' b s' /\ regrown G G' s s'.
  Proof.
    intros HI HA HT HK H. revert G HI HA HT HK. induction H as [s|s1 s2 s3 [Hp Ha] Hr IH]; intros G HI HA HT HK.
    - exists G. split; [done|]. split; [done|]. intros id Hn Hs. rewrite Hn in Hs. by destruct Hs.
    - destruct (prim_kept G b s1 s2 HI HA HT HK Hp) as (G1 & HK1 & R1).
      destruct (IH G1) as (G2 & HK2 & R2); [by eapply prim_winv|auto|by eapply prim_tally|done|].
      exists G2. split; [done|]. eapply regrown_trans; [done..|].
      intros id [p Hp1]. destruct (prim_terms _ _ _ _ HI Hp) as [_ E]. destruct (E _ _ Hp1) as (p' & -> & _). done.
  Qed.
  Lemma on_fail_kept G b s x s' :
    pend b s x -> kept G b s -> on_fail s b x = Ok s' -> kept G b s'.
  Proof.
    intros HP HK H.
    destruct (on_fail_shape s b x s' H) as [(d0 & id & ms & p & -> & Hp & ->)|(Hx & E1 & E2 & E3 & E4)].
    - intros id' p' Hp'. simpl in Hp'. destruct (decide (id' = id)) as [->|Hne].
      + rewrite lookup_insert in Hp'. injection Hp' as <-. left. unfold terminal. simpl. tauto.
      + rewrite lookup_insert_ne in Hp' by done.
        destruct (HK _ _ Hp') as [?|Hg]; [by left|right]. refine (good_frame _ _ s _ _ _ _ Hg); done.
    - intros id' p' Hp'. rewrite E1 in Hp'. destruct (HK _ _ Hp') as [?|Hg]; [by left|right].
      eapply good_frame; [|exact Hg]. intros a. by rewrite E2.
  Qed.
  Lemma kept_time G b b' s : block_le b b' -> kept G b s -> kept G b' s.
  Proof.
    intros Hb HK id p Hp. destruct (HK _ _ Hp) as [?|[A B C]]; [by left|right].
    constructor; [by eapply tprop_time|done|]. intros Hx. apply C.
    destruct (is_expired (p_exp p) b) eqn:E; [|done]. by rewrite (is_expired_mono _ _ _ Hb E) in Hx.
  Qed.
End prims.

(** ** Histories whose exchanges are calm *)
Definition xcalm (O : addr -> oracle) (d : addr) (done : log xstate xmsg sub) (b : block) (xs : xstate) : Prop :=
  exists G, kept O d (x_mod xs) G b (x_s xs) /\
    forall id, is_Some (s_props (x_s xs) !! id) -> born done id (G id).
Lemma born_mono l l' id v : born l id v -> born (l ++ l') id v.
Proof.
  intros (pre & b & a & pm & post & subs & H & R). exists pre, b, a, pm, post, subs.
  split; [|done]. apply elem_of_app. by left.
Qed.
Definition ev_calm (O : addr -> oracle) (d : addr) (e : event xstate xmsg sub) : Prop :=
  match e with
  | ECall pre b a (XExchange v) post subs =>
      forall id p, s_props (x_s pre) !! id = Some p ->
        terminal (p_status p) \/ is_expired (p_exp p) b = true \/
        forall a, vp (O v) d a (p_start p) = vp (O (x_mod pre)) d a (p_start p)
  | _ => True
  end.
Lemma calm_forall O d l : calm O d l -> Forall (ev_calm O d) l.
Proof.
  intros H. apply Forall_forall. intros e He. destruct e as [pre b a m post subs|]; [|done].
  destruct m as [m|v]; [done|]. intros id p Hp. eapply H; [|exact Hp]. exists a, post, subs. exact He.
Qed.

Lemma xcalm_step O d done e :
  all_sane O d -> legit (xhandle O) xon_fail xon_ok (xkeeps d) (xw d) xpend e -> ev_calm O d e ->
  xcalm O d done (ev_block e) (ev_pre e) -> xcalm O d (done ++ [e]) (ev_block e) (ev_post e).
Proof.
  intros HS ((HW & HA & HT) & _ & H) Hc (G & HK & HB).
  destruct e as [pre b a m post subs|pre b x ok post]; simpl in *.
  - destruct H as [Hm H].
    destruct (xhandle_shape _ _ _ _ _ _ _ H) as [(m' & -> & E & Em)|(v & -> & _ & E & Em & _)].
    + destruct (prims_kept O d (x_mod pre) HS G b _ _ HW HA HT HK (handle_aprims _ d _ _ _ _ _ _ E Hm))
        as (G' & HK' & [R1 R2]).
      exists G'. rewrite Em. split; [done|]. intros id Hs.
      destruct (s_props (x_s pre) !! id) as [p|] eqn:Ep.
      * rewrite R1 by (by rewrite Ep). apply born_mono, HB. by rewrite Ep.
      * rewrite (R2 id Ep Hs).
        assert (exists pm, m' = Propose pm) as [pm ->].
        { destruct (handle_count _ _ _ _ _ _ _ E) as [Ec|(pm & -> & _)]; [exfalso|eauto].
          pose proof (handle_winv _ _ _ _ _ _ _ HW E) as HW'.
          apply (wi_ids _ _ HW') in Hs. rewrite Ec in Hs. apply (wi_ids _ _ HW) in Hs.
          rewrite Ep in Hs. by destruct Hs. }
        exists pre, b, a, pm, post, subs. split; [|done]. apply elem_of_app. right. by left.
    + exists G. rewrite E, Em. split; [|intros id Hs; by apply born_mono, HB].
      intros id p Hp. destruct (HK _ _ Hp) as [?|[A B C]]; [by left|].
      destruct (Hc _ _ Hp) as [?|Hq]; [by left|right]. constructor; [done..|].
      intros Hx a'. destruct Hq as [Hx'|Hq]; [congruence|]. rewrite Hq. by apply C.
  - assert (xcalm O d done b post) as (G' & A & B).
    { destruct ok.
      - destruct H as [HP [r H]]. apply xon_ok_shape in H as [H Em].
        destruct (prims_kept O d (x_mod pre) HS G b _ _ HW HA HT HK
                   (rtc_once _ _ (on_ok_aprim _ d _ _ _ _ _ H))) as (G' & HK' & [R1 R2]).
        assert (s_props (x_s post) = s_props (x_s pre)) as Ep.
        { destruct x; simpl in H; injection H as E; by rewrite <- E. }
        exists G'. rewrite Em. split; [done|]. intros id Hs. rewrite Ep in Hs. rewrite R1 by done. auto.
      - destruct H as [HP H]. apply xon_fail_shape in H as [H Em]. exists G. rewrite Em.
        split; [by eapply on_fail_kept|]. intros id Hs. apply HB.
        destruct (on_fail_shape _ _ _ _ H) as [(d0 & i & ms & p & -> & Hp & E)|(Hx & E1 & _)].
        + rewrite E in Hs. simpl in Hs. destruct (decide (id = i)) as [->|]; [by rewrite Hp|].
          by rewrite lookup_insert_ne in Hs.
        + by rewrite E1 in Hs. }
    exists G'. split; [done|]. intros id Hs. by apply born_mono, B.
Qed.
Lemma xcalm_trace O d b0 xs l b1 xs' :
  all_sane O d -> xtrace O d b0 xs l b1 xs' -> Forall (ev_calm O d) l -> forall done,
  xcalm O d done b0 xs -> xcalm O d (done ++ l) b1 xs'.
Proof.
  intros HS. induction 1 as [b0 b1 s Hb|b0 s e l b1 s' Hb <- Hl Htr IH]; intros Hc done (G & HK & HB).
  - rewrite app_nil_r. exists G. split; [by eapply kept_time|done].
  - inversion Hc as [|? ? Hce Hcl]; subst. change (e :: l) with ([e] ++ l). rewrite app_assoc.
    apply IH; [done|]. apply xcalm_step; [done..|]. exists G. split; [by eapply kept_time|done].
Qed.
