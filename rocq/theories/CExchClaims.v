(** The claims about Condorcet proposals of a DAO that exchanges its voting module. *)
From stdpp Require Import gmap strings.
From Verif Require Import Base BaseProofs Exec ExecProofs VotingModel VotingSpec VotingProofs
  CondModel CondSpec CondMatrix CondWinner CondProofs CondLife CondClaims CExchModel CExchSpec CExchProofs.

(** ** What stands *)
Lemma x_stand O b xs l b' xs' l' :
  xreached O b xs l -> xlater O b xs b' xs' l' ->
  (forall id t p, s_tallies (x_s xs) !! id = Some t -> s_props (x_s xs) !! id = Some p ->
     exists t' p', s_tallies (x_s xs') !! id = Some t' /\ s_props (x_s xs') !! id = Some p' /\
       terms p' = terms p /\ tally_terms t' = tally_terms t) /\
  (forall k r, s_votes (x_s xs) !! k = Some r -> s_votes (x_s xs') !! k = Some r).
Proof.
  intros HR (h & Hh & Hr & _). destruct (reached_xtrace _ _ _ _ HR) as (HI & _).
  destruct (exch_trace O _ b xs h xs' l' HI Hh Hr) as [_ HTr].
  assert (forall b0 s l0 b1 s', xtrace O (s_dao (x_s xs)) b0 s l0 b1 s' ->
    (forall id t p, s_tallies (x_s s) !! id = Some t -> s_props (x_s s) !! id = Some p ->
     exists t' p', s_tallies (x_s s') !! id = Some t' /\ s_props (x_s s') !! id = Some p' /\
       terms p' = terms p /\ tally_terms t' = tally_terms t) /\
    (forall k r, s_votes (x_s s) !! k = Some r -> s_votes (x_s s') !! k = Some r)) as H; [|by eapply H].
  clear. intros b0 s l0 b1 s' HTr. induction HTr as [|b0 s e l b1 s' Hb <- Hl Htr [IH1 IH2]]; [eauto 10|].
  apply xlegit_prim in Hl as (HI & _ & [HP|E]).
  - split.
    + intros id t p Ht Hp. destruct (sprim_get _ _ _ _ _ _ _ _ HI HP Ht Hp) as (t1 & p1 & Ht1 & Hp1 & A & B & _).
      destruct (IH1 id t1 p1 Ht1 Hp1) as (t2 & p2 & ? & ? & A2 & B2). exists t2, p2. split; [done|].
      split; [done|]. split; congruence.
    + intros k r Hk. apply IH2. by eapply votes_prim.
  - rewrite E in IH1, IH2. done.
Qed.

(** ** What a tally holds *)
Lemma margin_cast Q s id t x y : s_tallies s !! id = Some t ->
  margin Q s id x y = cast_margin (fun a => vp Q (s_dao s) a (t_start t)) s id x y.
Proof. intros Ht. unfold margin, cast_margin, start_of. by rewrite Ht. Qed.
Lemma voted_cast Q s id t : s_tallies s !! id = Some t ->
  voted_power Q s id = cast_power (fun a => vp Q (s_dao s) a (t_start t)) s id.
Proof. intros Ht. unfold voted_power, cast_power, start_of. by rewrite Ht. Qed.
Lemma beats_all_ext n mg mg' c : (forall x y, mg x y = mg' x y) -> beats_all n mg c -> beats_all n mg' c.
Proof. intros E [H1 H2]. split; [done|]. intros y Hy Hne. rewrite <- E. auto. Qed.

Lemma prop_ok_holds Q s b id t p :
  s_tallies s !! id = Some t -> prop_ok Q s b id t p ->
  m_n (t_m t) = Z.of_nat (length (p_choices p)) /\
  p_total p - t_outstanding t = voted_power Q s id /\
  (forall x y, 0 <= x < m_n (t_m t) -> 0 <= y < m_n (t_m t) -> x <> y ->
     exists c, get (t_m t) x y = Ok c /\ val c = margin Q s id x y) /\
  (forall c, reported (t_winner t) = Some c <-> beats_all (m_n (t_m t)) (margin Q s id) c).
Proof.
  intros Ht HPO. split; [apply HPO|]. split; [apply HPO|]. split.
  - intros x y Hx Hy Hne. destruct (get_mval (t_m t) x y (po_mat _ _ _ _ _ _ HPO) Hx Hy Hne) as (c & A & _ & B).
    exists c. split; [done|]. rewrite B. by apply (po_mg _ _ _ _ _ _ HPO).
  - intros c. apply winner_reported with (out := t_outstanding t); [|by eapply tally_winner_spec].
    intros x y _ _ _. apply margin_anti.
Qed.
Lemma x_counts O b xs l id t p :
  all_typed O -> xreached O b xs l ->
  s_tallies (x_s xs) !! id = Some t -> s_props (x_s xs) !! id = Some p ->
  exists pw v b0, born l id b0 v /\ height b0 = t_start t /\
    p_total p = tnow (O v) (s_dao (x_s xs)) b0 id /\
    weighs O l (x_s xs) id (t_start t) pw /\
    p_total p - t_outstanding t = cast_power pw (x_s xs) id /\ 0 <= t_outstanding t /\
    m_n (t_m t) = Z.of_nat (length (p_choices p)) /\
    (forall x y, 0 <= x < m_n (t_m t) -> 0 <= y < m_n (t_m t) -> x <> y ->
       exists c, get (t_m t) x y = Ok c /\ val c = cast_margin pw (x_s xs) id x y) /\
    (forall c, reported (t_winner t) = Some c <-> beats_all (m_n (t_m t)) (cast_margin pw (x_s xs) id) c).
Proof.
  intros HT HR Ht Hp.
  destruct (reached_told _ _ _ _ HT HR id t p Ht Hp) as (Q & v & b0 & A & B & C & D & E & F).
  destruct (prop_ok_holds _ _ _ _ _ _ Ht B) as (H1 & H2 & H3 & H4).
  exists (fun a => vp Q (s_dao (x_s xs)) a (t_start t)), v, b0.
  split; [done|]. split; [done|]. split; [done|]. split; [exact F|].
  split; [by rewrite <- (voted_cast Q _ _ _ Ht)|]. split; [apply B|]. split; [done|]. split.
  - intros x y Hx Hy Hne. destruct (H3 x y Hx Hy Hne) as (c & G & K). exists c. split; [done|].
    rewrite K. by apply margin_cast.
  - intros c. rewrite H4. split; apply beats_all_ext; intros x y; [|symmetry]; by apply margin_cast.
Qed.

(** ** Answers and ends *)
Lemma prop_ok_status Q s b b' id t p :
  typed Q -> prop_ok Q s b id t p -> exists st, status_at b' p t = Ok st.
Proof.
  intros HT [_ _ _ _ Ho Ho0 _ _ _ _ _]. pose proof (voted_nonneg Q s id HT). unfold status_at.
  destruct (p_status p); [|eauto..].
  set (early := match p_min p with Some m => _ | None => _ end). destruct early; [eauto|].
  rewrite sub128_eq by lia. destruct (_ && _); [eauto|]. destruct (t_winner t); eauto.
Qed.
Lemma x_answers O b xs l id p b' :
  all_typed O -> xreached O b xs l -> s_props (x_s xs) !! id = Some p ->
  exists st, query_status (x_s xs) b' id = Ok st.
Proof.
  intros HT HR Hp. destruct (reached_xtrace _ _ _ _ HR) as (HI & _).
  destruct (proj1 (si_dom _ _ HI id) ltac:(eauto)) as [t Ht].
  destruct (reached_told _ _ _ _ HT HR id t p Ht Hp) as (Q & v & b0 & A & B & _).
  destruct (prop_ok_status _ _ _ b' _ _ _ A B) as [st Hst]. exists st. apply query_unfold. eauto.
Qed.
Lemma pass_in_range Q s b id t p w :
  prop_ok Q s b id t p -> pass_just b p t w -> exists ms, p_choices p !! Z.to_nat w = Some ms.
Proof.
  intros HPO [_ Hw].
  assert (0 <= w < m_n (t_m t)) as Hr.
  { pose proof (po_win _ _ _ _ _ _ HPO) as HW.
    destruct Hw as [Hw|[_ Hw]]; rewrite Hw in HW; destruct HW as [[? _] _]; done. }
  rewrite (po_n _ _ _ _ _ _ HPO) in Hr. apply lookup_lt_is_Some_2. lia.
Qed.
Lemma x_not_stuck O b xs l id p t :
  all_typed O -> xreached O b xs l ->
  s_props (x_s xs) !! id = Some p -> s_tallies (x_s xs) !! id = Some t ->
  is_expired (t_exp t) b = true -> (forall e, p_min p = Some e -> is_expired e b = true) ->
  (exists st, query_status (x_s xs) b id = Ok st /\ terminal st) \/
  (exists w, query_status (x_s xs) b id = Ok (CPassed w) /\
   forall a, 0 < vp (O (x_mod xs)) (s_dao (x_s xs)) a (t_start t) ->
     exists xs' subs, xhandle O xs b a (XCond (Execute id)) = Ok (xs', subs) /\
       query_status (x_s xs') b id = Ok CExecuted) \/
  (query_status (x_s xs) b id = Ok CRejected /\
   forall a, exists xs' subs, xhandle O xs b a (XCond (Close id)) = Ok (xs', subs) /\
       query_status (x_s xs') b id = Ok CClosed).
Proof.
  intros HT HR Hp Ht Hx Hm.
  destruct (reached_told _ _ _ _ HT HR id t p Ht Hp) as (Q & v & b0 & A & B & _).
  destruct (prop_ok_status _ _ _ b _ _ _ A B) as [st Hst].
  assert (query_status (x_s xs) b id = Ok st) as Hq by (apply query_unfold; eauto).
  pose proof (status_at_ok _ _ _ _ Hst (po_status _ _ _ _ _ _ B)) as HJ.
  destruct st as [| |w| | |]; [|right; right|right; left; exists w|left..];
    try (eexists; split; [exact Hq|]; unfold terminal; tauto).
  - exfalso. unfold status_at in Hst. destruct (p_status p) eqn:Es; try discriminate.
    destruct (match p_min p with Some m => negb (is_expired m b) | None => false end) eqn:Em.
    { destruct (p_min p) as [e|]; [|done]. rewrite (Hm e) in Em by done. done. }
    destruct (sub128 _ _); [|discriminate]. rewrite Hx in Hst. simpl in Hst.
    destruct (does_vote_count_pass _ _ _); simpl in Hst; [|discriminate].
    destruct (t_winner t); discriminate.
  - split; [done|]. intros a. simpl. unfold execute_close. rewrite Ht, Hp.
    unfold update_status. rewrite Hst. simpl. do 2 eexists. split; [done|].
    unfold query_status. simpl. rewrite lookup_insert, Ht. done.
  - split; [done|]. intros a Ha. destruct HJ as [_ HJ].
    assert (pass_just b p t w) as HJ' by done.
    destruct (pass_in_range _ _ _ _ _ _ _ B HJ') as [ms Hms].
    simpl. unfold execute_execute. rewrite Ht.
    destruct (negb (_ =? 0)) eqn:E0; [|lia]. rewrite Hp. unfold update_status. rewrite Hst. simpl.
    rewrite Hms. do 2 eexists. split; [done|]. unfold query_status. simpl. rewrite lookup_insert, Ht. done.
Qed.

(** ** Dispatches *)
Lemma xev_dispatch O d e id :
  legit (xhandle O) xon_fail xon_ok any_msg (fun _ xs => sinv d (x_s xs)) xpend e ->
  (xdispatches id [e] = 0 \/
   (xdispatches id [e] = 1 /\ ~ done_at (x_s (ev_pre e)) id /\ done_at (x_s (ev_post e)) id)) /\
  (done_at (x_s (ev_pre e)) id -> done_at (x_s (ev_post e)) id).
Proof.
  intros HL. pose proof (xlegit_prim _ _ _ HL) as (HI & _ & HP). split.
  - destruct HL as (_ & _ & H). unfold xdispatches. destruct e as [pre b a m post subs|pre b x ok post]; simpl in *; [|by left].
    destruct H as [_ H].
    destruct (xhandle_shape _ _ _ _ _ _ _ H) as [(m' & -> & E & _)|(v & -> & _ & _ & _ & ->)]; [|by left].
    destruct m' as [choices|i vote|i|i|c]; simpl in E.
    + apply propose_shape in E as (? & ? & ? & _ & _ & _ & _ & _ & _ & ->). by left.
    + apply vote_shape in E as (? & ? & ? & _ & _ & _ & _ & _ & _ & _ & ->). by left.
    + apply execute_shape in E as (t & p & w & ms & Ht & _ & Hp & Hst & _ & Es & ->). simpl.
      rewrite (si_id _ _ HI i p Hp), Es.
      destruct (Z.eqb_spec i id) as [->|]; [right|by left]. split; [done|].
      unfold done_at, status_of. simpl. rewrite lookup_insert, Hp. simpl. split; [|by left].
      unfold status_at in Hst. intros [[= E0]|[= E0]]; rewrite E0 in Hst; done.
    + apply close_shape in E as (? & ? & _ & _ & _ & _ & ->). by left.
    + apply set_config_shape in E as (? & _ & _ & _ & ->). by left.
  - intros Hd. destruct HP as [HP| ->]; [|done]. by eapply sdone_prim.
Qed.
Lemma x_once O b xs l id : xreached O b xs l -> xdispatches id l <= 1.
Proof.
  intros HR. destruct (reached_xtrace _ _ _ _ HR) as (_ & b0 & xs0 & _ & HTr).
  assert (forall b0 s l b1 s', xtrace O (s_dao (x_s xs)) b0 s l b1 s' ->
    (done_at (x_s s) id -> xdispatches id l = 0) /\ xdispatches id l <= 1) as H; [|by eapply H].
  clear. intros b0 s l b1 s' HTr. induction HTr as [|b0 s e l b1 s' Hb <- Hl Htr [IH1 IH2]].
  { split; [done|]. unfold xdispatches. simpl. lia. }
  destruct (xev_dispatch _ _ _ id Hl) as [Hc Hk].
  assert (xdispatches id (e :: l) = xdispatches id [e] + xdispatches id l) as ->.
  { unfold xdispatches. simpl. lia. }
  split.
  - intros Hd. rewrite (IH1 (Hk Hd)). destruct Hc as [->|(_ & Hn & _)]; [lia|done].
  - destruct Hc as [->|(-> & _ & Hd)]; [lia|]. rewrite (IH1 Hd). lia.
Qed.
(** The share of those who voted reaches the quorum, and [w] beats every other choice. *)
Lemma pass_holds Q s b id t p w :
  s_tallies s !! id = Some t -> prop_ok Q s b id t p -> pass_just b p t w ->
  share_near (voted_power Q s id) (p_total p) (p_quorum p) /\
  beats_all (Z.of_nat (length (p_choices p))) (margin Q s id) w.
Proof.
  intros Ht HPO [Hq Hw]. split.
  { unfold quorum_met in Hq. apply pass_iff in Hq; [|apply HPO]. by rewrite <- (po_out _ _ _ _ _ _ HPO). }
  destruct (prop_ok_holds _ _ _ _ _ _ Ht HPO) as (<- & _ & _ & H4). apply H4.
  destruct Hw as [->|[_ ->]]; done.
Qed.
Lemma dispatch_shape O d e id ms c dd :
  legit (xhandle O) xon_fail xon_ok any_msg (fun _ xs => sinv d (x_s xs)) xpend e ->
  match e with ECall pre b a m post subs => SExec dd id ms c ∈ subs | _ => False end ->
  exists pre b a post subs p t w, e = ECall pre b a (XCond (Execute id)) post subs /\ dd = d /\
    s_props (x_s pre) !! id = Some p /\ s_tallies (x_s pre) !! id = Some t /\
    status_at b p t = Ok (CPassed w) /\ p_choices p !! Z.to_nat w = Some ms /\ c = p_close_on_fail p /\
    vp (O (x_mod pre)) d a (t_start t) <> 0 /\ status_of (x_s post) id = Some CExecuted.
Proof.
  intros (HI & _ & H) Hx. destruct e as [pre b a m post subs|]; [|done]. simpl in *. destruct H as [_ H].
  destruct (xhandle_shape _ _ _ _ _ _ _ H) as [(m' & -> & E & _)|(v & -> & _ & _ & _ & ->)];
    [|by apply not_elem_of_nil in Hx].
  destruct m' as [choices|i vote|i|i|cc]; simpl in E.
  - apply propose_shape in E as (? & ? & ? & _ & _ & _ & _ & _ & _ & ->). by apply not_elem_of_nil in Hx.
  - apply vote_shape in E as (? & ? & ? & _ & _ & _ & _ & _ & _ & _ & ->). by apply not_elem_of_nil in Hx.
  - apply execute_shape in E as (t & p & w & ms' & Ht & Hvp & Hp & Hst & Hms & Es & ->).
    apply elem_of_list_singleton in Hx. rewrite (si_id _ _ HI i p Hp) in Hx. injection Hx as -> -> -> ->.
    pose proof (si_dao _ _ HI) as Hd. rewrite Hd in *.
    do 5 eexists. exists p, t, w. split; [done|]. repeat (split; [done|]).
    rewrite Es. unfold status_of. simpl. by rewrite lookup_insert.
  - apply close_shape in E as (? & ? & _ & _ & _ & _ & ->). by apply not_elem_of_nil in Hx.
  - apply set_config_shape in E as (? & _ & _ & _ & ->). by apply not_elem_of_nil in Hx.
Qed.
Lemma x_dispatch O b xs l pre b1 a m post subs dd id ms c :
  all_typed O -> xreached O b xs l -> ECall pre b1 a m post subs ∈ l -> SExec dd id ms c ∈ subs ->
  m = XCond (Execute id) /\ dd = s_dao (x_s xs) /\
  exists p t w pw, s_props (x_s pre) !! id = Some p /\ s_tallies (x_s pre) !! id = Some t /\
    query_status (x_s pre) b1 id = Ok (CPassed w) /\ p_choices p !! Z.to_nat w = Some ms /\
    c = p_close_on_fail p /\ vp (O (x_mod pre)) (s_dao (x_s xs)) a (t_start t) <> 0 /\
    weighs O l (x_s pre) id (t_start t) pw /\
    share_near (cast_power pw (x_s pre) id) (p_total p) (p_quorum p) /\
    beats_all (Z.of_nat (length (p_choices p))) (cast_margin pw (x_s pre) id) w /\
    status_of (x_s post) id = Some CExecuted.
Proof.
  intros HT HR He Hx. destruct (event_told _ _ _ _ _ HT HR He) as (HL & HK & _).
  destruct (dispatch_shape O _ _ id ms c dd HL Hx) as (pre' & b' & a' & post' & subs' & p & t & w & E & -> & Hp & Ht & Hst & Hms & -> & Hv & Hs).
  injection E as <- <- <- -> <- <-. split; [done|]. split; [done|].
  destruct (HK id t p Ht Hp) as (Q & v & b0 & A & B & _ & _ & _ & F). simpl in B.
  pose proof (status_at_ok _ _ _ _ Hst (po_status _ _ _ _ _ _ B)) as [_ HJ].
  destruct (pass_holds _ _ _ _ _ _ w Ht B HJ) as [H1 H2].
  destruct HL as (HI & _). simpl in HI. pose proof (si_dao _ _ HI) as Hd.
  exists p, t, w, (fun a => vp Q (s_dao (x_s pre)) a (t_start t)).
  split; [done|]. split; [done|]. split; [apply query_unfold; eauto|].
  split; [done|]. split; [done|]. split; [done|].
  split; [intros a0 r Hr; rewrite Hd; by apply F|].
  split; [by rewrite <- (voted_cast Q _ _ _ Ht)|]. split; [|done].
  eapply beats_all_ext; [|exact H2]. intros x y. by apply margin_cast.
Qed.

(** ** Calm exchanges *)
Lemma x_electorate O b xs l id t p :
  all_typed O -> xreached O b xs l -> calm O l ->
  s_tallies (x_s xs) !! id = Some t -> s_props (x_s xs) !! id = Some p -> ~ terminal (p_status p) ->
  exists v b0, born l id b0 v /\ height b0 = t_start t /\
    p_total p = tnow (O v) (s_dao (x_s xs)) b0 id /\
    p_total p - t_outstanding t = voted_power (O v) (x_s xs) id /\
    (forall x y, 0 <= x < m_n (t_m t) -> 0 <= y < m_n (t_m t) -> x <> y ->
       exists c, get (t_m t) x y = Ok c /\ val c = margin (O v) (x_s xs) id x y) /\
    (forall c, reported (t_winner t) = Some c <-> beats_all (m_n (t_m t)) (margin (O v) (x_s xs) id) c).
Proof.
  intros HT HR Hc Ht Hp Hn.
  destruct (reached_calmed _ _ _ _ HT HR Hc id t p Ht Hp Hn) as (v & b0 & B & C & D & E & _).
  destruct (prop_ok_holds _ _ _ _ _ _ Ht B) as (_ & H2 & H3 & H4). exists v, b0. done.
Qed.
Lemma x_mandate O b xs l pre b1 a m post subs dd id ms c :
  all_typed O -> xreached O b xs l -> calm O l ->
  ECall pre b1 a m post subs ∈ l -> SExec dd id ms c ∈ subs ->
  exists p w v b0, s_props (x_s pre) !! id = Some p /\ p_choices p !! Z.to_nat w = Some ms /\
    born l id b0 v /\ p_total p = tnow (O v) (s_dao (x_s xs)) b0 id /\
    share_near (voted_power (O v) (x_s pre) id) (p_total p) (p_quorum p) /\
    beats_all (Z.of_nat (length (p_choices p))) (margin (O v) (x_s pre) id) w.
Proof.
  intros HT HR Hc He Hx. destruct (event_told _ _ _ _ _ HT HR He) as (HL & _ & HK).
  destruct (dispatch_shape O _ _ id ms c dd HL Hx) as (pre' & b' & a' & post' & subs' & p & t & w & E & -> & Hp & Ht & Hst & Hms & -> & Hv & Hs).
  injection E as <- <- <- -> <- <-.
  assert (~ terminal (p_status p)) as Hn.
  { unfold status_at in Hst. intros [E|[E|E]]; rewrite E in Hst; discriminate. }
  destruct (HK Hc id t p Ht Hp Hn) as (v & b0 & B & C & D & E & _). simpl in B.
  pose proof (status_at_ok _ _ _ _ Hst (po_status _ _ _ _ _ _ B)) as [_ HJ].
  destruct (pass_holds _ _ _ _ _ _ w Ht B HJ) as [H1 H2]. exists p, w, v, b0. done.
Qed.
(** While voting goes on, who may vote is who has power. *)
Lemma prop_ok_vote Q s b a id v t p :
  typed Q -> covers Q -> s_tallies s !! id = Some t -> s_props s !! id = Some p -> prop_ok Q s b id t p ->
  ranking (Z.of_nat (length (p_choices p))) v -> s_votes s !! (id, a) = None ->
  vp Q (s_dao s) a (t_start t) <> 0 ->
  exists t', vote_new v (m_n (t_m t)) = Ok v /\
    tally_add_vote t v (vp Q (s_dao s) a (t_start t)) = Ok t'.
Proof.
  intros HT HC Ht Hp HPO Hr Hv Hvp.
  rewrite <- (po_n _ _ _ _ _ _ HPO) in Hr.
  set (q := vp Q (s_dao s) a (t_start t)) in *.
  assert (0 < q) as Hq by (destruct HT as [HT _]; specialize (HT (s_dao s) a (t_start t)); unfold q in *; lia).
  assert (q <= t_outstanding t) as Hle.
  { destruct (vote_voters_sum (fun a => vp Q (s_dao s) a (t_start t)) id (s_votes s)) as (l0 & Hnd & Hs & Hl).
    assert (voted_power Q s id = lsum (fun a => vp Q (s_dao s) a (t_start t)) l0) as E.
    { rewrite <- Hs. unfold voted_power, start_of. by rewrite Ht. }
    destruct (po_tnow _ _ _ _ _ _ HPO) as (b0 & Hb0 & Htot).
    pose proof (HC (s_dao s) b0 id (a :: l0)) as HC0. rewrite Hb0 in HC0. simpl in HC0.
    rewrite <- Htot, <- E in HC0. fold q in HC0. pose proof (po_out _ _ _ _ _ _ HPO) as Ho.
    specialize (HC0 ltac:(constructor; [rewrite Hl, Hv; by intros [? ?]|done])). lia. }
  pose proof (po_mat _ _ _ _ _ _ HPO) as HM. pose proof (mo_n _ HM) as Hn. pose proof (mo_sq _ HM) as Hsq.
  pose proof (po_total _ _ _ _ _ _ HPO) as Htot. pose proof (voted_nonneg Q s id HT) as Hvn.
  pose proof (po_out _ _ _ _ _ _ HPO) as Hout.
  rewrite vote_new_total; [|nia|done]. unfold tally_add_vote.
  pose proof (proj1 (ranking_iff (m_n (t_m t)) v ltac:(lia)) Hr) as (_ & Hnd & HF).
  destruct (record_vote_total (m_n (t_m t)) q v [] (t_m t)) as [m' Em]; [done|done|done|done|lia| |].
  { intros u w Hu Hw Hne. rewrite (po_mg _ _ _ _ _ _ HPO) by done.
    assert (sg [] u w = 0) as -> by done.
    assert (- voted_power Q s id <= margin Q s id u w) as Hm; [|lia].
    unfold margin, voted_power.
    transitivity (msum (fun k (_ : list Z) => -1 * (if k.1 =? id then vp Q (s_dao s) k.2 (start_of s id) else 0)) (s_votes s)).
    { rewrite msum_scale. lia. }
    apply msum_le. intros k x _. destruct (k.1 =? id); [|lia].
    destruct HT as [HT _]. specialize (HT (s_dao s) k.2 (start_of s id)). pose proof (sg_bounds x u w). nia. }
  rewrite Em. rewrite sub128_eq by lia.
  apply (record_vote_ok (m_n (t_m t))) in Em as (HM' & _ & _); [|done..|lia].
  destruct (compute_winner_ok m' (t_outstanding t - q) HM') as (w & -> & _). eauto.
Qed.
Lemma x_vote_iff O b xs l a id v t p :
  all_typed O -> all_cover O -> xreached O b xs l -> calm O l ->
  s_tallies (x_s xs) !! id = Some t -> s_props (x_s xs) !! id = Some p -> ~ terminal (p_status p) ->
  (exists r, xhandle O xs b a (XCond (CastVote id v)) = Ok r) <->
  ranking (Z.of_nat (length (p_choices p))) v /\ is_expired (t_exp t) b = false /\
    s_votes (x_s xs) !! (id, a) = None /\ vp (O (x_mod xs)) (s_dao (x_s xs)) a (t_start t) <> 0.
Proof.
  intros HT HC HR Hc Ht Hp Hn.
  destruct (reached_calmed _ _ _ _ HT HR Hc id t p Ht Hp Hn) as (v0 & b0 & B & _ & _ & _ & Hag).
  split.
  - intros [[xs' subs] H]. apply xhandle_shape in H as [(m' & [= <-] & E & _)|(? & ? & _)]; [|done].
    simpl in E. apply vote_shape in E as (t1 & v' & t' & Ht1 & Hvp & Hnone & Hx & Hv & _).
    rewrite Ht in Ht1. injection Ht1 as <-.
    pose proof (mo_n _ (po_mat _ _ _ _ _ _ B)). apply vote_new_ok in Hv as [-> Hr]; [|lia].
    rewrite (po_n _ _ _ _ _ _ B) in Hr. done.
  - intros (Hr & Hx & Hnone & Hvp). rewrite (Hag Hx) in Hvp.
    destruct (prop_ok_vote (O v0) (x_s xs) b a id v t p (HT v0) (HC v0) Ht Hp B Hr Hnone Hvp) as (t' & Hv & Hadd).
    simpl. unfold execute_vote. rewrite Ht, (Hag Hx).
    destruct (negb (_ =? 0)) eqn:E0; [|lia]. rewrite Hnone, Hx. simpl. rewrite Hv, Hadd. eauto.
Qed.

(** ** Who exchanges the module *)
Lemma x_module O b xs l e :
  xreached O b xs l -> e ∈ l -> x_mod (ev_post e) <> x_mod (ev_pre e) ->
  exists pre b' post subs, e = ECall pre b' (s_dao (x_s pre)) (XExchange (x_mod post)) post subs.
Proof.
  intros HR He Hn. destruct (reached_xtrace _ _ _ _ HR) as (_ & b0 & xs0 & _ & T).
  apply trace_forall in T. rewrite Forall_forall in T. destruct (T e He) as (_ & _ & H). clear T.
  destruct e as [pre b1 a m post subs|pre b1 x ok post]; cbn [ev_pre ev_post] in *.
  - destruct H as [_ H]. destruct (xhandle_shape _ _ _ _ _ _ _ H) as [(m' & -> & _ & E)|(v & -> & -> & _ & <- & _)];
      [by rewrite E in Hn|]. eauto.
  - destruct ok.
    + destruct H as [_ [r H]]. by apply xon_ok_shape in H as [_ H].
    + destruct H as [_ H]. by apply xon_fail_shape in H as [_ H].
Qed.
