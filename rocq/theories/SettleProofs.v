(** Deposits are settled: invariants over histories. *)
From Verif Require Import Base BaseProofs Exec ExecProofs ExecFrame VotingModel HooksModel SingleModel
  SingleSpec SingleProofs SingleLife PreModel PreSpec PreSingle PreProofs PreJoint PreClaims
  SettleModel SettleSpec SettleSingle SettleOwed SettlePre.

(** ** Counts *)
Definition due (w : reason) (j : jstate) : Z :=
  match w with
  | RCompleted id => finished (j_s j) id
  | RRejected i => rejected_deposit (j_q j) i
  | RWithdraw => 0
  end.
Definition sends (w : reason) (x : jsub) : Z :=
  match w with RCompleted id => jcompleted id x | RRejected i => jreject i x | RWithdraw => 0 end.
Definition cnt (w : reason) (j : jstate) : Z := count_why w (j_paid j).
Lemma due_le w j : due w j <= 1.
Proof.
  destruct w; cbn [due]; [pose proof (finished_range (j_s j) id); lia| |lia].
  pose proof (rejected_range (j_q j) id). lia.
Qed.
Lemma sends_nonneg w x : 0 <= sends w x.
Proof.
  destruct w as [id|i|]; cbn [sends]; [..|lia].
  - destruct x as [x|]; cbn [jcompleted]; [|lia]. destruct x; cbn; try lia. destruct (_ =? _); lia.
  - destruct x as [|x]; cbn [jreject]; [lia|]. destruct x; cbn; try lia. destruct (decide _); lia.
Qed.
Lemma count_nonneg w l : 0 <= count_why w l.
Proof. apply lsum_nonneg. intros p _. destruct (decide _); lia. Qed.

Record zinv (b : block) (s : zstate) : Prop := {
  zi_j : jinv b (z_j s);
  zi_pos : coins_pos (j_q (z_j s));
  zi_cnt : forall w, w <> RWithdraw -> cnt w (z_j s) <= due w (z_j s) }.
Definition solv (x : N) (s : zstate) : Prop := unreturned (z_j s) x <= z_held s (Native x).
Definition hd (j : jstate) (id : Z) : Z := has_deposit (q_deposits (j_q j) !! id).
Definition gap (s : zstate) (id : Z) : Z :=
  finished (j_s (z_j s)) id * hd (z_j s) id - cnt (RCompleted id) (z_j s).
Record zq (n0 : Z) (s : zstate) : Prop := {
  zq_solv : forall x, solv x s;
  zq_pol : s_policy (j_s (z_j s)) = Module (j_self (z_j s));
  zq_cfg : in_coins (q_deposit (j_q (z_j s)));
  zq_recs : forall id r, q_deposits (j_q (z_j s)) !! id = Some r -> in_coins r.1;
  zq_pend : forall i r, q_pending (j_q (z_j s)) !! i = Some r -> in_coins (a_deposit r);
  zq_ids : forall id, is_Some (q_deposits (j_q (z_j s)) !! id) <-> n0 < id <= s_count (j_s (z_j s));
  zq_low : n0 <= s_count (j_s (z_j s)) }.

(** A failed completion hook was about a deposit in something else. *)
Definition fine (x : N) (e : event zstate zmsg jsub) : Prop :=
  match e with
  | ESub pre _ (FromSingle (SCompleted a id _)) false _ =>
      a = j_self (z_j pre) ->
      exists d pr, q_deposits (j_q (z_j pre)) !! id = Some (Some d, pr) /\ d_denom d <> Native x
  | _ => True
  end.

Definition zR (n0 : Z) (s : zstate) (l : zlog) (s' : zstate) : Prop :=
  jle (z_j s) (z_j s') /\
  (forall w, w <> RWithdraw ->
     cnt w (z_j s') - cnt w (z_j s) <= due w (z_j s') - due w (z_j s)) /\
  (forall x, left_alone x l -> solv x s -> solv x s' /\ Forall (fine x) l) /\
  (kept l -> zq n0 s -> zq n0 s' /\ forall id, gap s' id = gap s id).
Definition zpend (n0 : Z) (b : block) (s0 : zstate) (l : zlog) (s : zstate) (subs : list jsub) : Prop :=
  jle (z_j s0) (z_j s) /\
  (forall x, x ∈ subs -> jpend b (z_j s) x) /\
  (forall w, w <> RWithdraw ->
     cnt w (z_j s0) <= due w (z_j s0) /\
     cnt w (z_j s) - cnt w (z_j s0) + lsum (sends w) subs <= due w (z_j s) - due w (z_j s0)) /\
  (forall x, left_alone x l -> solv x s0 ->
     solv x s /\ Forall (fine x) l /\
     forall to n, FromPre (XPay RWithdraw (Native x) to n) ∉ subs) /\
  (kept l -> zq n0 s0 ->
     zq n0 s /\
     (forall r id st, FromSingle (SCompleted r id st) ∈ subs -> r = j_self (z_j s)) /\
     (forall x, FromSingle x ∈ subs -> no_inst x) /\
     forall id, gap s id = gap s0 id + lsum (jcompleted id) subs * hd (z_j s) id).

Lemma left_alone_app x l l' : left_alone x (l ++ l') <-> left_alone x l /\ left_alone x l'.
Proof.
  split.
  - intros H. split; intros pre b a f v d post subs He; eapply (H pre b a f v d post subs);
      apply elem_of_app; [by left|by right].
  - intros [H1 H2] pre b a f v d post subs He. apply elem_of_app in He as [He|He];
      [exact (H1 _ _ _ _ _ _ _ _ He)|exact (H2 _ _ _ _ _ _ _ _ He)].
Qed.
Lemma kept_app l l' : kept (l ++ l') <-> kept l /\ kept l'.
Proof.
  split.
  - intros H. split; intros pre b a m post subs He; eapply (H pre b a m post subs);
      apply elem_of_app; [by left|by right].
  - intros [H1 H2] pre b a m post subs He. apply elem_of_app in He as [He|He];
      [exact (H1 _ _ _ _ _ _ He)|exact (H2 _ _ _ _ _ _ He)].
Qed.

Lemma zR_refl n0 s : zR n0 s [] s.
Proof.
  split; [apply jle_refl|]. split; [intros; lia|]. split; [done|]. intros _ HQ. done.
Qed.
Lemma zR_trans n0 s l s' l' s'' : zR n0 s l s' -> zR n0 s' l' s'' -> zR n0 s (l ++ l') s''.
Proof.
  intros (A1 & A2 & A3 & A4) (B1 & B2 & B3 & B4). split; [by eapply jle_trans|]. split; [|split].
  - intros w Hw. specialize (A2 w Hw). specialize (B2 w Hw). lia.
  - intros x [H1 H2]%left_alone_app Hs. destruct (A3 x H1 Hs) as [Hs1 Hf1].
    destruct (B3 x H2 Hs1) as [Hs2 Hf2]. split; [done|]. by apply Forall_app.
  - intros [H1 H2]%kept_app HQ. destruct (A4 H1 HQ) as [HQ1 G1]. destruct (B4 H2 HQ1) as [HQ2 G2].
    split; [done|]. intros id. by rewrite G2, G1.
Qed.
Lemma zpend_end n0 b s0 l s : zinv b s -> zpend n0 b s0 l s [] -> zR n0 s0 l s.
Proof.
  intros _ (A1 & _ & A3 & A4 & A5). split; [done|]. split; [|split].
  - intros w Hw. destruct (A3 w Hw) as [_ H]. cbn [lsum] in H. lia.
  - intros x Hl Hs. by destruct (A4 x Hl Hs) as (? & ? & _).
  - intros Hk HQ. destruct (A5 Hk HQ) as (H1 & _ & _ & H2). split; [done|].
    intros id. rewrite H2. cbn [lsum]. lia.
Qed.

Lemma hd_same n0 b s s' id :
  zinv b s -> jle (z_j s) (z_j s') -> zq n0 s -> zq n0 s' -> id <= s_count (j_s (z_j s)) ->
  hd (z_j s') id = hd (z_j s) id.
Proof.
  intros HI HL HQ HQ' Hid. unfold hd.
  destruct (q_deposits (j_q (z_j s)) !! id) as [r|] eqn:E.
  - by rewrite (ql_deposits _ _ (jl_q _ _ HL) _ _ E).
  - destruct (q_deposits (j_q (z_j s')) !! id) as [r|] eqn:E'; [|done].
    pose proof (proj1 (zq_ids _ _ HQ' id) (mk_is_Some _ _ E')) as [Hn _].
    destruct (proj2 (zq_ids _ _ HQ id) ltac:(lia)) as [r' Hr']. congruence.
Qed.
Lemma pend_old b j subs id :
  jinv b j -> (forall x, x ∈ subs -> jpend b j x) -> lsum (jcompleted id) subs <> 0 ->
  id <= s_count (j_s j).
Proof.
  intros HI. induction subs as [|x subs IH]; intros HP Hl; [done|].
  destruct (Z.eq_dec (jcompleted id x) 0) as [E|E].
  - apply IH; [|cbn [lsum] in Hl; lia]. intros y Hy. apply HP. by right.
  - clear IH Hl. specialize (HP x ltac:(left)). destruct x as [x|]; [|done].
    destruct HP as [_ HP]. destruct x; try done. cbn [jcompleted sub_completed] in E.
    destruct (id0 =? id) eqn:Ei; [|done]. apply Z.eqb_eq in Ei as ->.
    destruct (HP _ _ _ eq_refl) as (p & Hp & _).
    apply (wi_ids _ _ (ji_w _ _ HI)). eauto.
Qed.

(** Whole calls in between. *)
Lemma zpend_frame n0 b s0 l s subs l1 s1 :
  zinv b s -> zinv b s1 -> zpend n0 b s0 l s subs -> zR n0 s l1 s1 ->
  zpend n0 b s0 (l ++ l1) s1 subs.
Proof.
  intros HI HI1 (A1 & A2 & A3 & A4 & A5) (B1 & B2 & B3 & B4). split; [by eapply jle_trans|].
  split; [|split; [|split]].
  - intros x Hx. eapply jpend_mono; [apply HI1|exact B1|by apply A2].
  - intros w Hw. destruct (A3 w Hw) as [H1 H2]. specialize (B2 w Hw). split; [done|]. lia.
  - intros x [H1 H2]%left_alone_app Hs. destruct (A4 x H1 Hs) as (Hs1 & Hf1 & Hn).
    destruct (B3 x H2 Hs1) as [Hs2 Hf2]. split; [done|]. split; [by apply Forall_app|done].
  - intros [H1 H2]%kept_app HQ. destruct (A5 H1 HQ) as (HQ1 & Hr & Hi & G1).
    destruct (B4 H2 HQ1) as [HQ2 G2]. split; [done|]. split; [|split; [done|]].
    + intros r id st Hx. rewrite (jl_self _ _ B1). by eapply Hr.
    + intros id. rewrite G2, G1.
      destruct (Z.eq_dec (lsum (jcompleted id) subs) 0) as [E|E]; [rewrite E; lia|].
      rewrite (hd_same n0 b s s1 id HI B1 HQ1 HQ2); [done|].
      by eapply pend_old; [apply HI|exact A2|].
Qed.

(** Nothing was paid for what is about to be delivered. *)
Lemma zpend_fresh n0 b s0 l s x subs w :
  zpend n0 b s0 l s (x :: subs) -> w <> RWithdraw -> 1 <= sends w x ->
  was_paid (j_paid (z_j s)) w = false.
Proof.
  intros (_ & _ & A3 & _) Hw Hx. destruct (A3 w Hw) as [H1 H2]. cbn [lsum] in H2.
  assert (0 <= lsum (sends w) subs) by (apply lsum_nonneg; intros; apply sends_nonneg).
  pose proof (due_le w (z_j s)).
  destruct (was_paid (j_paid (z_j s)) w) eqn:E; [|done].
  apply was_paid_count in E. unfold cnt in *. lia.
Qed.

(** ** Deliveries *)
Lemma new_paid_app j j' l : j_paid j' = j_paid j ++ l -> new_paid j j' = l.
Proof. intros E. unfold new_paid. rewrite E. by rewrite drop_app. Qed.

Lemma zon_ok_shape b s x d s' :
  jinv b (z_j s) -> jpend b (z_j s) x -> zon_ok s b x d = Ok s' ->
  jon_ok (z_j s) b x d = Ok (z_j s') /\
  ((j_paid (z_j s') = j_paid (z_j s) /\
    (forall y, z_held s' (Native y) = z_held s (Native y)) /\
    (forall i, jreject i x = 0) /\
    forall r id st, x = FromSingle (SCompleted r id st) -> r = j_self (z_j s) -> hd (z_j s) id = 0) \/
   exists p, j_paid (z_j s') = j_paid (z_j s) ++ [p] /\
     (forall y, z_held s' (Native y) = pay1 (z_held s) p y) /\
     ((exists id st d pr to, x = FromSingle (SCompleted (j_self (z_j s)) id st) /\
         q_deposits (j_q (z_j s)) !! id = Some (Some d, pr) /\
         p = Paid (RCompleted id) (d_denom d) to (d_amount d)) \/
      (exists i r d to, sends (RRejected i) x = 1 /\ (forall id, jcompleted id x = 0) /\
         q_completed (j_q (z_j s)) !! i = Some r /\ a_status r = ARejected /\ a_deposit r = Some d /\
         p = Paid (RRejected i) (d_denom d) to (d_amount d)) \/
      (exists dn to n, x = FromPre (XPay RWithdraw dn to n) /\ p = Paid RWithdraw dn to n))).
Proof.
  intros HI HP H. unfold zon_ok in H.
  destruct (jon_ok (z_j s) b x d) as [j'|] eqn:Ej; [|discriminate].
  destruct (spend_all _ _) as [h|] eqn:Eh; [|discriminate]. injection H as <-. cbn [z_j z_held].
  split; [done|]. destruct x as [x|x].
  - cbn [jon_ok] in Ej. destruct (on_ok (j_s (z_j s)) b x d) as [s1|] eqn:Eo; [|discriminate].
    assert (j_paid j' = j_paid (z_j s) ->
      (forall r id st, x = SCompleted r id st -> r = j_self (z_j s) -> hd (z_j s) id = 0) ->
      j_paid j' = j_paid (z_j s) /\
      (forall y, h (Native y) = z_held s (Native y)) /\
      (forall i, jreject i (FromSingle x) = 0) /\
      forall r id st, FromSingle x = FromSingle (SCompleted r id st) -> r = j_self (z_j s) ->
        hd (z_j s) id = 0) as Hno.
    { intros E Hh. split; [done|]. rewrite (new_paid_app _ _ []) in Eh by (by rewrite app_nil_r).
      injection Eh as <-. split; [done|]. split; [done|]. intros r id st [= ->]. by eapply Hh. }
    destruct x as [| | |r id st|]; try (left; apply Hno; [by injection Ej as <-|done]).
    destruct (r =? j_self (z_j s))%N eqn:Er.
    2:{ left. apply Hno; [by injection Ej as <-|]. intros r' id' st' [= -> -> ->] ->.
        by rewrite N.eqb_refl in Er. }
    apply N.eqb_eq in Er as ->. cbn [pre_handle] in Ej.
    destruct (pre_completed _ _ _ _) as [[q' xs]|] eqn:Ep; [|discriminate]. injection Ej as <-.
    destruct (pays_completed (j_q (z_j s)) _ id st q' xs (ji_q _ _ HI) Ep) as (-> & Hpd).
    cbn [j_paid] in *. destruct Hpd as [Hpd|(dd & pr & Hd & Hst & Hpd)].
    + left. apply Hno; [by rewrite Hpd, app_nil_r|]. intros r' id' st' [= <- <-] _.
      unfold pre_completed in Ep. destruct (_ =? _)%N; [|discriminate].
      destruct (bool_decide _); [|discriminate]. unfold hd.
      destruct (q_deposits (j_q (z_j s)) !! id) as [[[dd|] pr]|] eqn:Ed; [|done..].
      injection Ep as <-. unfold return_messages in Hpd.
      pose proof (qi_deposits _ (ji_q _ _ HI) _ _ _ Ed) as Hn. simpl in Hn.
      destruct (d_amount dd =? 0) eqn:E0; [lia|]. discriminate.
    + right. eexists. split; [by rewrite Hpd|]. split.
      * intros y. rewrite (new_paid_app _ _ (pays xs)) in Eh by done. rewrite Hpd in Eh.
        apply spend_all_one in Eh as ->. apply receive_pay1.
      * left. eexists id, st, dd, pr, _. done.
  - destruct HP as [HP _].
    destruct x as [pm|r m|k t o n|w dn to n]; cbn [jon_ok] in Ej; injection Ej as <-; cbn [j_paid] in *.
    + left. split; [done|]. rewrite (new_paid_app _ _ []) in Eh by (by rewrite app_nil_r).
      injection Eh as <-. done.
    + left. split; [done|]. rewrite (new_paid_app _ _ []) in Eh by (by rewrite app_nil_r).
      injection Eh as <-. done.
    + left. split; [done|]. rewrite (new_paid_app _ _ []) in Eh by (by rewrite app_nil_r).
      injection Eh as <-. split; [|done]. intros y. unfold receive. by rewrite decide_False.
    + right. eexists. split; [done|]. split.
      * intros y. rewrite (new_paid_app _ _ [Paid w dn to n]) in Eh by done.
        apply spend_all_one in Eh as ->. apply receive_pay1.
      * destruct w as [id|i|]; [done| |].
        -- right. left. destruct HP as (r & dd & H1 & H2 & H3 & -> & -> & H6).
           exists i, r, dd, to. split; [cbn; by rewrite decide_True|]. done.
        -- right. right. eauto.
Qed.

Lemma zok_step (O : oracle) n0 b s0 l s x subs d s' :
  zinv b s -> zpend n0 b s0 l s (x :: subs) -> zon_ok s b x d = Ok s' ->
  zinv b s' /\ zpend n0 b s0 (l ++ [ESub s b x true s']) s' subs.
Proof.
  intros HI HP H.
  assert (jpend b (z_j s) x) as HPx by (apply HP; left).
  destruct (zon_ok_shape b s x d s' (zi_j _ _ HI) HPx H) as (Hj & Hsh).
  destruct (jok_step O b (z_j s) x d (z_j s') (zi_j _ _ HI) HPx Hj)
    as (HJ & HL & Eq & _ & Hrj & Hcc & Hfin).
  assert (forall w, due w (z_j s') = due w (z_j s)) as Hdue.
  { intros []; cbn [due]; [apply Hfin|by rewrite Eq|done]. }
  assert (forall w, w <> RWithdraw -> cnt w (z_j s') - cnt w (z_j s) <= sends w x) as Hcnt.
  { intros [id|i|] Hw; cbn [sends]; unfold cnt; [apply Hcc|rewrite Hrj; lia|done]. }
  pose proof HP as (A1 & A2 & A3 & A4 & A5).
  assert (forall w, w <> RWithdraw ->
     cnt w (z_j s0) <= due w (z_j s0) /\
     cnt w (z_j s') - cnt w (z_j s0) + lsum (sends w) subs <= due w (z_j s') - due w (z_j s0)) as A3'.
  { intros w Hw. destruct (A3 w Hw) as [H1 H2]. split; [done|]. specialize (Hcnt w Hw).
    cbn [lsum] in H2. rewrite Hdue. lia. }
  (* solvency *)
  assert (forall y, (forall to n, x <> FromPre (XPay RWithdraw (Native y) to n)) ->
    solv y s -> solv y s') as Hsolv.
  { intros y Hny Hs. unfold solv in *. rewrite unreturned_owed in *. rewrite Eq.
    destruct Hsh as [(E1 & E2 & _)|(p & E1 & E2 & Hp)]; rewrite E1, E2; [done|].
    destruct Hp as [(id & st & dd & pr & to & -> & Hd & ->)
      |[(i & r & dd & to & Hx & _ & Hr & Hs1 & Hd & ->)|(dn & to & n & -> & ->)]].
    - rewrite (owed_completed _ _ y id dd pr); [|done|].
      + unfold pay1. cbn [pd_denom pd_amount]. unfold coins_of. destruct (decide _); lia.
      + eapply zpend_fresh; [exact HP|done|]. cbn. rewrite Z.eqb_refl. lia.
    - rewrite (owed_rejected _ _ y i r dd); [|done..|].
      + unfold pay1. cbn [pd_denom pd_amount]. unfold coins_of. destruct (decide _); lia.
      + eapply zpend_fresh; [exact HP|done|]. lia.
    - rewrite owed_withdraw. unfold pay1. cbn [pd_denom]. rewrite decide_False; [done|].
      intros ->. by eapply Hny. }
  split; [constructor|].
  - done.
  - rewrite Eq. apply HI.
  - intros w Hw. destruct (A3' w Hw) as [H1 H2].
    assert (0 <= lsum (sends w) subs) by (apply lsum_nonneg; intros; apply sends_nonneg). lia.
  - split; [by eapply jle_trans|]. split; [|split; [done|split]].
    + intros y Hy. eapply jpend_mono; [apply HJ|exact HL|]. apply A2. by right.
    + intros y [H1 _]%left_alone_app Hs. destruct (A4 y H1 Hs) as (Hs1 & Hf & Hn).
      split; [|split].
      * apply Hsolv; [|done]. intros to n ->. apply (Hn to n). left.
      * apply Forall_app. split; [done|]. apply Forall_singleton.
        cbn [fine]. destruct x as [[]|]; done.
      * intros to n Hx. apply (Hn to n). by right.
    + intros [H1 _]%kept_app HQ. destruct (A5 H1 HQ) as (HQ1 & Hr & Hi & G).
      assert (j_s (z_j s') = j_s (z_j s)) as Es.
      { destruct x as [x|x].
        - cbn [jon_ok] in Hj. destruct (on_ok (j_s (z_j s)) b x d) as [s1|] eqn:Eo; [|discriminate].
          apply ok_policy in Eo; [|apply Hi; left]. subst s1.
          destruct x as [| | |r id st|]; try (by injection Hj as <-).
          destruct (r =? _)%N; [|by injection Hj as <-].
          destruct (pre_handle _ _ _ _) as [[q' xs]|]; [|discriminate]. by injection Hj as <-.
        - destruct x; cbn [jon_ok] in Hj; by injection Hj as <-. }
      pose proof (jl_self _ _ HL) as Eself.
      split; [|split; [|split]].
      * destruct HQ1 as [Q1 Q2 Q3 Q4 Q5 Q6 Q7].
        constructor; rewrite ?Eq, ?Es, ?Eself; try done.
        intros y. apply Hsolv; [|done]. intros to n ->.
        assert (left_alone y l) as Hla.
        { intros pre b' a f v dn post ss He. destruct (H1 _ _ _ _ _ _ He). }
        destruct (A4 y Hla (zq_solv _ _ HQ y)) as (_ & _ & Hn). apply (Hn to n). left.
      * intros r id st Hx. rewrite Eself. apply (Hr r id st). by right.
      * intros y Hy. apply Hi. by right.
      * intros id. specialize (G id). cbn [lsum] in G. unfold gap in *.
        assert (hd (z_j s') id = hd (z_j s) id) as Ehd by (unfold hd; by rewrite Eq).
        rewrite Es, Ehd.
        assert (cnt (RCompleted id) (z_j s') - cnt (RCompleted id) (z_j s) =
                jcompleted id x * hd (z_j s) id) as Hx; [|lia].
        unfold cnt. destruct Hsh as [(E1 & _ & _ & E3)|(p & E1 & _ & Hp)]; rewrite E1.
        -- destruct x as [x|]; [|cbn; lia]. destruct x as [| | |r i st|]; cbn [jcompleted sub_completed]; try lia.
           destruct (i =? id) eqn:Ei; [|lia]. apply Z.eqb_eq in Ei as ->.
           rewrite (E3 r id st eq_refl); [lia|]. apply (Hr r id st). left.
        -- rewrite count_why_app. unfold count_why at 2. cbn [lsum].
           destruct Hp as [(i & st & dd & pr & to & -> & Hd & ->)
             |[(i & r & dd & to & _ & Hx & _ & _ & _ & ->)|(dn & to & n & -> & ->)]]; cbn [pd_why].
           ++ cbn [jcompleted sub_completed]. destruct (i =? id) eqn:Ei.
              ** apply Z.eqb_eq in Ei as ->. rewrite decide_True by done. unfold hd. rewrite Hd.
                 cbn [has_deposit]. lia.
              ** apply Z.eqb_neq in Ei. rewrite decide_False by congruence. lia.
           ++ rewrite Hx, decide_False by done. lia.
           ++ rewrite decide_False by done. cbn. lia.
Qed.

(** ** Failures *)
Lemma surely b s id st :
  zinv b s -> completed_at (j_s (z_j s)) id st ->
  (forall d pr, q_deposits (j_q (z_j s)) !! id = Some (Some d, pr) ->
     exists y, d_denom d = Native y /\ d_amount d <= z_held s (Native y)) ->
  sure s b (FromSingle (SCompleted (j_self (z_j s)) id st)) = true.
Proof.
  intros HI Hc Hh. unfold sure, zon_ok. cbn [jon_ok on_ok pre_handle]. rewrite N.eqb_refl.
  unfold pre_completed. rewrite N.eqb_refl.
  rewrite (bool_decide_eq_true_2 (st = Closed \/ st = Executed \/ st = Vetoed)).
  2:{ destruct Hc as (p & _ & Hc). unfold completes in Hc. naive_solver. }
  destruct (q_deposits (j_q (z_j s)) !! id) as [[[d|] pr]|] eqn:E.
  - destruct (Hh d pr eq_refl) as (y & Ey & Hy).
    unfold return_messages. pose proof (qi_deposits _ (ji_q _ _ (zi_j _ _ HI)) _ _ _ E) as Hn. simpl in Hn.
    destruct (d_amount d =? 0) eqn:E0; [lia|].
    erewrite (new_paid_app (z_j s)) by (cbn [j_paid pays flat_map]; reflexivity).
    cbn [app spend_all]. unfold spend. cbn [pd_denom pd_amount]. rewrite Ey.
    rewrite (proj2 (Z.leb_le _ _) Hy). cbn [z_j].
    erewrite (new_paid_app (z_j s)) by (cbn [j_paid pays flat_map]; reflexivity).
    done.
  - cbn [pays flat_map]. rewrite (new_paid_app (z_j s) _ []) by done. cbn [spend_all z_j].
    rewrite (new_paid_app (z_j s) _ []) by done. done.
  - cbn [pays flat_map]. rewrite (new_paid_app (z_j s) _ []) by done. cbn [spend_all z_j].
    rewrite (new_paid_app (z_j s) _ []) by done. done.
Qed.

Lemma zfail_step n0 b s0 l s x subs s' :
  zinv b s -> zpend n0 b s0 l s (x :: subs) -> zon_fail s b x = Ok s' ->
  zinv b s' /\ zpend n0 b s0 (l ++ [ESub s b x false s']) s' subs.
Proof.
  intros HI HP H.
  assert (jpend b (z_j s) x) as HPx by (apply HP; left).
  unfold zon_fail in H.
  match type of H with (if negb ?c then _ else _) = _ => destruct c eqn:Ec; [discriminate|] end.
  cbn [negb] in H. destruct (jon_fail (z_j s) b x) as [j'|] eqn:Ej; [|discriminate].
  injection H as <-.
  destruct (jfail_step b (z_j s) x j' (zi_j _ _ HI) HPx Ej)
    as (HJ & HL & [y ->] & Eq & _ & Ep & Hfin).
  pose proof HP as (A1 & A2 & A3 & A4 & A5).
  assert (forall w, due w j' = due w (z_j s) /\ cnt w j' = cnt w (z_j s)) as Hdue.
  { intros w. split; [|unfold cnt; by rewrite Ep].
    destruct w; cbn [due]; [apply Hfin|by rewrite Eq|done]. }
  assert (forall y, solv y s -> solv y (ZState j' (z_held s))) as Hsolv.
  { intros v. unfold solv. cbn [z_j z_held]. rewrite !unreturned_owed. by rewrite Eq, Ep. }
  (* which completions fail *)
  assert (forall v r id st, y = SCompleted r id st -> r = j_self (z_j s) -> solv v s ->
    exists d pr, q_deposits (j_q (z_j s)) !! id = Some (Some d, pr) /\ d_denom d <> Native v) as Hfine.
  { intros v r id st -> -> Hs. rewrite N.eqb_refl in Ec. cbn [andb] in Ec.
    destruct (q_deposits (j_q (z_j s)) !! id) as [[[d|] pr]|] eqn:Ed.
    - destruct (decide (d_denom d = Native v)) as [Edn|Edn]; [|eauto]. exfalso.
      rewrite (surely b s id st HI) in Ec; [done| |].
      + destruct HPx as [_ HPx]. by eapply HPx.
      + intros d' pr' E'. rewrite Ed in E'. injection E' as <- <-. exists v. split; [done|].
        unfold solv in Hs. rewrite unreturned_owed in Hs.
        assert (was_paid (j_paid (z_j s)) (RCompleted id) = false) as Hf.
        { eapply zpend_fresh; [exact HP|done|]. cbn. rewrite Z.eqb_refl. lia. }
        pose proof (owed_ge_completed _ _ v id d pr (zi_pos _ _ HI) Ed Hf) as Hge.
        unfold coins_of in Hge. rewrite decide_True in Hge by done. lia.
    - exfalso. rewrite (surely b s id st HI) in Ec; [done| |].
      + destruct HPx as [_ HPx]. by eapply HPx.
      + intros d' pr' E'. congruence.
    - exfalso. rewrite (surely b s id st HI) in Ec; [done| |].
      + destruct HPx as [_ HPx]. by eapply HPx.
      + intros d' pr' E'. congruence. }
  split; [constructor; cbn [z_j]|].
  - done.
  - rewrite Eq. apply HI.
  - intros w Hw. destruct (Hdue w) as [-> ->]. by apply HI.
  - split; [by eapply jle_trans|]. cbn [z_j]. split; [|split; [|split]].
    + intros v Hv. eapply jpend_mono; [apply HJ|exact HL|]. apply A2. by right.
    + intros w Hw. destruct (A3 w Hw) as [H1 H2]. split; [done|]. destruct (Hdue w) as [-> ->].
      cbn [lsum] in H2. pose proof (sends_nonneg w (FromSingle y)). lia.
    + intros v [H1 _]%left_alone_app Hs. destruct (A4 v H1 Hs) as (Hs1 & Hf & Hn).
      split; [by apply Hsolv|]. split.
      * apply Forall_app. split; [done|]. apply Forall_singleton. cbn [fine].
        destruct y; try done. intros ->. by eapply Hfine.
      * intros to n Hx. apply (Hn to n). by right.
    + intros [H1 _]%kept_app HQ. destruct (A5 H1 HQ) as (HQ1 & Hr & Hi & G).
      assert (forall r id st, y <> SCompleted r id st) as Hnc.
      { intros r id st ->. assert (r = j_self (z_j s)) as -> by (apply (Hr r id st); left).
        destruct (q_deposits (j_q (z_j s)) !! id) as [[o pr]|] eqn:Ed.
        - pose proof (zq_recs _ _ HQ1 _ _ Ed) as Hco. cbn [fst in_coins] in Hco.
          destruct o as [d|].
          + destruct Hco as [v Hv].
            destruct (Hfine v _ id st eq_refl eq_refl (zq_solv _ _ HQ1 v)) as (d' & pr' & E' & Hne).
            congruence.
          + destruct (Hfine 0%N _ id st eq_refl eq_refl (zq_solv _ _ HQ1 0%N)) as (d' & pr' & E' & Hne).
            congruence.
        - destruct (Hfine 0%N _ id st eq_refl eq_refl (zq_solv _ _ HQ1 0%N)) as (d' & pr' & E' & Hne).
          congruence. }
      assert (s_policy (j_s j') = s_policy (j_s (z_j s)) /\ s_count (j_s j') = s_count (j_s (z_j s)))
        as [Epol Ecount].
      { cbn [jon_fail] in Ej. destruct (on_fail (j_s (z_j s)) b y) as [s1|] eqn:Eo; [|discriminate].
        injection Ej as <-. cbn [j_s]. split; [by eapply fail_policy|].
        destruct (on_fail_shape _ _ _ _ Eo) as [(d & i & ms & p & -> & Hp & ->)|(_ & _ & _ & E3 & _)]; done. }
      pose proof (jl_self _ _ HL) as Eself.
      split; [|split; [|split]].
      * destruct HQ1 as [Q1 Q2 Q3 Q4 Q5 Q6 Q7].
        constructor; cbn [z_j]; rewrite ?Eq, ?Epol, ?Ecount, ?Eself; try done.
        intros v. by apply Hsolv.
      * intros r id st Hx. rewrite Eself. apply (Hr r id st). by right.
      * intros v Hv. apply Hi. by right.
      * intros id. specialize (G id). cbn [lsum] in G.
        assert (jcompleted id (FromSingle y) = 0) as E0.
        { destruct y; try done. by destruct (Hnc receiver id0 st). }
        unfold gap in *. cbn [z_j]. unfold hd in *. rewrite Eq, Hfin.
        destruct (Hdue (RCompleted id)) as [_ ->]. lia.
Qed.
