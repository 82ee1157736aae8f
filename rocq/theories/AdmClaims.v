(** The claims about the admin factory, proved. *)
From Verif Require Import Base BaseProofs Exec ExecProofs AdmModel AdmSpec.

Notation arun_call := (run_call a_handle a_fail a_reply).
Notation arun_calls := (run_calls a_handle a_fail a_reply).
Notation arun_subs := (run_subs a_handle a_fail a_reply).

(** ** Steps *)
Lemma a_reply_ok s b two code w d s' :
  a_reply s b (AMake two code w) d = Ok s' ->
  a_chain s !! d = None /\ a_self s' = a_self s /\ a_admin s' = a_admin s /\
  a_chain s' = <[d := d]> (a_chain s) /\
  (if two then a_expect s' = None /\ (forall e, a_expect s = Some e -> d = e)
   else a_expect s' = a_expect s).
Proof.
  unfold a_reply. intros H. destruct (bool_decide _) eqn:E; [|done]. apply bool_decide_eq_true in E.
  destruct two.
  - destruct (a_expect s) as [e|] eqn:Ee.
    + destruct (d =? e)%N eqn:Ed; [|done]. apply N.eqb_eq in Ed. injection H as <-. cbn.
      rewrite insert_insert. repeat split; try done. congruence.
    + injection H as <-. cbn. rewrite insert_insert. done.
  - injection H as <-. cbn. rewrite insert_insert. done.
Qed.
Lemma a_handle_ok s b a m s' subs :
  a_handle s b a m = Ok (s', subs) ->
  (forall x, a_admin s = Some x -> x = a) /\
  a_self s' = a_self s /\ a_admin s' = a_admin s /\ a_chain s' = a_chain s /\
  match m with
  | AInst code => subs = [AMake false code None] /\ a_expect s' = a_expect s
  | AInst2 code expect =>
      subs = [AMake true code expect] /\
      a_expect s' = match expect with Some e => Some e | None => a_expect s end
  end.
Proof.
  intros H. destruct m as [code|code expect]; cbn [a_handle] in H;
    (destruct (a_allowed s a) eqn:E; [|done]); injection H as <- <-; unfold a_allowed in E;
    (split; [intros x Hx; rewrite Hx in E; by apply N.eqb_eq in E|]); [done|].
  by destruct expect.
Qed.
Definition ainv (self : addr) (admin : option addr) (s : astate) : Prop :=
  a_self s = self /\ a_admin s = admin /\ forall c x, a_chain s !! c = Some x -> x = c.
Lemma atrace self admin h s l :
  areached self admin h s l ->
  ainv self admin s /\
  Forall (legit a_handle a_fail a_reply any_msg (fun _ => ainv self admin) (fun _ _ _ => True)) l.
Proof.
  intros H. unfold areached in H.
  pose (R := fun (s : astate) (l : alog) (s' : astate) =>
    Forall (legit a_handle a_fail a_reply any_msg (fun _ => ainv self admin) (fun _ _ _ => True)) l).
  assert (forall s0, ainv self admin s0 -> run_hist a_handle a_fail a_reply s0 h = (s, l) ->
    ainv self admin s /\ R s0 l s) as G.
  2: { apply G in H; [done|]. split; [done|]. split; [done|]. intros c x. cbn.
       by rewrite lookup_empty. }
  clear H. revert s l.
  assert (forall b s0 c s l, ainv self admin s0 -> arun_call b s0 c = Ok (s, l) ->
    ainv self admin s /\ R s0 l s) as C.
  { intros b s0 c s l I0 Hr.
    eapply (run_call_rule a_handle a_fail a_reply any_msg (fun _ => ainv self admin) R
              (fun _ _ _ => True)); [..|exact I0|apply call_all_any|exact Hr]; unfold R.
    - by constructor.
    - intros. by apply Forall_app.
    - intros b1 s1 a m s2 subs (I1 & I2 & I3) _ Hh.
      destruct (a_handle_ok _ _ _ _ _ _ Hh) as (_ & A & B & D & _).
      assert (ainv self admin s2) as I by (unfold ainv; rewrite A, B, D; done).
      split; [done|]. split; [|done]. constructor; [|done]. done.
    - done.
    - intros b1 s1 [two code w] subs l1 s2 d s3 _ _ (I1 & I2 & I3) _ Hh.
      destruct (a_reply_ok _ _ _ _ _ _ _ Hh) as (N & A & B & D & _).
      assert (ainv self admin s3) as I.
      { unfold ainv. rewrite A, B, D. split; [done|]. split; [done|]. intros c' x.
        destruct (decide (c' = d)) as [->|]; [rewrite lookup_insert; congruence|].
        rewrite lookup_insert_ne by done. apply I3. }
      split; [done|]. split; [|done]. constructor; [|done]. split; [done|]. split; [done|]. split; [done|]. by exists d. }
  induction h as [|[b c] h IH]; intros s l s0 I0 Hr; cbn in Hr.
  - injection Hr as <- <-. split; [done|by constructor].
  - destruct (arun_call b s0 c) as [[s1 l1]|] eqn:E; [|by apply IH].
    destruct (run_hist a_handle a_fail a_reply s1 h) as [s2 l2] eqn:E2. injection Hr as <- <-.
    destruct (C _ _ _ _ _ I0 E) as [I1 R1]. destruct (IH _ _ _ I1 E2) as [I2 R2].
    split; [done|]. by apply Forall_app.
Qed.

(** ** Unconditional claims *)
Lemma own_admin self admin h s l c x :
  areached self admin h s l -> a_chain s !! c = Some x -> x = c.
Proof.
  intros H. destruct (atrace _ _ _ _ _ H) as [(_ & _ & I) _]. apply I.
Qed.
Lemma made self admin h s l pre b two code w ok post :
  areached self admin h s l -> ESub pre b (AMake two code w) ok post ∈ l ->
  ok = true /\
  exists d, a_chain pre !! d = None /\ a_chain post = <[d := d]> (a_chain pre) /\
    (two = true -> forall e, a_expect pre = Some e -> d = e).
Proof.
  intros H Hin. destruct (atrace _ _ _ _ _ H) as [_ F]. rewrite Forall_forall in F.
  specialize (F _ Hin). destruct F as (_ & _ & F). destruct ok; [|by destruct F].
  destruct F as [_ [d Hd]]. split; [done|]. exists d.
  destruct (a_reply_ok _ _ _ _ _ _ _ Hd) as (N & _ & _ & D & E). split; [done|]. split; [done|].
  intros ->. apply E.
Qed.
Lemma only_admin self admin h s l pre b a m post subs :
  areached self admin h s l -> ECall pre b a m post subs ∈ l ->
  (forall x, admin = Some x -> a = x) /\
  match m with
  | AInst code => subs = [AMake false code None]
  | AInst2 code expect => subs = [AMake true code expect]
  end.
Proof.
  intros H Hin. destruct (atrace _ _ _ _ _ H) as [_ F]. rewrite Forall_forall in F.
  specialize (F _ Hin). destruct F as ((_ & Hadm & _) & _ & _ & F). cbn in Hadm.
  destruct (a_handle_ok _ _ _ _ _ _ F) as (A & _ & _ & _ & E). rewrite Hadm in A. split.
  - intros x Hx. symmetry. by apply A.
  - destruct m; by destruct E.
Qed.

(** ** The address expected *)
Lemma one_sub b s x outs s' l :
  arun_subs b s [x] outs = Ok (s', l) ->
  exists d cs s1 l1, (cs = [] \/ exists rest, outs = Some (d, cs) :: rest) /\
    arun_calls b s cs = (s1, l1) /\ a_reply s1 b x d = Ok s' /\ l = l1 ++ [ESub s1 b x true s'].
Proof.
  intros H. destruct outs as [|[[d cs]|] outs]; cbn -[a_reply run_calls] in H.
  - destruct (a_reply s b x 0%N) as [s1|] eqn:E; [|done]. injection H as <- <-.
    exists 0%N, [], s, []. split; [by left|]. done.
  - destruct (arun_calls b s cs) as [s1 l1] eqn:E.
    destruct (a_reply s1 b x d) as [s2|] eqn:E2; [|done].
    destruct outs; cbn in H; injection H as <- <-; exists d, cs, s1, l1; (split; [eauto|]); done.
  - done.
Qed.
Lemma expect_kept n : forall c, (call_size c <= n)%nat -> forall b s s' l,
  arun_call b s c = Ok (s', l) -> a_expect s' = None \/ a_expect s' = a_expect s.
Proof.
  induction n as [|n IH]; intros c Hsz; [destruct c; cbn in Hsz; lia|].
  assert (forall cs, (calls_size cs <= n)%nat -> forall b s s' l, arun_calls b s cs = (s', l) ->
    a_expect s' = None \/ a_expect s' = a_expect s) as Hcs.
  { induction cs as [|c' cs IHcs]; intros Hs b s s' l Hr; cbn -[run_call] in Hr.
    - injection Hr as <- <-. by right.
    - cbn in Hs. destruct (arun_call b s c') as [[s1 l1]|] eqn:E.
      + destruct (arun_calls b s1 cs) as [s2 l2] eqn:E2. injection Hr as <- <-.
        destruct (IH c' ltac:(lia) _ _ _ _ E) as [E3|E3], (IHcs ltac:(lia) _ _ _ _ E2) as [E4|E4];
          rewrite E4, ?E3; eauto.
      + by apply (IHcs ltac:(lia) _ _ _ _ Hr). }
  destruct c as [a m outs]. rewrite call_size_unfold in Hsz. intros b s s' l Hr.
  rewrite run_call_unfold in Hr. destruct (a_handle s b a m) as [[s1 subs]|] eqn:E; [|done].
  destruct (arun_subs b s1 subs outs) as [[s2 l2]|] eqn:E2; [|done]. injection Hr as <- <-.
  destruct (a_handle_ok _ _ _ _ _ _ E) as (_ & _ & _ & _ & F). destruct m as [code|code expect].
  - destruct F as [-> F]. destruct (one_sub _ _ _ _ _ _ E2) as (d & cs & s3 & l3 & Hcs' & Hr & Hd & _).
    assert (calls_size cs <= n)%nat as Hle.
    { destruct Hcs' as [->|[rest ->]]; [cbn; lia|]. change (S (calls_size cs + outs_size rest) <= S n)%nat in Hsz. lia. }
    destruct (a_reply_ok _ _ _ _ _ _ _ Hd) as (_ & _ & _ & _ & G).
    destruct (Hcs _ Hle _ _ _ _ Hr) as [K|K]; rewrite G, K; eauto.
  - destruct F as [-> F]. destruct (one_sub _ _ _ _ _ _ E2) as (d & cs & s3 & l3 & Hcs' & Hr & Hd & _).
    destruct (a_reply_ok _ _ _ _ _ _ _ Hd) as (_ & _ & _ & _ & [G _]). by left.
Qed.
Lemma clean self admin h s l : areached self admin h s l -> a_expect s = None.
Proof.
  unfold areached. assert (a_expect (a_instantiate self admin) = None) as H0 by done. revert H0.
  generalize (a_instantiate self admin). revert s l.
  induction h as [|[b c] h IH]; intros s l s0 H0 Hr; cbn in Hr.
  - by injection Hr as <- <-.
  - destruct (arun_call b s0 c) as [[s1 l1]|] eqn:E; [|by eapply IH].
    destruct (run_hist a_handle a_fail a_reply s1 h) as [s2 l2] eqn:E2. injection Hr as <- <-.
    eapply IH; [|exact E2]. destruct (expect_kept _ c (le_n _) _ _ _ _ E) as [->| ->]; done.
Qed.

Definition as_wanted (e : event astate amsg asub) : Prop :=
  match e with
  | ESub pre _ (AMake _ _ (Some w)) _ post => a_chain post = <[w := w]> (a_chain pre)
  | _ => True
  end.
Definition outers (inside : bool) : list (call amsg) -> Prop :=
  fix go' (cs : list (call amsg)) : Prop :=
    match cs with [] => True | c :: cs' => outer inside c /\ go' cs' end.
Lemma inside_keeps n : forall c, (call_size c <= n)%nat -> outer true c -> forall b s s' l,
  arun_call b s c = Ok (s', l) -> a_expect s' = a_expect s /\ Forall as_wanted l.
Proof.
  induction n as [|n IH]; intros c Hsz; [destruct c; cbn in Hsz; lia|].
  assert (forall cs, (calls_size cs <= n)%nat -> outers true cs -> forall b s s' l,
    arun_calls b s cs = (s', l) -> a_expect s' = a_expect s /\ Forall as_wanted l) as Hcs.
  { induction cs as [|c' cs IHcs]; intros Hs Ho b s s' l Hr; cbn -[run_call] in Hr.
    - injection Hr as <- <-. split; [done|by constructor].
    - cbn in Hs. destruct Ho as [Ho1 Ho2]. destruct (arun_call b s c') as [[s1 l1]|] eqn:E.
      + destruct (arun_calls b s1 cs) as [s2 l2] eqn:E2. injection Hr as <- <-.
        destruct (IH c' ltac:(lia) Ho1 _ _ _ _ E) as [A1 A2].
        destruct (IHcs ltac:(lia) Ho2 _ _ _ _ E2) as [B1 B2].
        split; [congruence|]. by apply Forall_app.
      + by apply (IHcs ltac:(lia) Ho2 _ _ _ _ Hr). }
  destruct c as [a m outs]. rewrite call_size_unfold in Hsz. intros Ho b s s' l Hr.
  rewrite run_call_unfold in Hr. destruct (a_handle s b a m) as [[s1 subs]|] eqn:E; [|done].
  destruct (arun_subs b s1 subs outs) as [[s2 l2]|] eqn:E2; [|done]. injection Hr as <- <-.
  destruct (a_handle_ok _ _ _ _ _ _ E) as (_ & _ & _ & _ & F).
  destruct m as [code|code expect]; [|by destruct Ho]. destruct Ho as [_ Ho].
  destruct F as [-> F]. destruct (one_sub _ _ _ _ _ _ E2) as (d & cs & s3 & l3 & Hcs' & Hr & Hd & ->).
  assert ((calls_size cs <= n)%nat /\ outers true cs) as [Hle Ho'].
  { destruct Hcs' as [->|[rest ->]]; [cbn; split; [lia|done]|]. change (S (calls_size cs + outs_size rest) <= S n)%nat in Hsz.
    destruct Ho as [Ho _]. split; [lia|exact Ho]. }
  destruct (a_reply_ok _ _ _ _ _ _ _ Hd) as (_ & _ & _ & _ & G).
  destruct (Hcs _ Hle Ho' _ _ _ _ Hr) as [K1 K2]. split; [congruence|].
  constructor; [done|]. apply Forall_app. split; [done|]. by constructor.
Qed.
Lemma outside_as_wanted c b s s' l :
  outer false c -> arun_call b s c = Ok (s', l) -> Forall as_wanted l.
Proof.
  destruct c as [a m outs]. intros Ho Hr.
  rewrite run_call_unfold in Hr. destruct (a_handle s b a m) as [[s1 subs]|] eqn:E; [|done].
  destruct (arun_subs b s1 subs outs) as [[s2 l2]|] eqn:E2; [|done]. injection Hr as <- <-.
  destruct (a_handle_ok _ _ _ _ _ _ E) as (_ & _ & _ & _ & F). destruct Ho as [_ Ho].
  assert (forall cs, outers true cs -> forall b s s' l, arun_calls b s cs = (s', l) ->
    a_expect s' = a_expect s /\ Forall as_wanted l) as Hcs.
  { clear. induction cs as [|c' cs IHcs]; intros Ho b s s' l Hr; cbn -[run_call] in Hr.
    - injection Hr as <- <-. split; [done|by constructor].
    - destruct Ho as [Ho1 Ho2]. destruct (arun_call b s c') as [[s1 l1]|] eqn:E.
      + destruct (arun_calls b s1 cs) as [s2 l2] eqn:E2. injection Hr as <- <-.
        destruct (inside_keeps _ c' (le_n _) Ho1 _ _ _ _ E) as [A1 A2].
        destruct (IHcs Ho2 _ _ _ _ E2) as [B1 B2]. split; [congruence|]. by apply Forall_app.
      + by apply (IHcs Ho2 _ _ _ _ Hr). }
  assert (exists two code w, subs = [AMake two code w] /\
    (forall e, w = Some e -> two = true /\ a_expect s1 = Some e)) as (two & code & w & -> & Hw).
  { destruct m as [code|code expect]; destruct F as [-> F]; eexists _, _, _; (split; [done|]); [done|].
    intros e ->. by rewrite F. }
  destruct (one_sub _ _ _ _ _ _ E2) as (d & cs & s3 & l3 & Hcs' & Hr & Hd & ->).
  assert (outers true cs) as Ho'.
  { destruct Hcs' as [->|[rest ->]]; [done|]. destruct Ho as [Ho _]. exact Ho. }
  destruct (a_reply_ok _ _ _ _ _ _ _ Hd) as (_ & _ & _ & D & G).
  destruct (Hcs _ Ho' _ _ _ _ Hr) as [K1 K2].
  constructor; [done|]. apply Forall_app. split; [done|]. constructor; [|done]. cbn.
  destruct w as [e|]; [|done]. destruct (Hw e eq_refl) as [-> Hx]. destruct G as [_ G].
  rewrite D, (G e); [done|]. by rewrite K1.
Qed.
Lemma expected self admin h s l pre b two code w ok post :
  areached self admin h s l -> no_second_inside h ->
  ESub pre b (AMake two code (Some w)) ok post ∈ l -> a_chain post = <[w := w]> (a_chain pre).
Proof.
  intros H Ho Hin. enough (Forall as_wanted l) as F by (rewrite Forall_forall in F; exact (F _ Hin)).
  clear Hin. unfold areached in H. revert s l H. generalize (a_instantiate self admin).
  induction h as [|[b1 c] h IH]; intros s0 s l Hr; cbn in Hr.
  - injection Hr as <- <-. by constructor.
  - apply Forall_cons in Ho as [Ho1 Ho2]. cbn in Ho1.
    destruct (arun_call b1 s0 c) as [[s1 l1]|] eqn:E; [|by eapply IH].
    destruct (run_hist a_handle a_fail a_reply s1 h) as [s2 l2] eqn:E2. injection Hr as <- <-.
    apply Forall_app. split; [by eapply outside_as_wanted|by eapply IH].
Qed.
(** A call that is not made by a contract just being made succeeds when the factory's admin, or
    anybody if there is none, makes it and the address is as expected. *)
Lemma works self admin h s l b a m d :
  areached self admin h s l -> (forall x, admin = Some x -> a = x) ->
  a_chain s !! d = None ->
  match m with AInst2 _ (Some e) => d = e | _ => True end ->
  exists s' l', arun_call b s (Call a m [Some (d, [])]) = Ok (s', l') /\ a_chain s' !! d = Some d.
Proof.
  intros H Ha Hd He. pose proof (clean _ _ _ _ _ H) as Hc.
  destruct (atrace _ _ _ _ _ H) as [(_ & Hadm & _) _].
  assert (a_allowed s a = true) as Hal.
  { unfold a_allowed. rewrite Hadm. destruct admin as [x|]; [|done]. rewrite (Ha x eq_refl). apply N.eqb_refl. }
  rewrite run_call_unfold. destruct m as [code|code [e|]]; cbn [a_handle]; rewrite Hal;
    cbn -[bool_decide]; rewrite (bool_decide_eq_true_2 (a_chain s !! d = None)) by done.
  - eexists _, _. split; [done|]. cbn. by rewrite lookup_insert.
  - subst e. rewrite N.eqb_refl. eexists _, _. split; [done|]. cbn. by rewrite lookup_insert.
  - rewrite Hc. eexists _, _. split; [done|]. cbn. by rewrite lookup_insert.
Qed.
