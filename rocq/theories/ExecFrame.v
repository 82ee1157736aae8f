(** An induction rule for call trees in which what is known of the pending sub-messages of a call
    refers to the state in which the call began. *)
From Verif Require Import Base BaseProofs Exec ExecProofs.

Section rule.
  Context {State Msg Sub : Type}.
  Variable handle : State -> block -> addr -> Msg -> result (State * list Sub).
  Variable on_fail : State -> block -> Sub -> result State.
  Variable on_ok : State -> block -> Sub -> addr -> result State.
  Notation call := (call Msg).
  Notation log := (log State Msg Sub).
  Notation run_call := (run_call handle on_fail on_ok).
  Notation run_calls := (run_calls handle on_fail on_ok).
  Notation run_subs := (run_subs handle on_fail on_ok).
  Notation run_quiet := (run_quiet on_ok).
  Notation run_hist := (run_hist handle on_fail on_ok).

  Variable Inv : block -> State -> Prop.
  (** Across whole calls. *)
  Variable R : State -> log -> State -> Prop.
  (** Within a call that began in [s0] and has logged [l]. *)
  Variable Pend : block -> State -> log -> State -> list Sub -> Prop.
  Hypothesis R_refl : forall s, R s [] s.
  Hypothesis R_trans : forall s l s' l' s'', R s l s' -> R s' l' s'' -> R s (l ++ l') s''.
  Hypothesis H_handle : forall b s a m s' subs,
    Inv b s -> handle s b a m = Ok (s', subs) ->
    Inv b s' /\ Pend b s [ECall s b a m s' subs] s' subs.
  Hypothesis H_fail : forall b s0 l s x subs s',
    Inv b s -> Pend b s0 l s (x :: subs) -> on_fail s b x = Ok s' ->
    Inv b s' /\ Pend b s0 (l ++ [ESub s b x false s']) s' subs.
  Hypothesis H_ok : forall b s0 l s x subs l1 s1 d s',
    Inv b s -> Pend b s0 l s (x :: subs) -> Inv b s1 -> R s l1 s1 ->
    on_ok s1 b x d = Ok s' ->
    Inv b s' /\ Pend b s0 (l ++ l1 ++ [ESub s1 b x true s']) s' subs.
  Hypothesis H_end : forall b s0 l s, Inv b s -> Pend b s0 l s [] -> R s0 l s.

  Lemma frame_quiet b s0 subs : forall l0 s s' l,
    Inv b s -> Pend b s0 l0 s subs -> run_quiet b s subs = Ok (s', l) ->
    Inv b s' /\ Pend b s0 (l0 ++ l) s' [].
  Proof.
    induction subs as [|x subs IH]; intros l0 s s' l HI HP Hr; simpl in Hr.
    - injection Hr; intros; subst. by rewrite app_nil_r.
    - destruct (on_ok s b x 0%N) as [s1|] eqn:E; [|discriminate].
      destruct (run_quiet b s1 subs) as [[s2 l2]|] eqn:E2; [|discriminate].
      injection Hr; intros; subst.
      destruct (H_ok b s0 l0 s x subs [] s 0%N s1 HI HP HI (R_refl s) E) as (HI1 & HP1).
      destruct (IH _ s1 s' l2 HI1 HP1 E2) as [HI2 HP2]. split; [done|].
      by rewrite <- app_assoc in HP2.
  Qed.

  Lemma frame_call_n n :
    (forall c, (call_size c <= n)%nat -> forall b s s' l,
        Inv b s -> run_call b s c = Ok (s', l) -> Inv b s' /\ R s l s').
  Proof.
    induction n as [|n IHn]; intros c Hsz; [destruct c; simpl in Hsz; lia|].
    assert (Hcalls : forall cs, (calls_size cs <= n)%nat -> forall b s s' l,
        Inv b s -> run_calls b s cs = (s', l) -> Inv b s' /\ R s l s').
    { induction cs as [|c' cs IHcs]; intros Hs b s s' l HI Hr; simpl in Hr.
      - injection Hr; intros; subst. eauto.
      - simpl in Hs.
        destruct (run_call b s c') as [[s1 l1]|] eqn:E.
        + destruct (run_calls b s1 cs) as [s2 l2] eqn:E2.
          injection Hr; intros; subst.
          destruct (IHn c' ltac:(lia) b s s1 l1 HI E) as [HI1 HR1].
          destruct (IHcs ltac:(lia) b s1 s' l2 HI1 E2) as [HI2 HR2]. eauto.
        + apply (IHcs ltac:(lia) b s s' l HI Hr). }
    assert (Hsubs : forall outs, (outs_size outs <= n)%nat ->
        forall b s0 l0 s subs s' l,
        Inv b s -> Pend b s0 l0 s subs -> run_subs b s subs outs = Ok (s', l) ->
        Inv b s' /\ Pend b s0 (l0 ++ l) s' []).
    { induction outs as [|o outs IHo]; intros Hs b s0 l0 s subs s' l HI HP Hr.
      - simpl in Hr. by eapply frame_quiet.
      - simpl in Hr. destruct subs as [|x subs].
        + injection Hr; intros; subst. by rewrite app_nil_r.
        + destruct o as [[d inner]|].
          * simpl in Hs.
            destruct (run_calls b s inner) as [s1 l1] eqn:E1.
            destruct (on_ok s1 b x d) as [s2|] eqn:E2; [|discriminate].
            destruct (run_subs b s2 subs outs) as [[s3 l3]|] eqn:E3; [|discriminate].
            injection Hr; intros; subst.
            destruct (Hcalls inner ltac:(lia) b s s1 l1 HI E1) as [HI1 HR1].
            destruct (H_ok b s0 l0 s x subs l1 s1 d s2 HI HP HI1 HR1 E2) as (HI2 & HP2).
            destruct (IHo ltac:(lia) b s0 _ s2 subs s' l3 HI2 HP2 E3) as [HI3 HP3].
            split; [done|]. by rewrite <- !app_assoc in HP3.
          * simpl in Hs.
            destruct (on_fail s b x) as [s2|] eqn:E2; [|discriminate].
            destruct (run_subs b s2 subs outs) as [[s3 l3]|] eqn:E3; [|discriminate].
            injection Hr; intros; subst.
            destruct (H_fail b s0 l0 s x subs s2 HI HP E2) as (HI2 & HP2).
            destruct (IHo Hs b s0 _ s2 subs s' l3 HI2 HP2 E3) as [HI3 HP3].
            split; [done|]. by rewrite <- app_assoc in HP3. }
    destruct c as [a m outs]. rewrite call_size_unfold in Hsz.
    intros b s s' l HI Hr.
    rewrite run_call_unfold in Hr.
    destruct (handle s b a m) as [[s1 subs]|] eqn:E; [|discriminate].
    destruct (run_subs b s1 subs outs) as [[s2 l2]|] eqn:E2; [|discriminate].
    injection Hr; intros; subst.
    destruct (H_handle b s a m s1 subs HI E) as (HI1 & HP1).
    destruct (Hsubs outs ltac:(lia) b s _ s1 subs s' l2 HI1 HP1 E2) as [HI2 HP2].
    split; [done|]. by apply (H_end b).
  Qed.

  Hypothesis Inv_time : forall b b' s, block_le b b' -> Inv b s -> Inv b' s.

  Lemma frame_hist h : forall b0 s s' l,
    Inv b0 s -> hist_ok b0 h -> run_hist s h = (s', l) ->
    Inv (hist_end b0 h) s' /\ R s l s'.
  Proof.
    induction h as [|[b c] h IH]; intros b0 s s' l HI Hh Hr; simpl in *.
    - injection Hr; intros; subst. eauto.
    - destruct Hh as [Hle Hh].
      destruct (run_call b s c) as [[s1 l1]|] eqn:E.
      + destruct (run_hist s1 h) as [s2 l2] eqn:E2. injection Hr; intros; subst.
        destruct (frame_call_n (call_size c) c (le_n _) b s s1 l1 (Inv_time _ _ _ Hle HI) E) as [HI1 HR1].
        destruct (IH b s1 s' l2 HI1 Hh E2) as [HI2 HR2]. eauto.
      + apply (IH b s s' l (Inv_time _ _ _ Hle HI) Hh Hr).
  Qed.
End rule.
