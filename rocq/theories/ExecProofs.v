(** Generic induction rule for call trees and histories. *)
From Verif Require Import Base BaseProofs Exec.

Section rule.
  Context {State Msg Sub : Type}.
  Variable handle : State -> block -> addr -> Msg -> result (State * list Sub).
  Variable on_fail : State -> block -> Sub -> result State.
  Variable on_ok : State -> block -> Sub -> addr -> result State.
  Notation call := (call Msg).
  Notation log := (log State Msg Sub).
  Notation run_call := (run_call handle on_fail on_ok).
  Notation run_calls := (run_calls handle on_fail on_ok).
  Notation run_subs := (run_subs handle on_fail on_ok).
  Notation run_quiet := (run_quiet on_ok).
  Notation run_hist := (run_hist handle on_fail on_ok).

  (** Messages admitted in a tree. *)
  Fixpoint call_all (P : addr -> Msg -> Prop) (c : call) : Prop :=
    match c with
    | Call a m outs =>
        P a m /\
        (fix go (outs : list (option (addr * list call))) : Prop :=
           match outs with
           | [] => True
           | None :: outs' => go outs'
           | Some (d, cs) :: outs' =>
               ((fix go' (cs : list call) : Prop :=
                  match cs with [] => True | c :: cs' => call_all P c /\ go' cs' end) cs)
               /\ go outs'
           end) outs
    end.
  Definition calls_all (P : addr -> Msg -> Prop) : list call -> Prop :=
    fix go' (cs : list call) : Prop :=
      match cs with [] => True | c :: cs' => call_all P c /\ go' cs' end.
  Definition outs_all (P : addr -> Msg -> Prop) : list (option (addr * list call)) -> Prop :=
    fix go (outs : list (option (addr * list call))) : Prop :=
      match outs with
      | [] => True
      | None :: outs' => go outs'
      | Some (d, cs) :: outs' => calls_all P cs /\ go outs'
      end.
  Definition hist_all (P : addr -> Msg -> Prop) (h : list (block * call)) : Prop :=
    Forall (fun bc => call_all P bc.2) h.

  Lemma run_call_unfold b s a m outs :
    run_call b s (Call a m outs) =
      do! ' (s1, subs) <- handle s b a m;
      do! ' (s2, l) <- run_subs b s1 subs outs;
      Ok (s2, ECall s b a m s1 subs :: l).
  Proof. reflexivity. Qed.

  Fixpoint call_size (c : call) : nat :=
    match c with
    | Call _ _ outs =>
        S ((fix go (outs : list (option (addr * list call))) : nat :=
           match outs with
           | [] => 0
           | None :: outs' => go outs'
           | Some (d, cs) :: outs' =>
               ((fix go' (cs : list call) : nat :=
                  match cs with [] => 0 | c :: cs' => call_size c + go' cs' end) cs)
               + go outs'
           end) outs)
    end%nat.
  Definition calls_size : list call -> nat :=
    fix go' (cs : list call) : nat :=
      match cs with [] => 0 | c :: cs' => call_size c + go' cs' end%nat.
  Definition outs_size : list (option (addr * list call)) -> nat :=
    fix go (outs : list (option (addr * list call))) : nat :=
      match outs with
      | [] => 0
      | None :: outs' => go outs'
      | Some (d, cs) :: outs' => calls_size cs + go outs'
      end%nat.
  Lemma call_size_unfold a m outs : call_size (Call a m outs) = S (outs_size outs).
  Proof. reflexivity. Qed.
  Lemma call_all_unfold P a m outs :
    call_all P (Call a m outs) = (P a m /\ outs_all P outs).
  Proof. reflexivity. Qed.

  Variable M : addr -> Msg -> Prop.
  Variable Inv : block -> State -> Prop.
  Variable R : State -> log -> State -> Prop.
  Variable Pend : block -> State -> list Sub -> Prop.
  Hypothesis R_refl : forall s, R s [] s.
  Hypothesis R_trans : forall s l s' l' s'', R s l s' -> R s' l' s'' -> R s (l ++ l') s''.
  Hypothesis H_handle : forall b s a m s' subs,
    Inv b s -> M a m -> handle s b a m = Ok (s', subs) ->
    Inv b s' /\ R s [ECall s b a m s' subs] s' /\ Pend b s' subs.
  Hypothesis H_fail : forall b s sub subs s',
    Inv b s -> Pend b s (sub :: subs) -> on_fail s b sub = Ok s' ->
    Inv b s' /\ R s [ESub s b sub false s'] s' /\ Pend b s' subs.
  Hypothesis H_ok : forall b s sub subs l s1 d s',
    Inv b s -> Pend b s (sub :: subs) -> Inv b s1 -> R s l s1 ->
    on_ok s1 b sub d = Ok s' ->
    Inv b s' /\ R s1 [ESub s1 b sub true s'] s' /\ Pend b s' subs.

  Lemma run_quiet_rule b subs : forall s s' l,
    Inv b s -> Pend b s subs -> run_quiet b s subs = Ok (s', l) ->
    Inv b s' /\ R s l s'.
  Proof.
    induction subs as [|sub subs IH]; intros s s' l HI HP Hr; simpl in Hr.
    - injection Hr; intros; subst. eauto.
    - destruct (on_ok s b sub 0%N) as [s1|] eqn:E; [|discriminate].
      destruct (run_quiet b s1 subs) as [[s2 l2]|] eqn:E2; [|discriminate].
      injection Hr; intros; subst.
      destruct (H_ok b s sub subs [] s 0%N s1 HI HP HI (R_refl s) E) as (HI1 & HR1 & HP1).
      destruct (IH s1 s' l2 HI1 HP1 E2) as [HI2 HR2].
      split; [done|]. apply (R_trans s [_] s1 l2 s'); done.
  Qed.

  Lemma run_call_rule_n n :
    (forall c, (call_size c <= n)%nat -> forall b s s' l,
        Inv b s -> call_all M c -> run_call b s c = Ok (s', l) -> Inv b s' /\ R s l s').
  Proof.
    induction n as [|n IHn]; intros c Hsz; [destruct c; simpl in Hsz; lia|].
    assert (Hcalls : forall cs, (calls_size cs <= n)%nat -> calls_all M cs -> forall b s s' l,
        Inv b s -> run_calls b s cs = (s', l) -> Inv b s' /\ R s l s').
    { induction cs as [|c' cs IHcs]; intros Hs HM b s s' l HI Hr; simpl in Hr.
      - injection Hr; intros; subst. eauto.
      - simpl in Hs. destruct HM as [HMc HMcs].
        destruct (run_call b s c') as [[s1 l1]|] eqn:E.
        + destruct (run_calls b s1 cs) as [s2 l2] eqn:E2.
          injection Hr; intros; subst.
          destruct (IHn c' ltac:(lia) b s s1 l1 HI HMc E) as [HI1 HR1].
          destruct (IHcs ltac:(lia) HMcs b s1 s' l2 HI1 E2) as [HI2 HR2]. eauto.
        + apply (IHcs ltac:(lia) HMcs b s s' l HI Hr). }
    assert (Hsubs : forall outs, (outs_size outs <= n)%nat -> outs_all M outs ->
        forall b s subs s' l,
        Inv b s -> Pend b s subs -> run_subs b s subs outs = Ok (s', l) ->
        Inv b s' /\ R s l s').
    { induction outs as [|o outs IHo]; intros Hs HM b s subs s' l HI HP Hr.
      - simpl in Hr. by eapply run_quiet_rule.
      - simpl in Hr. destruct subs as [|sub subs].
        + injection Hr; intros; subst. eauto.
        + destruct o as [[d inner]|].
          * simpl in Hs. destruct HM as [HMi HMo].
            destruct (run_calls b s inner) as [s1 l1] eqn:E1.
            destruct (on_ok s1 b sub d) as [s2|] eqn:E2; [|discriminate].
            destruct (run_subs b s2 subs outs) as [[s3 l3]|] eqn:E3; [|discriminate].
            injection Hr; intros; subst.
            destruct (Hcalls inner ltac:(lia) HMi b s s1 l1 HI E1) as [HI1 HR1].
            destruct (H_ok b s sub subs l1 s1 d s2 HI HP HI1 HR1 E2) as (HI2 & HR2 & HP2).
            destruct (IHo ltac:(lia) HMo b s2 subs s' l3 HI2 HP2 E3) as [HI3 HR3].
            split; [done|]. apply (R_trans s l1 s1 (_ :: l3) s' HR1).
            apply (R_trans s1 [_] s2 l3 s'); done.
          * simpl in Hs, HM.
            destruct (on_fail s b sub) as [s2|] eqn:E2; [|discriminate].
            destruct (run_subs b s2 subs outs) as [[s3 l3]|] eqn:E3; [|discriminate].
            injection Hr; intros; subst.
            destruct (H_fail b s sub subs s2 HI HP E2) as (HI2 & HR2 & HP2).
            destruct (IHo Hs HM b s2 subs s' l3 HI2 HP2 E3) as [HI3 HR3].
            split; [done|]. apply (R_trans s [_] s2 l3 s'); done. }
    destruct c as [a m outs]. rewrite call_size_unfold in Hsz.
    intros b s s' l HI HM Hr. rewrite call_all_unfold in HM. destruct HM as [HMm HMo].
    rewrite run_call_unfold in Hr.
    destruct (handle s b a m) as [[s1 subs]|] eqn:E; [|discriminate].
    destruct (run_subs b s1 subs outs) as [[s2 l2]|] eqn:E2; [|discriminate].
    injection Hr; intros; subst.
    destruct (H_handle b s a m s1 subs HI HMm E) as (HI1 & HR1 & HP1).
    destruct (Hsubs outs ltac:(lia) HMo b s1 subs s' l2 HI1 HP1 E2) as [HI2 HR2].
    split; [done|]. apply (R_trans s [_] s1 l2 s'); done.
  Qed.

  Lemma run_call_rule c b s s' l :
    Inv b s -> call_all M c -> run_call b s c = Ok (s', l) -> Inv b s' /\ R s l s'.
  Proof. intros HI HM Hr. by apply (run_call_rule_n (call_size c) c (le_n _) b). Qed.

  Hypothesis Inv_time : forall b b' s, block_le b b' -> Inv b s -> Inv b' s.

  Lemma run_hist_rule h : forall b0 s s' l,
    Inv b0 s -> hist_ok b0 h -> hist_all M h -> run_hist s h = (s', l) ->
    Inv (hist_end b0 h) s' /\ R s l s'.
  Proof.
    induction h as [|[b c] h IH]; intros b0 s s' l HI Hh HM Hr; simpl in *.
    - injection Hr; intros; subst. eauto.
    - destruct Hh as [Hle Hh].
      inversion HM as [|? ? HMc HMh]; subst; simpl in HMc.
      destruct (run_call b s c) as [[s1 l1]|] eqn:E.
      + destruct (run_hist s1 h) as [s2 l2] eqn:E2. injection Hr; intros; subst.
        destruct (run_call_rule c b s s1 l1 (Inv_time _ _ _ Hle HI) HMc E) as [HI1 HR1].
        destruct (IH b s1 s' l2 HI1 Hh HMh E2) as [HI2 HR2]. eauto.
      + apply (IH b s s' l (Inv_time _ _ _ Hle HI) Hh HMh Hr).
  Qed.
End rule.

(** No restriction on messages. *)
Definition any_msg {Msg} (_ : addr) (_ : Msg) : Prop := True.
Section any.
  Context {Msg : Type}.
  Lemma call_all_any (c : call Msg) : call_all any_msg c.
  Proof.
    revert c. fix IH 1. intros [a m outs]. simpl. split; [exact I|].
    revert outs. fix IHo 1. intros [|[[d cs]|] outs]; simpl.
    - exact I.
    - split; [|apply IHo]. revert cs. fix IHc 1. intros [|c cs]; simpl; [exact I|].
      split; [apply IH|apply IHc].
    - apply IHo.
  Qed.
  Lemma hist_all_any (h : list (block * call Msg)) : hist_all any_msg h.
  Proof. apply Forall_forall. intros; apply call_all_any. Qed.
End any.

(** ** Traces: the committed log as a contiguous sequence of legal steps *)
Section trace.
  Context {State Msg Sub : Type}.
  Variable handle : State -> block -> addr -> Msg -> result (State * list Sub).
  Variable on_fail : State -> block -> Sub -> result State.
  Variable on_ok : State -> block -> Sub -> addr -> result State.
  Notation event := (event State Msg Sub).

  Definition ev_pre (e : event) : State :=
    match e with ECall pre _ _ _ _ _ => pre | ESub pre _ _ _ _ => pre end.
  Definition ev_post (e : event) : State :=
    match e with ECall _ _ _ _ post _ => post | ESub _ _ _ _ post => post end.
  Definition ev_block (e : event) : block :=
    match e with ECall _ b _ _ _ _ => b | ESub _ b _ _ _ => b end.

  Variable M : addr -> Msg -> Prop.
  Variable Inv : block -> State -> Prop.
  (** What is known of a sub-message between its emission and its resolution. *)
  Variable Pend : block -> State -> Sub -> Prop.

  (** One committed step: an admissible message handled successfully, or a
      pending sub-message resolved. *)
  Definition legit (e : event) : Prop :=
    Inv (ev_block e) (ev_pre e) /\ Inv (ev_block e) (ev_post e) /\
    match e with
    | ECall pre b a m post subs => M a m /\ handle pre b a m = Ok (post, subs)
    | ESub pre b sub true post => Pend b pre sub /\ exists d, on_ok pre b sub d = Ok post
    | ESub pre b sub false post => Pend b pre sub /\ on_fail pre b sub = Ok post
    end.

  Inductive trace : block -> State -> list event -> block -> State -> Prop :=
  | trace_nil b0 b1 s : block_le b0 b1 -> trace b0 s [] b1 s
  | trace_cons b0 s e l b1 s' :
      block_le b0 (ev_block e) -> ev_pre e = s -> legit e ->
      trace (ev_block e) (ev_post e) l b1 s' -> trace b0 s (e :: l) b1 s'.

  Lemma trace_le b0 s l b1 s' : trace b0 s l b1 s' -> block_le b0 b1.
  Proof. induction 1; eauto using block_le_trans. Qed.
  Lemma trace_weaken b b0 s l b1 s' :
    block_le b b0 -> trace b0 s l b1 s' -> trace b s l b1 s'.
  Proof.
    intros Hb H. destruct H; constructor; eauto using block_le_trans.
  Qed.
  Lemma trace_app b0 s l b1 s' l' b2 s'' :
    trace b0 s l b1 s' -> trace b1 s' l' b2 s'' -> trace b0 s (l ++ l') b2 s''.
  Proof.
    induction 1; simpl; intros; [by eapply trace_weaken|].
    constructor; eauto.
  Qed.
  Lemma trace_forall b0 s l b1 s' : trace b0 s l b1 s' -> Forall legit l.
  Proof. induction 1; constructor; eauto. Qed.
  Lemma trace_split b0 s l l' b1 s' :
    trace b0 s (l ++ l') b1 s' ->
    exists bm sm, trace b0 s l bm sm /\ trace bm sm l' b1 s'.
  Proof.
    revert b0 s. induction l as [|e l IH]; simpl; intros b0 s H.
    - exists b0, s. split; [constructor; apply block_le_refl|done].
    - inversion H as [|? ? ? ? ? ? Hle Hpre Hleg Htr]; subst.
      destruct (IH _ _ Htr) as (bm & sm & A & B).
      exists bm, sm. split; [constructor; eauto|done].
  Qed.
  (** A reflexive, transitive relation on states that every legal step respects
      holds across a trace. *)
  Lemma trace_rel (R : State -> State -> Prop) b0 s l b1 s' :
    (forall s, R s s) -> (forall a b c, R a b -> R b c -> R a c) ->
    (forall e, legit e -> R (ev_pre e) (ev_post e)) ->
    trace b0 s l b1 s' -> R s s'.
  Proof. intros Hr Ht Hs. induction 1; subst; eauto. Qed.

  Hypothesis H_handle : forall b s a m s' subs,
    Inv b s -> M a m -> handle s b a m = Ok (s', subs) ->
    Inv b s' /\ forall x, x ∈ subs -> Pend b s' x.
  Hypothesis H_fail : forall b s x s',
    Inv b s -> Pend b s x -> on_fail s b x = Ok s' -> Inv b s'.
  Hypothesis H_ok : forall b s x d s',
    Inv b s -> Pend b s x -> on_ok s b x d = Ok s' -> Inv b s'.
  (** While a sub-message runs, the contract may be called back: what is known
      of the pending sub-messages must survive any legal step. *)
  Hypothesis S_handle : forall b s a m s' subs x,
    Inv b s -> M a m -> handle s b a m = Ok (s', subs) -> Pend b s x -> Pend b s' x.
  Hypothesis S_fail : forall b s x s' y,
    Inv b s -> Pend b s x -> on_fail s b x = Ok s' -> Pend b s y -> Pend b s' y.
  Hypothesis S_ok : forall b s x d s' y,
    Inv b s -> Pend b s x -> on_ok s b x d = Ok s' -> Pend b s y -> Pend b s' y.
  Hypothesis Inv_time : forall b b' s, block_le b b' -> Inv b s -> Inv b' s.

  Lemma run_call_trace c b s s' l :
    Inv b s -> call_all M c -> run_call handle on_fail on_ok b s c = Ok (s', l) ->
    Inv b s' /\ trace b s l b s'.
  Proof.
    intros HI HM Hr.
    pose (I' := fun b' s => b' = b /\ Inv b s).
    pose (R := fun s l s' => trace b s l b s' /\ forall x, Pend b s x -> Pend b s' x).
    assert ((I' b s' /\ R s l s') -> Inv b s' /\ trace b s l b s') as Hgo.
    { unfold I', R. tauto. }
    apply Hgo. clear Hgo.
    eapply (run_call_rule handle on_fail on_ok M I' R
              (fun b' s subs => forall x, x ∈ subs -> Pend b s x));
      [..|done|exact Hr]; unfold I', R.
    - intros s1. split; [constructor; apply block_le_refl|done].
    - intros s1 l1 s2 l2 s3 [A P1] [B P2]. split; [by eapply trace_app|eauto].
    - intros b' s1 a m s2 subs [-> HI1] Hm Hh.
      destruct (H_handle _ _ _ _ _ _ HI1 Hm Hh) as [HI2 HP].
      split; [done|]. split; [|done]. split; [|by eauto].
      constructor; simpl; eauto using block_le_refl.
      + repeat split; done.
      + constructor; apply block_le_refl.
    - intros b' s1 sub subs s2 [-> HI1] HP Hh.
      assert (Pend b s1 sub) as Hsub by (apply HP; left).
      pose proof (H_fail _ _ _ _ HI1 Hsub Hh) as HI2.
      assert (forall x, Pend b s1 x -> Pend b s2 x) as Hst by eauto.
      split; [done|]. split; [|intros; apply Hst, HP; by right]. split; [|done].
      constructor; simpl; eauto using block_le_refl.
      + repeat split; eauto.
      + constructor; apply block_le_refl.
    - intros b' s1 sub subs l1 s2 d s3 [-> HI1] HP [_ HI2] [HR Hst] Hh.
      assert (Pend b s2 sub) as Hsub by (apply Hst, HP; left).
      pose proof (H_ok _ _ _ _ _ HI2 Hsub Hh) as HI3.
      assert (forall x, Pend b s2 x -> Pend b s3 x) as Hst2 by eauto.
      split; [done|]. split; [|intros; apply Hst2, Hst, HP; by right]. split; [|done].
      constructor; simpl; eauto using block_le_refl.
      + repeat split; simpl; eauto.
      + constructor; apply block_le_refl.
    - done.
  Qed.

  Lemma run_hist_trace h : forall b0 s s' l,
    Inv b0 s -> hist_ok b0 h -> hist_all M h ->
    run_hist handle on_fail on_ok s h = (s', l) ->
    Inv (hist_end b0 h) s' /\ trace b0 s l (hist_end b0 h) s'.
  Proof.
    induction h as [|[b c] h IH]; intros b0 s s' l HI Hh HM Hr; simpl in *.
    - injection Hr; intros; subst. split; [done|constructor; apply block_le_refl].
    - destruct Hh as [Hle Hh].
      inversion HM as [|? ? HMc HMh]; subst; simpl in HMc.
      destruct (run_call handle on_fail on_ok b s c) as [[s1 l1]|] eqn:E.
      + destruct (run_hist handle on_fail on_ok s1 h) as [s2 l2] eqn:E2.
        injection Hr; intros; subst.
        destruct (run_call_trace c b s s1 l1 (Inv_time _ _ _ Hle HI) HMc E) as [HI1 HT1].
        destruct (IH b s1 s' l2 HI1 Hh HMh E2) as [HI2 HT2].
        split; [done|]. eapply trace_weaken; [done|]. by eapply trace_app.
      + destruct (IH b s s' l (Inv_time _ _ _ Hle HI) Hh HMh Hr) as [A B].
        split; [done|]. by eapply trace_weaken.
  Qed.
End trace.

Arguments trace_rel {State Msg Sub} handle on_fail on_ok M Inv Pend R.

(** ** Every emitted sub-message is resolved exactly once in a committed log *)
Section count.
  Context {State Msg Sub : Type}.
  Variable handle : State -> block -> addr -> Msg -> result (State * list Sub).
  Variable on_fail : State -> block -> Sub -> result State.
  Variable on_ok : State -> block -> Sub -> addr -> result State.
  Notation event := (event State Msg Sub).
  Variable f : Sub -> Z.

  (** Weight of the sub-messages resolved, resp. emitted, by an event. *)
  Definition ev_done (e : event) : Z :=
    match e with ECall _ _ _ _ _ _ => 0 | ESub _ _ x _ _ => f x end.
  Definition ev_sent (e : event) : Z :=
    match e with ECall _ _ _ _ _ subs => lsum f subs | ESub _ _ _ _ _ => 0 end.

  Lemma run_quiet_count b subs : forall s s' l,
    run_quiet on_ok b s subs = Ok (s', l) ->
    lsum ev_done l = lsum ev_sent l + lsum f subs.
  Proof.
    induction subs as [|x subs IH]; intros s s' l Hr; simpl in Hr.
    - injection Hr; intros; subst. done.
    - destruct (on_ok s b x 0%N) as [s1|] eqn:E; [|discriminate].
      destruct (run_quiet on_ok b s1 subs) as [[s2 l2]|] eqn:E2; [|discriminate].
      injection Hr; intros; subst. simpl. rewrite (IH s1 s' l2 E2). lia.
  Qed.

  Lemma run_call_count_n n :
    forall c : call Msg, (call_size c <= n)%nat -> forall b s s' l,
      run_call handle on_fail on_ok b s c = Ok (s', l) -> lsum ev_done l = lsum ev_sent l.
  Proof.
    induction n as [|n IHn]; intros c Hsz; [destruct c; simpl in Hsz; lia|].
    assert (Hcalls : forall cs : list (call Msg), (calls_size cs <= n)%nat -> forall b s s' l,
        run_calls handle on_fail on_ok b s cs = (s', l) -> lsum ev_done l = lsum ev_sent l).
    { induction cs as [|c' cs IHcs]; intros Hs b s s' l Hr; simpl in Hr.
      - injection Hr; intros; subst. done.
      - simpl in Hs.
        destruct (run_call handle on_fail on_ok b s c') as [[s1 l1]|] eqn:E.
        + destruct (run_calls handle on_fail on_ok b s1 cs) as [s2 l2] eqn:E2.
          injection Hr; intros; subst. rewrite !lsum_app.
          rewrite (IHn c' ltac:(lia) b s s1 l1 E), (IHcs ltac:(lia) b s1 s' l2 E2). done.
        + apply (IHcs ltac:(lia) b s s' l Hr). }
    assert (Hsubs : forall outs : list (option (addr * list (call Msg))),
        (outs_size outs <= n)%nat -> forall b s subs s' l,
        run_subs handle on_fail on_ok b s subs outs = Ok (s', l) ->
        lsum ev_done l = lsum ev_sent l + lsum f subs).
    { induction outs as [|o outs IHo]; intros Hs b s subs s' l Hr.
      - simpl in Hr. by eapply run_quiet_count.
      - simpl in Hr. destruct subs as [|x subs].
        + injection Hr; intros; subst. done.
        + destruct o as [[d inner]|].
          * simpl in Hs.
            destruct (run_calls handle on_fail on_ok b s inner) as [s1 l1] eqn:E1.
            destruct (on_ok s1 b x d) as [s2|] eqn:E2; [|discriminate].
            destruct (run_subs handle on_fail on_ok b s2 subs outs) as [[s3 l3]|] eqn:E3;
              [|discriminate].
            injection Hr; intros; subst. rewrite !lsum_app. simpl.
            rewrite (Hcalls inner ltac:(lia) b s s1 l1 E1),
              (IHo ltac:(lia) b s2 subs s' l3 E3). lia.
          * simpl in Hs.
            destruct (on_fail s b x) as [s2|] eqn:E2; [|discriminate].
            destruct (run_subs handle on_fail on_ok b s2 subs outs) as [[s3 l3]|] eqn:E3;
              [|discriminate].
            injection Hr; intros; subst. simpl.
            rewrite (IHo Hs b s2 subs s' l3 E3). lia. }
    destruct c as [a m outs]. rewrite call_size_unfold in Hsz.
    intros b s s' l Hr. rewrite run_call_unfold in Hr.
    destruct (handle s b a m) as [[s1 subs]|] eqn:E; [|discriminate].
    destruct (run_subs handle on_fail on_ok b s1 subs outs) as [[s2 l2]|] eqn:E2; [|discriminate].
    injection Hr; intros; subst. simpl.
    rewrite (Hsubs outs ltac:(lia) b s1 subs s' l2 E2). lia.
  Qed.

  Lemma run_call_count c b s s' l :
    run_call handle on_fail on_ok b s c = Ok (s', l) -> lsum ev_done l = lsum ev_sent l.
  Proof. apply (run_call_count_n (call_size c) c (le_n _)). Qed.

  Lemma run_hist_count h : forall s s' l,
    run_hist handle on_fail on_ok s h = (s', l) -> lsum ev_done l = lsum ev_sent l.
  Proof.
    induction h as [|[b c] h IH]; intros s s' l Hr; simpl in Hr.
    - injection Hr; intros; subst. done.
    - destruct (run_call handle on_fail on_ok b s c) as [[s1 l1]|] eqn:E; [|eauto].
      destruct (run_hist handle on_fail on_ok s1 h) as [s2 l2] eqn:E2.
      injection Hr; intros; subst. rewrite !lsum_app.
      rewrite (run_call_count c b s s1 l1 E), (IH s1 s' l2 E2). done.
  Qed.
End count.
