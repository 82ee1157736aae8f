(** Histories of a joint system, seen by one of its parts. *)
From Verif Require Import Base BaseProofs Exec ExecProofs Compose.

Lemma keep_app {A B} (f : A -> option B) l1 l2 : keep f (l1 ++ l2) = keep f l1 ++ keep f l2.
Proof. induction l1 as [|x l IH]; simpl; [done|]. destruct (f x); simpl; by rewrite IH. Qed.

Section calls.
  Context {State Msg Sub : Type}.
  Variable handle : State -> block -> addr -> Msg -> result (State * list Sub).
  Variable on_fail : State -> block -> Sub -> result State.
  Variable on_ok : State -> block -> Sub -> addr -> result State.
  Notation run_calls := (run_calls handle on_fail on_ok).
  Notation run_hist := (run_hist handle on_fail on_ok).
  Lemma run_calls_one b s c s' l :
    run_call handle on_fail on_ok b s c = Ok (s', l) -> run_calls b s [c] = (s', l).
  Proof. intros H. unfold Exec.run_calls. rewrite H. by rewrite app_nil_r. Qed.
  Lemma run_calls_app b cs1 : forall s cs2 s1 l1 s2 l2,
    run_calls b s cs1 = (s1, l1) -> run_calls b s1 cs2 = (s2, l2) ->
    run_calls b s (cs1 ++ cs2) = (s2, l1 ++ l2).
  Proof.
    induction cs1 as [|c cs1 IH]; intros s cs2 s1 l1 s2 l2 H1 H2; simpl in *.
    - injection H1; intros; subst. done.
    - destruct (run_call handle on_fail on_ok b s c) as [[s' l']|] eqn:E.
      + destruct (run_calls b s' cs1) as [s'' l''] eqn:E2. injection H1; intros; subst.
        rewrite (IH _ _ _ _ _ _ E2 H2). by rewrite (assoc_L (++)).
      + by eapply IH.
  Qed.
  Lemma run_hist_calls b cs : forall s h s1 l1 s2 l2,
    run_calls b s cs = (s1, l1) -> run_hist s1 h = (s2, l2) ->
    run_hist s (map (fun c => (b, c)) cs ++ h) = (s2, l1 ++ l2).
  Proof.
    induction cs as [|c cs IH]; intros s h s1 l1 s2 l2 H1 H2; simpl in *.
    - injection H1; intros; subst. done.
    - destruct (run_call handle on_fail on_ok b s c) as [[s' l']|] eqn:E.
      + destruct (run_calls b s' cs) as [s'' l''] eqn:E2. injection H1; intros; subst.
        rewrite (IH _ _ _ _ _ _ E2 H2). by rewrite (assoc_L (++)).
      + by eapply IH.
  Qed.
  Lemma calls_all_app (P : addr -> Msg -> Prop) cs1 cs2 :
    calls_all P cs1 -> calls_all P cs2 -> calls_all P (cs1 ++ cs2).
  Proof. induction cs1 as [|c cs IH]; simpl; [done|]. intros [A B] C. eauto. Qed.
  Lemma calls_all_forall (P : addr -> Msg -> Prop) cs : calls_all P cs -> Forall (call_all P) cs.
  Proof. induction cs as [|c cs IH]; simpl; [constructor|]. intros [A B]. constructor; eauto. Qed.
  Lemma hist_ok_calls b (cs : list (call Msg)) h :
    hist_ok b h -> hist_ok b (map (fun c => (b, c)) cs ++ h).
  Proof. induction cs; simpl; [done|]. intros H. split; [apply block_le_refl|eauto]. Qed.
  Lemma hist_end_calls b (cs : list (call Msg)) h :
    hist_end b (map (fun c => (b, c)) cs ++ h) = hist_end b h.
  Proof. induction cs; simpl; done. Qed.
End calls.

Section project.
  (** The joint system *)
  Context {J MJ XJ : Type}.
  Variable jhandle : J -> block -> addr -> MJ -> result (J * list XJ).
  Variable jfail : J -> block -> XJ -> result J.
  Variable jok : J -> block -> XJ -> addr -> result J.
  (** and one of its parts. *)
  Context {S M X : Type}.
  Variable handle : S -> block -> addr -> M -> result (S * list X).
  Variable fail : S -> block -> X -> result S.
  Variable ok : S -> block -> X -> addr -> result S.

  Variable part : J -> S.
  Variable own : J -> block -> MJ -> option M.
  Variable osub : XJ -> option X.
  Definition oev (e : event J MJ XJ) : option (event S M X) :=
    match e with
    | ECall pre b a m post subs =>
        match own pre b m with
        | Some m' => Some (ECall (part pre) b a m' (part post) (keep osub subs))
        | None => None
        end
    | ESub pre b x k post =>
        match osub x with
        | Some x' => Some (ESub (part pre) b x' k (part post))
        | None => None
        end
    end.
  Notation olog := (keep oev).

  (** Admitted messages. *)
  Variable PJ : addr -> MJ -> Prop.
  Variable P : addr -> M -> Prop.
  Variable K : block -> J -> Prop.
  Variable G : block -> J -> Prop.
  Notation Inv b j := (K b j /\ G b j).

  Hypothesis K_call : forall b j a m j' subs,
    K b j -> PJ a m -> jhandle j b a m = Ok (j', subs) -> K b j' /\ (G b j <-> G b j').
  Hypothesis K_fail : forall b j x j',
    K b j -> jfail j b x = Ok j' -> K b j' /\ (G b j <-> G b j').
  Hypothesis K_ok : forall b j x d j',
    K b j -> jok j b x d = Ok j' -> K b j' /\ (G b j <-> G b j').
  Hypothesis H_call : forall b j a m j' subs,
    Inv b j -> PJ a m -> jhandle j b a m = Ok (j', subs) ->
    match own j b m with
    | Some m' => handle (part j) b a m' = Ok (part j', keep osub subs) /\ P a m' /\
                 Forall (fun x => is_Some (osub x)) subs
    | None => part j' = part j /\ Forall (fun x => osub x = None) subs
    end.
  Hypothesis H_fail : forall b j x j',
    Inv b j -> jfail j b x = Ok j' ->
    match osub x with Some x' => fail (part j) b x' = Ok (part j') | None => part j' = part j end.
  Hypothesis H_ok : forall b j x d j',
    Inv b j -> jok j b x d = Ok j' ->
    match osub x with Some x' => ok (part j) b x' d = Ok (part j') | None => part j' = part j end.

  Notation jrun_call := (run_call jhandle jfail jok).
  Notation jrun_calls := (run_calls jhandle jfail jok).
  Notation jrun_subs := (run_subs jhandle jfail jok).

  Lemma jquiet_own b subs : forall j j' l,
    Inv b j -> Forall (fun x => is_Some (osub x)) subs ->
    run_quiet jok b j subs = Ok (j', l) ->
    Inv b j' /\ run_quiet ok b (part j) (keep osub subs) = Ok (part j', olog l).
  Proof.
    induction subs as [|x subs IH]; intros j j' l HI HF Hr; simpl in Hr.
    - injection Hr; intros; subst. done.
    - destruct (jok j b x 0%N) as [j1|] eqn:E; [|done].
      destruct (run_quiet jok b j1 subs) as [[j2 l2]|] eqn:E2; [|done].
      injection Hr; intros; subst. inversion HF as [|? ? [x' Hx] HF']; subst.
      pose proof (H_ok _ _ _ _ _ HI E) as H1. rewrite Hx in H1.
      assert (Inv b j1) as HI1.
      { destruct HI as [HK HG]. destruct (K_ok _ _ _ _ _ HK E). tauto. }
      destruct (IH _ _ _ HI1 HF' E2) as [HI2 H2]. split; [done|].
      simpl. rewrite Hx. simpl. by rewrite H1, H2.
  Qed.
  Lemma jquiet_other b subs : forall j j' l,
    Inv b j -> Forall (fun x => osub x = None) subs ->
    run_quiet jok b j subs = Ok (j', l) -> Inv b j' /\ part j' = part j /\ olog l = [].
  Proof.
    induction subs as [|x subs IH]; intros j j' l HI HF Hr; simpl in Hr.
    - injection Hr; intros; subst. done.
    - destruct (jok j b x 0%N) as [j1|] eqn:E; [|done].
      destruct (run_quiet jok b j1 subs) as [[j2 l2]|] eqn:E2; [|done].
      injection Hr; intros; subst. inversion HF as [|? ? Hx HF']; subst.
      pose proof (H_ok _ _ _ _ _ HI E) as H1. rewrite Hx in H1.
      assert (Inv b j1) as HI1.
      { destruct HI as [HK HG]. destruct (K_ok _ _ _ _ _ HK E). tauto. }
      destruct (IH _ _ _ HI1 HF' E2) as (HI2 & H2 & H3). split; [done|].
      split; [congruence|]. simpl. by rewrite Hx.
  Qed.

  Lemma project_call_n n :
    forall c : call MJ, (call_size c <= n)%nat -> forall b j j' l,
      Inv b j -> call_all PJ c -> jrun_call b j c = Ok (j', l) ->
      Inv b j' /\ exists cs, calls_all P cs /\
        run_calls handle fail ok b (part j) cs = (part j', olog l).
  Proof.
    induction n as [|n IHn]; intros c Hsz; [destruct c; simpl in Hsz; lia|].
    assert (Hcalls : forall cs : list (call MJ), (calls_size cs <= n)%nat -> calls_all PJ cs ->
      forall b j j' l, Inv b j -> jrun_calls b j cs = (j', l) ->
      Inv b j' /\ exists cs', calls_all P cs' /\
        run_calls handle fail ok b (part j) cs' = (part j', olog l)).
    { induction cs as [|c' cs IHcs]; intros Hs HM b j j' l HI Hr; simpl in Hr.
      - injection Hr; intros; subst. split; [done|]. exists []. done.
      - simpl in Hs. destruct HM as [HMc HMcs].
        destruct (jrun_call b j c') as [[j1 l1]|] eqn:E.
        + destruct (jrun_calls b j1 cs) as [j2 l2] eqn:E2. injection Hr; intros; subst.
          destruct (IHn c' ltac:(lia) b j j1 l1 HI HMc E) as (HI1 & cs1 & HP1 & Hr1).
          destruct (IHcs ltac:(lia) HMcs b j1 j' l2 HI1 E2) as (HI2 & cs2 & HP2 & Hr2).
          split; [done|]. exists (cs1 ++ cs2). split; [by apply calls_all_app|].
          rewrite keep_app. by eapply run_calls_app.
        + apply (IHcs ltac:(lia) HMcs b j j' l HI Hr). }
    assert (Hown : forall outs : list (option (addr * list (call MJ))),
      (outs_size outs <= n)%nat -> outs_all PJ outs -> forall b j subs j' l,
      Inv b j -> Forall (fun x => is_Some (osub x)) subs ->
      jrun_subs b j subs outs = Ok (j', l) ->
      Inv b j' /\ exists outs', outs_all P outs' /\
        run_subs handle fail ok b (part j) (keep osub subs) outs' = Ok (part j', olog l)).
    { induction outs as [|o outs IHo]; intros Hs HM b j subs j' l HI HF Hr.
      - simpl in Hr. destruct (jquiet_own _ _ _ _ _ HI HF Hr) as [HI' Hq].
        split; [done|]. exists []. done.
      - simpl in Hr. destruct subs as [|x subs].
        { injection Hr; intros; subst. split; [done|]. exists []. done. }
        inversion HF as [|? ? [x' Hx] HF']; subst.
        destruct o as [[d inner]|].
        + simpl in Hs. destruct HM as [HMi HMo].
          destruct (jrun_calls b j inner) as [j1 l1] eqn:E1.
          destruct (jok j1 b x d) as [j2|] eqn:E2; [|done].
          destruct (jrun_subs b j2 subs outs) as [[j3 l3]|] eqn:E3; [|done].
          injection Hr; intros; subst.
          destruct (Hcalls inner ltac:(lia) HMi b j j1 l1 HI E1) as (HI1 & cs & HP1 & Hr1).
          pose proof (H_ok _ _ _ _ _ HI1 E2) as H2. rewrite Hx in H2.
          assert (Inv b j2) as HI2.
          { destruct HI1 as [HK HG]. destruct (K_ok _ _ _ _ _ HK E2). tauto. }
          destruct (IHo ltac:(lia) HMo b j2 subs j' l3 HI2 HF' E3) as (HI3 & outs' & HP3 & Hr3).
          split; [done|]. exists (Some (d, cs) :: outs'). split; [done|].
          rewrite keep_app. simpl. rewrite Hx. simpl. rewrite Hr1. simpl. by rewrite H2, Hr3.
        + simpl in Hs, HM. destruct (jfail j b x) as [j2|] eqn:E2; [|done].
          destruct (jrun_subs b j2 subs outs) as [[j3 l3]|] eqn:E3; [|done].
          injection Hr; intros; subst.
          pose proof (H_fail _ _ _ _ HI E2) as H2. rewrite Hx in H2.
          assert (Inv b j2) as HI2.
          { destruct HI as [HK HG]. destruct (K_fail _ _ _ _ HK E2). tauto. }
          destruct (IHo Hs HM b j2 subs j' l3 HI2 HF' E3) as (HI3 & outs' & HP3 & Hr3).
          split; [done|]. exists (None :: outs'). split; [done|].
          simpl. rewrite Hx. simpl. by rewrite H2, Hr3. }
    assert (Hoth : forall outs : list (option (addr * list (call MJ))),
      (outs_size outs <= n)%nat -> outs_all PJ outs -> forall b j subs j' l,
      Inv b j -> Forall (fun x => osub x = None) subs ->
      jrun_subs b j subs outs = Ok (j', l) ->
      Inv b j' /\ exists cs, calls_all P cs /\
        run_calls handle fail ok b (part j) cs = (part j', olog l)).
    { induction outs as [|o outs IHo]; intros Hs HM b j subs j' l HI HF Hr.
      - simpl in Hr. destruct (jquiet_other _ _ _ _ _ HI HF Hr) as (HI' & -> & ->).
        split; [done|]. exists []. done.
      - simpl in Hr. destruct subs as [|x subs].
        { injection Hr; intros; subst. split; [done|]. exists []. done. }
        inversion HF as [|? ? Hx HF']; subst.
        destruct o as [[d inner]|].
        + simpl in Hs. destruct HM as [HMi HMo].
          destruct (jrun_calls b j inner) as [j1 l1] eqn:E1.
          destruct (jok j1 b x d) as [j2|] eqn:E2; [|done].
          destruct (jrun_subs b j2 subs outs) as [[j3 l3]|] eqn:E3; [|done].
          injection Hr; intros; subst.
          destruct (Hcalls inner ltac:(lia) HMi b j j1 l1 HI E1) as (HI1 & cs & HP1 & Hr1).
          pose proof (H_ok _ _ _ _ _ HI1 E2) as H2. rewrite Hx in H2.
          assert (Inv b j2) as HI2.
          { destruct HI1 as [HK HG]. destruct (K_ok _ _ _ _ _ HK E2). tauto. }
          destruct (IHo ltac:(lia) HMo b j2 subs j' l3 HI2 HF' E3) as (HI3 & cs3 & HP3 & Hr3).
          split; [done|]. exists (cs ++ cs3). split; [by apply calls_all_app|].
          rewrite keep_app. simpl. rewrite Hx. simpl. rewrite H2 in Hr3. by eapply run_calls_app.
        + simpl in Hs, HM. destruct (jfail j b x) as [j2|] eqn:E2; [|done].
          destruct (jrun_subs b j2 subs outs) as [[j3 l3]|] eqn:E3; [|done].
          injection Hr; intros; subst.
          pose proof (H_fail _ _ _ _ HI E2) as H2. rewrite Hx in H2.
          assert (Inv b j2) as HI2.
          { destruct HI as [HK HG]. destruct (K_fail _ _ _ _ HK E2). tauto. }
          destruct (IHo Hs HM b j2 subs j' l3 HI2 HF' E3) as (HI3 & cs3 & HP3 & Hr3).
          split; [done|]. exists cs3. split; [done|].
          simpl. rewrite Hx. simpl. by rewrite H2 in Hr3. }
    destruct c as [a m outs]. rewrite call_size_unfold in Hsz.
    intros b j j' l HI HM Hr. rewrite call_all_unfold in HM. destruct HM as [HMm HMo].
    rewrite run_call_unfold in Hr.
    destruct (jhandle j b a m) as [[j1 subs]|] eqn:E; [|done].
    destruct (jrun_subs b j1 subs outs) as [[j2 l2]|] eqn:E2; [|done].
    injection Hr; intros; subst.
    pose proof (H_call _ _ _ _ _ _ HI HMm E) as H1.
    assert (Inv b j1) as HI1.
    { destruct HI as [HK HG]. destruct (K_call _ _ _ _ _ _ HK HMm E). tauto. }
    destruct (own j b m) as [m'|] eqn:Eo.
    - destruct H1 as (H1 & HP & HF).
      destruct (Hown outs ltac:(lia) HMo b j1 subs j' l2 HI1 HF E2) as (HI2 & outs' & HPo & Hr2).
      split; [done|]. exists [Call a m' outs']. split; [done|].
      simpl keep. rewrite Eo. apply run_calls_one. by rewrite run_call_unfold, H1, Hr2.
    - destruct H1 as (H1 & HF).
      destruct (Hoth outs ltac:(lia) HMo b j1 subs j' l2 HI1 HF E2) as (HI2 & cs & HPo & Hr2).
      split; [done|]. exists cs. split; [done|]. simpl. rewrite Eo. simpl. by rewrite <-H1.
  Qed.

  Lemma project_call c b j j' l :
    Inv b j -> call_all PJ c -> jrun_call b j c = Ok (j', l) ->
    Inv b j' /\ exists cs, calls_all P cs /\
      run_calls handle fail ok b (part j) cs = (part j', olog l).
  Proof. apply (project_call_n (call_size c)). lia. Qed.

  (** Going back: what is true of the answers at the end was true before. *)
  Lemma project_back c b j j' l :
    K b j -> call_all PJ c -> jrun_call b j c = Ok (j', l) -> K b j' /\ (G b j <-> G b j').
  Proof.
    intros HK HM Hr.
    assert ((b = b /\ K b j') /\ (G b j <-> G b j')) as H; [|tauto].
    apply (run_call_rule jhandle jfail jok PJ (fun b' j => b' = b /\ K b j)
      (fun j _ j' => G b j <-> G b j') (fun _ _ _ => True)) with (c := c) (l := l); try done.
    - intros s0 l1 s1 l2 s2 A B. tauto.
    - intros b' s a m s' subs [-> HK0] HP Hh. destruct (K_call _ _ _ _ _ _ HK0 HP Hh). tauto.
    - intros b' s x subs s' [-> HK0] _ Hh. destruct (K_fail _ _ _ _ HK0 Hh). tauto.
    - intros b' s x subs l1 s1 d s' [-> HK0] _ [_ HK1] _ Hh. destruct (K_ok _ _ _ _ _ HK1 Hh). tauto.
  Qed.

  Hypothesis K_time : forall b b' j, block_le b b' -> K b j -> K b' j.
  Hypothesis G_time : forall b b' j, block_le b b' -> K b j -> G b' j -> G b j.

  Lemma project_hist_back h : forall b0 j j' l,
    K b0 j -> hist_ok b0 h -> hist_all PJ h -> run_hist jhandle jfail jok j h = (j', l) ->
    K (hist_end b0 h) j' /\ (G (hist_end b0 h) j' -> G b0 j).
  Proof.
    induction h as [|[b c] h IH]; intros b0 j j' l HK Hh HM Hr; simpl in *.
    - injection Hr; intros; subst. done.
    - destruct Hh as [Hle Hh]. inversion HM as [|? ? HMc HMh]; subst; simpl in HMc.
      pose proof (K_time _ _ _ Hle HK) as HKb.
      destruct (jrun_call b j c) as [[j1 l1]|] eqn:E.
      + destruct (run_hist jhandle jfail jok j1 h) as [j2 l2] eqn:E2. injection Hr; intros; subst.
        destruct (project_back _ _ _ _ _ HKb HMc E) as [HK1 HG].
        destruct (IH _ _ _ _ HK1 Hh HMh E2) as [HK2 HG2]. split; [done|].
        intros HG'. apply (G_time b0 b); [done..|]. tauto.
      + destruct (IH _ _ _ _ HKb Hh HMh Hr) as [HK2 HG2]. split; [done|].
        intros HG'. apply (G_time b0 b); [done..|]. tauto.
  Qed.

  Lemma project_hist h : forall b0 j j' l,
    K b0 j -> hist_ok b0 h -> hist_all PJ h -> run_hist jhandle jfail jok j h = (j', l) ->
    G (hist_end b0 h) j' ->
    exists h', hist_ok b0 h' /\ hist_all P h' /\ block_le (hist_end b0 h') (hist_end b0 h) /\
      run_hist handle fail ok (part j) h' = (part j', olog l).
  Proof.
    induction h as [|[b c] h IH]; intros b0 j j' l HK Hh HM Hr HG; simpl in *.
    - injection Hr; intros; subst. exists []. split; [done|]. split; [by constructor|]. split; [apply block_le_refl|done].
    - destruct Hh as [Hle Hh]. inversion HM as [|? ? HMc HMh]; subst; simpl in HMc.
      pose proof (K_time _ _ _ Hle HK) as HKb.
      assert (forall h' : list (block * call M), hist_ok b h' -> hist_ok b0 h') as Hearly.
      { intros [|[b1 c1] h'] H; simpl in *; [done|]. destruct H. split; [|done].
        by eapply block_le_trans. }
      assert (forall h' : list (block * call M), hist_ok b h' -> block_le (hist_end b h') (hist_end b h) ->
        block_le (hist_end b0 h') (hist_end b h)) as Hend.
      { intros [|[b1 c1] h'] Ho H; simpl in *; [|done]. by eapply block_le_trans. }
      destruct (jrun_call b j c) as [[j1 l1]|] eqn:E.
      + destruct (run_hist jhandle jfail jok j1 h) as [j2 l2] eqn:E2. injection Hr; intros; subst.
        destruct (project_back _ _ _ _ _ HKb HMc E) as [HK1 HG1].
        destruct (project_hist_back _ _ _ _ _ HK1 Hh HMh E2) as [HK2 HG2].
        destruct (IH _ _ _ _ HK1 Hh HMh E2 HG) as (h' & Hh' & HP & He & Hr').
        assert (Inv b j) as HI by tauto.
        destruct (project_call _ _ _ _ _ HI HMc E) as (_ & cs & HPc & Hrc).
        exists (map (fun c => (b, c)) cs ++ h').
        pose proof (hist_ok_calls b cs h' Hh') as Hok.
        split; [by apply Hearly|]. split.
        { apply Forall_app. split; [|done]. apply Forall_fmap. simpl.
          by apply calls_all_forall. }
        split; [apply Hend; [done|by rewrite hist_end_calls]|].
        rewrite keep_app. by eapply run_hist_calls.
      + destruct (IH _ _ _ _ HKb Hh HMh Hr HG) as (h' & Hh' & HP & He & Hr').
        exists h'. split; [by apply Hearly|]. split; [done|]. split; [by apply Hend|done].
  Qed.
End project.
