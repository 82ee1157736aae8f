(** A joint history seen by the proposal module is a history under the answers of
    the voting module's final state; seen by the voting module it is one of its own
    histories. *)
From Verif Require Import Base BaseProofs Exec ExecProofs Plain PlainProofs Compose Project.

Section pair.
  Context {S M X O : Type}.
  Variable handle_p : O -> S -> block -> addr -> M -> result (S * list X).
  Variable fail_p : S -> block -> X -> result S.
  Variable ok_p : S -> block -> X -> addr -> result S.
  Context {T MV XV : Type}.
  Variable handle_v : T -> block -> addr -> MV -> result (T * list XV).
  Variable ask : T -> O.
  Context {MJ : Type}.
  Variable look : T -> block -> MJ -> M.
  Notation jrun := (run_hist (pair_handle handle_p handle_v ask look)
    (pair_fail (XV := XV) fail_p) (pair_ok (XV := XV) ok_p)).

  (** Equal answers about the blocks up to the current one. *)
  Variable agree : block -> O -> O -> Prop.
  Hypothesis agree_sym : forall b o o', agree b o o' -> agree b o' o.
  Hypothesis agree_trans : forall b o o' o'', agree b o o' -> agree b o' o'' -> agree b o o''.
  Hypothesis agree_time : forall b b' o o', block_le b b' -> agree b' o o' -> agree b o o'.
  Hypothesis V_call : forall b t a m t' subs,
    handle_v t b a m = Ok (t', subs) -> agree b (ask t) (ask t').
  Variable KP : block -> S -> Prop.
  Hypothesis KP_call : forall o b s a m s' subs,
    KP b s -> handle_p o s b a m = Ok (s', subs) -> KP b s'.
  Hypothesis KP_fail : forall b s x s', KP b s -> fail_p s b x = Ok s' -> KP b s'.
  Hypothesis KP_ok : forall b s x d s', KP b s -> ok_p s b x d = Ok s' -> KP b s'.
  Hypothesis KP_time : forall b b' s, block_le b b' -> KP b s -> KP b' s.
  Hypothesis KP_agree : forall b s o o' a m,
    KP b s -> agree b o o' -> handle_p o s b a m = handle_p o' s b a m.

  Lemma keep_inl {A B} (f : A + B -> option A) (l : list A) :
    (forall x, f (inl x) = Some x) -> keep f (map inl l) = l.
  Proof. intros Hf. induction l; simpl; [done|]. by rewrite Hf, IHl. Qed.
  Lemma keep_inr {A B} (f : A + B -> option B) (l : list B) :
    (forall x, f (inr x) = Some x) -> keep f (map inr l) = l.
  Proof. intros Hf. induction l; simpl; [done|]. by rewrite Hf, IHl. Qed.

  Lemma keep_ext {A B} (f g : A -> option B) l : (forall x, f x = g x) -> keep f l = keep g l.
  Proof. intros H. induction l as [|x l IH]; simpl; [done|]. by rewrite H, IH. Qed.

  Lemma pair_seen_p (P : addr -> M -> Prop) h b0 s t s' t' l o :
    KP b0 s -> hist_ok b0 h -> hist_all (pair_msg look P) h -> jrun (s, t) h = ((s', t'), l) ->
    agree (hist_end b0 h) o (ask t') ->
    exists h', hist_ok b0 h' /\ hist_all P h' /\ block_le (hist_end b0 h') (hist_end b0 h) /\
      run_hist (handle_p o) fail_p ok_p s h' = (s', seen_p look l).
  Proof.
    intros HK Hh HM Hr HG.
    pose (own := fun (j : S * T) (b : block) (m : MJ + MV) => match m with inl m => Some (look j.2 b m) | inr _ => None end).
    pose (osub := fun x : X + XV => match x with inl a => Some a | inr _ => None end).
    assert (seen_p look l = keep (oev fst own osub) l) as ->.
    { unfold seen_p. apply keep_ext. intros [[s1 t1] b a [m|m] [s2 t2] subs|[s1 t1] b [x|x] k [s2 t2]]; done. }
    apply (project_hist (pair_handle handle_p handle_v ask look) (pair_fail fail_p) (pair_ok ok_p)
      (handle_p o) fail_p ok_p fst own osub (pair_msg look P) P
      (fun b j => KP b j.1) (fun b j => agree b o (ask j.2))) with (j := (s, t)) (j' := (s', t'));
      try done.
    - intros b [s1 t1] a [m|m] j' subs HK1 HP Hc; simpl in *.
      + destruct (handle_p (ask t1) s1 b a (look t1 b m)) as [[s2 u]|] eqn:E; [|done].
        injection Hc as <- <-. simpl. split; [by eapply KP_call|done].
      + destruct (handle_v t1 b a m) as [[t2 u]|] eqn:E; [|done].
        injection Hc as <- <-. simpl. split; [done|]. apply V_call in E.
        split; eauto.
    - intros b [s1 t1] [x|x] j' HK1 Hc; simpl in *; [|done].
      destruct (fail_p s1 b x) as [s2|] eqn:E; [|done]. injection Hc as <-. simpl. eauto.
    - intros b [s1 t1] [x|x] d j' HK1 Hc; simpl in *.
      + destruct (ok_p s1 b x d) as [s2|] eqn:E; [|done]. injection Hc as <-. simpl. eauto.
      + injection Hc as <-. done.
    - intros b [s1 t1] a [m|m] j' subs [HK1 HG1] HP Hc; simpl in *.
      + destruct (handle_p (ask t1) s1 b a (look t1 b m)) as [[s2 u]|] eqn:E; [|done].
        injection Hc as <- <-. simpl. rewrite keep_inl by done.
        split; [by rewrite (KP_agree _ _ _ (ask t1)) by eauto|]. split; [apply HP|].
        apply Forall_fmap, Forall_true. simpl. eauto.
      + destruct (handle_v t1 b a m) as [[t2 u]|] eqn:E; [|done].
        injection Hc as <- <-. simpl. split; [done|]. by apply Forall_fmap, Forall_true.
    - intros b [s1 t1] [x|x] j' [HK1 HG1] Hc; simpl in *; [|done].
      destruct (fail_p s1 b x) as [s2|] eqn:E; [|done]. injection Hc as <-. done.
    - intros b [s1 t1] [x|x] d j' [HK1 HG1] Hc; simpl in *.
      + destruct (ok_p s1 b x d) as [s2|] eqn:E; [|done]. injection Hc as <-. done.
      + injection Hc as <-. done.
    - intros b b' [s1 t1] Hle. simpl. by apply KP_time.
    - intros b b' [s1 t1] Hle _ HG1. simpl in *. by eapply agree_time.
  Qed.

  Lemma pair_seen_v h b0 s t s' t' l :
    hist_ok b0 h -> jrun (s, t) h = ((s', t'), l) ->
    leads handle_v b0 t (hist_end b0 h) t' (seen_v l).
  Proof.
    intros Hh Hr.
    pose (own := fun (j : S * T) (b : block) (m : MJ + MV) => match m with inr m => Some m | inl _ => None end).
    pose (osub := fun x : X + XV => match x with inr a => Some a | inl _ => None end).
    assert (seen_v l = keep (oev snd own osub) l) as ->.
    { unfold seen_v. apply keep_ext. intros [[s1 t1] b a [m|m] [s2 t2] subs|[s1 t1] b [x|x] k [s2 t2]]; done. }
    destruct (project_hist (pair_handle handle_p handle_v ask look) (pair_fail fail_p) (pair_ok ok_p)
      handle_v no_fail no_reply snd own osub any_msg any_msg
      (fun _ _ => True) (fun _ _ => True)) with (h := h) (b0 := b0) (j := (s, t)) (j' := (s', t')) (l := l)
      as (h' & H1 & _ & H3 & H4);
      try done; try apply hist_all_any.
    - intros b [s1 t1] a [m|m] j' subs [HK1 HG1] HP Hc; simpl in *.
      + destruct (handle_p (ask t1) s1 b a (look t1 b m)) as [[s2 u]|] eqn:E; [|done].
        injection Hc as <- <-. simpl. split; [done|]. by apply Forall_fmap, Forall_true.
      + destruct (handle_v t1 b a m) as [[t2 u]|] eqn:E; [|done].
        injection Hc as <- <-. simpl. rewrite keep_inr by done. split; [done|]. split; [done|].
        apply Forall_fmap, Forall_true. simpl. eauto.
    - intros b [s1 t1] [x|x] j' [HK1 HG1] Hc; simpl in *; [|done].
      destruct (fail_p s1 b x) as [s2|] eqn:E; [|done]. injection Hc as <-. done.
    - intros b [s1 t1] [x|x] d j' [HK1 HG1] Hc; simpl in *.
      + destruct (ok_p s1 b x d) as [s2|] eqn:E; [|done]. injection Hc as <-. done.
      + injection Hc as <-. done.
    - exists h'. done.
  Qed.

  (** Within a joint history the answers about earlier blocks do not change. *)
  Lemma pair_agree h b0 s t s' t' l :
    (forall b o, agree b o o) -> hist_ok b0 h -> jrun (s, t) h = ((s', t'), l) ->
    agree b0 (ask t) (ask t').
  Proof.
    intros Hrefl Hh Hr. pose proof (pair_seen_v _ _ _ _ _ _ _ Hh Hr) as HL.
    revert HL. generalize (hist_end b0 h) (seen_v l). clear Hh Hr.
    intros b lv HL.
    apply (leads_rel_from handle_v (fun _ _ => True) ltac:(done) ltac:(done)
      (fun t t' => agree b0 (ask t) (ask t')) b0 t b t' lv); eauto.
  Qed.

  (** *** Reachable joint states *)
  Variable vreached : block -> T -> log T MV XV -> Prop.
  Hypothesis v_app : forall b t l b' t' l',
    vreached b t l -> leads handle_v b t b' t' l' -> vreached b' t' (l ++ l').
  Variable init : S -> Prop.
  Hypothesis KP_init : forall b s, init s -> KP b s.
  Hypothesis agree_refl : forall b o, agree b o o.
  Variable P : addr -> M -> Prop.
  Notation jlog := (log (S * T) (MJ + MV) (X + XV)).
  Definition pair_reached (b : block) (s : S) (t : T) (l : jlog) : Prop :=
    exists b0 s0 t0 l0 h, vreached b0 t0 l0 /\ init s0 /\ hist_ok b0 h /\
      hist_all (pair_msg look P) h /\ jrun (s0, t0) h = ((s, t), l) /\ block_le (hist_end b0 h) b.
  Definition pair_later (b : block) (s : S) (t : T) (b' : block) (s' : S) (t' : T) (l : jlog) : Prop :=
    exists h, hist_ok b h /\ hist_all (pair_msg look P) h /\
      jrun (s, t) h = ((s', t'), l) /\ block_le (hist_end b h) b'.
  (** The same for the proposal module alone. *)
  Definition part_reached (o : O) (b : block) (s : S) (l : log S M X) : Prop :=
    exists b0 s0 h, init s0 /\ hist_ok b0 h /\ hist_all P h /\
      run_hist (handle_p o) fail_p ok_p s0 h = (s, l) /\ block_le (hist_end b0 h) b.
  Definition part_later (o : O) (b : block) (s : S) (b' : block) (s' : S) (l : log S M X) : Prop :=
    exists h, hist_ok b h /\ hist_all P h /\
      run_hist (handle_p o) fail_p ok_p s h = (s', l) /\ block_le (hist_end b h) b'.

  Lemma pair_votes b s t l : pair_reached b s t l -> exists l0, vreached b t (l0 ++ seen_v l).
  Proof.
    intros (b0 & s0 & t0 & l0 & h & HV & Hi & Hh & HM & Hr & Hb). exists l0.
    eapply v_app; [exact HV|]. eapply leads_later; [|exact Hb]. by eapply pair_seen_v.
  Qed.
  Lemma pair_part b s t l o : pair_reached b s t l -> agree b o (ask t) ->
    part_reached o b s (seen_p look l).
  Proof.
    intros (b0 & s0 & t0 & l0 & h & HV & Hi & Hh & HM & Hr & Hb) HA.
    destruct (pair_seen_p P h b0 s0 t0 s t l o) as (h' & H1 & H2 & H3 & H4); [eauto..|].
    exists b0, s0, h'. eauto 10 using block_le_trans.
  Qed.
  Lemma pair_app b s t l b' s' t' l' :
    pair_reached b s t l -> pair_later b s t b' s' t' l' -> pair_reached b' s' t' (l ++ l').
  Proof.
    intros (b0 & s0 & t0 & l0 & h & HV & Hi & Hh & HM & Hr & Hb) (h2 & Hh2 & HM2 & Hr2 & Hb2).
    exists b0, s0, t0, l0, (h ++ h2). split; [done|]. split; [done|].
    split. { apply hist_ok_app. split; [done|]. by eapply hist_ok_earlier. }
    split. { by apply Forall_app. }
    split. { rewrite run_hist_app, Hr. cbn. by rewrite Hr2. }
    rewrite hist_end_app. destruct h2 as [|[b2 c2] h2]; simpl in *; [|done].
    by eapply block_le_trans.
  Qed.
  Lemma pair_later_agree b s t b' s' t' l' :
    pair_later b s t b' s' t' l' -> agree b (ask t) (ask t').
  Proof. intros (h2 & Hh2 & HM2 & Hr2 & Hb2). by eapply pair_agree. Qed.
  Lemma pair_later_leads b s t b' s' t' l' :
    pair_later b s t b' s' t' l' -> leads handle_v b t b' t' (seen_v l').
  Proof.
    intros (h2 & Hh2 & HM2 & Hr2 & Hb2). eapply leads_later; [|exact Hb2].
    by eapply pair_seen_v.
  Qed.
  Lemma part_later_of b s t b' s' t' l' o :
    KP b s -> pair_later b s t b' s' t' l' -> agree b' o (ask t') ->
    part_later o b s b' s' (seen_p look l').
  Proof.
    intros HK (h2 & Hh2 & HM2 & Hr2 & Hb2) HA.
    destruct (pair_seen_p P h2 b s t s' t' l' o) as (h' & H1 & H2 & H3 & H4); [eauto..|].
    exists h'. eauto using block_le_trans.
  Qed.
End pair.
