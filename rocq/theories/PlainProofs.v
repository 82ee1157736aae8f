(** Induction over histories of a plain contract. *)
From Verif Require Import Base BaseProofs Exec ExecProofs Plain.

Section plain.
  Context {State Msg Sub : Type}.
  Variable handle : State -> block -> addr -> Msg -> result (State * list Sub).
  Notation leads := (leads handle).
  Notation event := (event State Msg Sub).
  Notation log := (log State Msg Sub).
  Notation trace := (trace handle no_fail no_reply).
  Implicit Types (b : block) (s : State) (l : log).

  Lemma hist_ok_app b0 (h h' : list (block * call Msg)) :
    hist_ok b0 (h ++ h') <-> hist_ok b0 h /\ hist_ok (hist_end b0 h) h'.
  Proof.
    revert b0. induction h as [|[b c] h IH]; intros b0; simpl; [tauto|]. rewrite IH. tauto.
  Qed.
  Lemma hist_end_app b0 (h h' : list (block * call Msg)) :
    hist_end b0 (h ++ h') = hist_end (hist_end b0 h) h'.
  Proof. revert b0. induction h as [|[b c] h IH]; intros b0; simpl; [done|apply IH]. Qed.
  Lemma run_hist_app (f : State -> block -> Sub -> result State)
      (g : State -> block -> Sub -> addr -> result State) s h h' :
    run_hist handle f g s (h ++ h') =
    let '(s1, l1) := run_hist handle f g s h in
    let '(s2, l2) := run_hist handle f g s1 h' in (s2, l1 ++ l2).
  Proof.
    revert s. induction h as [|[b c] h IH]; intros s; simpl.
    - by destruct (run_hist handle f g s h').
    - destruct (run_call handle f g b s c) as [[s1 l1]|]; [|apply IH].
      rewrite IH. destruct (run_hist handle f g s1 h) as [s2 l2].
      destruct (run_hist handle f g s2 h') as [s3 l3]. by rewrite (assoc_L (++)).
  Qed.
  Lemma hist_ok_earlier b b0 (h : list (block * call Msg)) :
    block_le b b0 -> hist_ok b0 h -> hist_ok b h.
  Proof. destruct h as [|[b1 c] h]; simpl; [done|]. intros ? [? ?]. eauto using block_le_trans. Qed.
  Lemma hist_end_ge b0 (h : list (block * call Msg)) : hist_ok b0 h -> block_le b0 (hist_end b0 h).
  Proof.
    revert b0. induction h as [|[b c] h IH]; intros b0; simpl; [intros; apply block_le_refl|].
    intros [? ?]. eauto using block_le_trans.
  Qed.
  Lemma hist_end_cons_eq b b0 (h : list (block * call Msg)) :
    h <> [] -> hist_end b h = hist_end b0 h.
  Proof. by destruct h as [|[b1 c] h]. Qed.

  Lemma leads_refl b0 s b : block_le b0 b -> leads b0 s b s [].
  Proof. intros. exists []. simpl. eauto. Qed.
  Lemma leads_later b0 s0 b s l b' : leads b0 s0 b s l -> block_le b b' -> leads b0 s0 b' s l.
  Proof. intros (h & A & B & C) ?. exists h. eauto using block_le_trans. Qed.
  Lemma leads_earlier b b0 s0 b1 s l : leads b0 s0 b1 s l -> block_le b b0 -> leads b s0 b1 s l.
  Proof.
    intros (h & A & B & C) Hb. exists h. split; [by eapply hist_ok_earlier|]. split; [done|].
    destruct h as [|[b2 c] h]; simpl in *; eauto using block_le_trans.
  Qed.
  Lemma leads_le b0 s0 b s l : leads b0 s0 b s l -> block_le b0 b.
  Proof. intros (h & A & B & C). eauto using block_le_trans, hist_end_ge. Qed.
  Lemma leads_app b0 s0 b1 s1 l1 b2 s2 l2 :
    leads b0 s0 b1 s1 l1 -> leads b1 s1 b2 s2 l2 -> leads b0 s0 b2 s2 (l1 ++ l2).
  Proof.
    intros (h & A & B & C) H2.
    pose proof (leads_earlier _ _ _ _ _ _ H2 C) as (h' & A' & B' & C').
    exists (h ++ h'). split; [by apply hist_ok_app|].
    split; [by rewrite run_hist_app, B, B'|]. by rewrite hist_end_app.
  Qed.

  (** The induction principle: a property of the state together with the log of
      what happened so far. *)
  Variable P : block -> State -> log -> Prop.
  Hypothesis P_call : forall b s l a m s' subs,
    P b s l -> handle s b a m = Ok (s', subs) -> P b s' (l ++ [ECall s b a m s' subs]).
  Hypothesis P_sub : forall b s l x, P b s l -> P b s (l ++ [ESub s b x true s]).
  Hypothesis P_time : forall b b' s l, P b s l -> block_le b b' -> P b' s l.

  Lemma trace_ind_app M Inv Pend b0 s0 l0 b s l :
    P b0 s0 l0 -> trace M Inv Pend b0 s0 l b s -> P b s (l0 ++ l).
  Proof.
    intros HP HT. revert l0 HP.
    induction HT as [b0 b1 s Hb|b0 s e l b1 s' Hb Hpre Hl HT IH]; intros l0 HP.
    - rewrite app_nil_r. eauto.
    - replace (l0 ++ e :: l) with ((l0 ++ [e]) ++ l) by by rewrite <-(assoc_L (++)).
      apply IH. destruct Hl as (_ & _ & Hl).
      pose proof (P_time _ _ _ _ HP Hb) as HP'. destruct e as [pre b a m post subs|pre b x ok post]; simpl in *; subst.
      + destruct Hl as [_ Hl]. by apply P_call.
      + destruct ok; [|by destruct Hl as [_ Hl]]. destruct Hl as (_ & d & Hl).
        unfold no_reply in Hl. injection Hl as <-. by apply P_sub.
  Qed.
  Lemma leads_trace b0 s0 b s l :
    leads b0 s0 b s l ->
    trace any_msg (fun _ _ => True) (fun _ _ _ => True) b0 s0 l b s.
  Proof.
    intros (h & A & B & C).
    destruct (run_hist_trace handle no_fail no_reply any_msg (fun _ _ => True) (fun _ _ _ => True)
                ltac:(eauto) ltac:(eauto) ltac:(eauto) ltac:(eauto) ltac:(eauto) ltac:(eauto)
                ltac:(eauto) h b0 s0 s l I A (hist_all_any h) B) as [_ HT].
    replace l with (l ++ []) by apply app_nil_r. eapply trace_app; [exact HT|]. by constructor.
  Qed.
  Lemma leads_ind b0 s0 b s l : P b0 s0 [] -> leads b0 s0 b s l -> P b s l.
  Proof. intros HP HL. apply leads_trace in HL. by eapply (trace_ind_app _ _ _ _ _ []). Qed.
End plain.

Section inv.
  Context {State Msg Sub : Type}.
  Variable handle : State -> block -> addr -> Msg -> result (State * list Sub).
  Notation leads := (leads handle).
  Notation log := (log State Msg Sub).
  Variable Inv : block -> State -> Prop.
  Hypothesis I_call : forall b s a m s' subs,
    Inv b s -> handle s b a m = Ok (s', subs) -> Inv b s'.
  Hypothesis I_time : forall b b' s, Inv b s -> block_le b b' -> Inv b' s.

  Lemma leads_inv b0 s0 b s (l : log) : Inv b0 s0 -> leads b0 s0 b s l -> Inv b s.
  Proof.
    intros HI HL. revert HI HL. apply (leads_ind handle (fun b s _ => Inv b s)); eauto.
  Qed.
  (** Every committed call was handled in a state satisfying the invariant. *)
  Lemma leads_call b0 s0 b s (l : log) :
    Inv b0 s0 -> leads b0 s0 b s l ->
    forall pre b1 a m post subs, ECall pre b1 a m post subs ∈ l ->
      Inv b1 pre /\ handle pre b1 a m = Ok (post, subs) /\ block_le b0 b1 /\ block_le b1 b.
  Proof.
    intros HI HL.
    enough (Inv b s /\ block_le b0 b /\ forall pre b1 a m post subs, ECall pre b1 a m post subs ∈ l ->
      Inv b1 pre /\ handle pre b1 a m = Ok (post, subs) /\ block_le b0 b1 /\ block_le b1 b)
      as (_ & _ & H) by exact H.
    revert HL. apply (leads_ind handle (fun b s l => Inv b s /\ block_le b0 b /\
      forall pre b1 a m post subs, ECall pre b1 a m post subs ∈ l ->
      Inv b1 pre /\ handle pre b1 a m = Ok (post, subs) /\ block_le b0 b1 /\ block_le b1 b)).
    - intros b2 s2 l2 a m s' subs (A & B & C) Hh. split; [eauto|]. split; [done|].
      intros pre b1 a1 m1 post subs1 [Hin|Hin]%elem_of_app; [by apply C|].
      apply elem_of_list_singleton in Hin. injection Hin as -> -> -> -> -> ->.
      repeat split; eauto; apply block_le_refl || apply B || lia.
    - intros b2 s2 l2 x (A & B & C). split; [done|]. split; [done|].
      intros pre b1 a1 m1 post subs1 [Hin|Hin]%elem_of_app; [by apply C|].
      apply elem_of_list_singleton in Hin. done.
    - intros b2 b' s2 l2 (A & B & C) Hb. split; [eauto|]. split; [eauto using block_le_trans|].
      intros ?????? Hin. destruct (C _ _ _ _ _ _ Hin) as (? & ? & ? & ?).
      eauto 6 using block_le_trans.
    - split; [done|]. split; [apply block_le_refl|]. intros ?????? Hin. by apply elem_of_nil in Hin.
  Qed.
  Lemma leads_post b0 s0 b s (l : log) :
    Inv b0 s0 -> leads b0 s0 b s l ->
    forall pre b1 a m post subs, ECall pre b1 a m post subs ∈ l -> Inv b1 post.
  Proof.
    intros HI HL pre b1 a m post subs Hin.
    destruct (leads_call _ _ _ _ _ HI HL _ _ _ _ _ _ Hin) as (A & B & _). eauto.
  Qed.
  (** A preorder that every call respects. *)
  Lemma leads_rel (R : State -> State -> Prop) b0 s0 b s (l : log) :
    (forall s, R s s) -> (forall x y z, R x y -> R y z -> R x z) ->
    (forall b s a m s' subs, Inv b s -> handle s b a m = Ok (s', subs) -> R s s') ->
    Inv b0 s0 -> leads b0 s0 b s l -> R s0 s.
  Proof.
    intros Hr Ht Hs HI HL.
    enough (Inv b s /\ R s0 s) by tauto. revert HL.
    apply (leads_ind handle (fun b s _ => Inv b s /\ R s0 s)); naive_solver.
  Qed.
  (** The same, for calls in blocks not before [b0]. *)
  Lemma leads_rel_from (R : State -> State -> Prop) b0 s0 b s (l : log) :
    (forall s, R s s) -> (forall x y z, R x y -> R y z -> R x z) ->
    (forall b s a m s' subs, block_le b0 b -> Inv b s -> handle s b a m = Ok (s', subs) -> R s s') ->
    Inv b0 s0 -> leads b0 s0 b s l -> R s0 s.
  Proof.
    intros Hr Ht Hs HI HL.
    enough (block_le b0 b /\ Inv b s /\ R s0 s) by tauto. revert HL.
    apply (leads_ind handle (fun b s _ => block_le b0 b /\ Inv b s /\ R s0 s)).
    - naive_solver.
    - naive_solver.
    - naive_solver eauto using block_le_trans.
    - split; [apply block_le_refl|]. naive_solver.
  Qed.
End inv.
