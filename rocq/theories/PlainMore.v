(** More about histories of plain contracts: what holds at a call inside the log. *)
From Verif Require Import Base BaseProofs Exec ExecProofs Plain PlainProofs.

Section at_call.
  Context {State Msg Sub : Type}.
  Variable handle : State -> block -> addr -> Msg -> result (State * list Sub).
  Notation leads := (leads handle).
  Notation log := (log State Msg Sub).
  Variable P : block -> State -> log -> Prop.
  Hypothesis P_call : forall b s l a m s' subs,
    P b s l -> handle s b a m = Ok (s', subs) -> P b s' (l ++ [ECall s b a m s' subs]).
  Hypothesis P_sub : forall b s l x, P b s l -> P b s (l ++ [ESub s b x true s]).
  Hypothesis P_time : forall b b' s l, P b s l -> block_le b b' -> P b' s l.

  (** What holds of every state and log holds before a call in the log. *)
  Lemma leads_at b0 s0 b s l1 pre b1 a m post subs l2 :
    P b0 s0 [] -> leads b0 s0 b s (l1 ++ ECall pre b1 a m post subs :: l2) ->
    P b1 pre l1 /\ handle pre b1 a m = Ok (post, subs).
  Proof.
    intros H0 HL.
    set (Q := fun b s (l : log) => P b s l /\ forall l1 pre b1 a m post subs l2,
      l = l1 ++ ECall pre b1 a m post subs :: l2 ->
      P b1 pre l1 /\ handle pre b1 a m = Ok (post, subs)).
    enough (Q b s (l1 ++ ECall pre b1 a m post subs :: l2)) as [_ H] by by eapply H.
    revert HL. apply (leads_ind handle Q).
    - intros b2 s2 l a2 m2 s' subs2 [A B] Hh. split; [by apply P_call|].
      intros l3 pre3 b3 a3 m3 post3 subs3 l4 E.
      destruct l4 as [|x l4 _] using rev_ind.
      + apply app_inj_tail in E as [<- E]. injection E as -> -> -> -> -> ->. done.
      + rewrite app_comm_cons, (assoc_L (++)) in E. apply app_inj_tail in E as [-> _].
        by eapply B.
    - intros b2 s2 l x [A B]. split; [by apply P_sub|].
      intros l3 pre3 b3 a3 m3 post3 subs3 l4 E.
      destruct l4 as [|y l4 _] using rev_ind.
      + apply app_inj_tail in E as [_ E]. done.
      + rewrite app_comm_cons, (assoc_L (++)) in E. apply app_inj_tail in E as [-> _].
        by eapply B.
    - intros b2 b3 s2 l [A B] Hb. split; [by eapply P_time|done].
    - split; [done|]. intros l3 pre3 b3 a3 m3 post3 subs3 l4 E. by destruct l3.
  Qed.
End at_call.
