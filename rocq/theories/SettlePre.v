(** What a pre-propose module does with coins, message by message, whatever the proposal module. *)
From Verif Require Import Base BaseProofs Exec ExecProofs VotingModel HooksModel SingleModel
  SingleSpec PreModel PreSpec PreProofs PreJoint PreClaims SettleModel SettleSpec SettleOwed.

(** ** Coins that arrive *)
Lemma receive_coins_add l : forall h d, receive_coins h l d = h d + receive_coins (fun _ => 0) l d.
Proof.
  unfold receive_coins. induction l as [|c l IH]; intros h d; cbn [fold_left]; [lia|].
  rewrite IH. rewrite (IH (receive (fun _ => 0) (Native c.1) c.2)).
  unfold receive. destruct (decide _); lia.
Qed.
Lemma receive_coins_nonneg l d :
  Forall (fun c : N * Z => 0 <= c.2) l -> 0 <= receive_coins (fun _ => 0) l d.
Proof.
  induction 1 as [|c l Hc _ IH]; [unfold receive_coins; cbn; lia|].
  unfold receive_coins. cbn [fold_left].
  pose proof (receive_coins_add l (receive (fun _ => 0) (Native c.1) c.2) d) as E.
  unfold receive_coins in *. rewrite E. unfold receive at 1. destruct (decide _); lia.
Qed.

Definition pay1 (h : denom -> Z) (p : paid) (y : N) : Z :=
  if decide (pd_denom p = Native y) then h (Native y) - pd_amount p else h (Native y).
Lemma spend_all_one h p h' :
  spend_all h [p] = Ok h' -> h' = receive h (pd_denom p) (- pd_amount p).
Proof.
  cbn [spend_all]. unfold spend. destruct (_ <=? _); [|discriminate]. by intros [= <-].
Qed.
Lemma receive_pay1 h p y : receive h (pd_denom p) (- pd_amount p) (Native y) = pay1 h p y.
Proof.
  unfold receive, pay1. destruct (decide _) as [E|E], (decide _) as [E'|E']; try lia; congruence.
Qed.

Lemma withdraw_denom q e a m q' subs dn to n :
  qinv q -> a <> q_module q -> pre_handle q e a m = Ok (q', subs) -> XPay RWithdraw dn to n ∈ subs ->
  exists d, m = PWithdraw d /\
    match d with Some d => d = dn | None => exists c, q_deposit q = Some c /\ d_denom c = dn end.
Proof.
  intros Hq Ha H Hx. destruct m; cbn [pre_handle] in H.
  - exfalso. destruct (q_kind q) eqn:Ek.
    + apply pre_propose_shape in H as (takes & _ & Hd & _ & ->); [|done].
      apply elem_of_cons in Hx as [?|Hx]; [done|]. apply elem_of_app in Hx as [Hx|Hx].
      * apply elem_of_list_In, in_map_iff in Hx as (? & ? & _). done.
      * eapply takes_only in Hx as (? & ? & ?); [|exact Hd]. done.
    + apply appr_propose_shape in H as (takes & _ & Hd & _ & ->).
      apply elem_of_app in Hx as [Hx|Hx].
      * eapply takes_only in Hx as (? & ? & ?); [|exact Hd]. done.
      * apply elem_of_list_In, in_map_iff in Hx as (? & ? & _). done.
  - exfalso. unfold pre_update_config in H. res_inv H; by apply elem_of_nil in Hx.
  - exfalso. unfold pre_update_policy in H. res_inv H; by apply elem_of_nil in Hx.
  - unfold pre_withdraw in H. destruct (a =? q_dao q)%N; [|discriminate].
    exists d. split; [done|]. destruct d as [d|].
    + destruct (negb _); [|discriminate]. injection H as _ <-.
      apply elem_of_list_singleton in Hx. by injection Hx.
    + destruct (q_deposit q) as [c|]; cbn [option_map] in H; [|discriminate].
      destruct (negb _); [|discriminate]. injection H as _ <-.
      apply elem_of_list_singleton in Hx. injection Hx as E _ _. eauto.
  - exfalso. unfold pre_add_hook in H. res_inv H; by apply elem_of_nil in Hx.
  - exfalso. unfold pre_remove_hook in H. res_inv H; by apply elem_of_nil in Hx.
  - exfalso. unfold pre_completed in H. destruct (a =? q_module q)%N eqn:E; [|discriminate].
    by apply N.eqb_eq in E.
  - exfalso. destruct (q_kind q); [discriminate|]. unfold appr_approve in H. destruct (_ =? _)%N; [|discriminate].
    destruct (q_pending q !! id); [|discriminate]. injection H as <- <-.
    by apply elem_of_list_singleton in Hx.
  - exfalso. destruct (q_kind q); [discriminate|]. unfold appr_reject in H. destruct (_ =? _)%N; [|discriminate].
    destruct (q_pending q !! id) as [p|]; [|discriminate]. injection H as <- <-.
    destruct (a_deposit p) as [d|]; [|by apply elem_of_nil in Hx].
    apply returns_only in Hx. discriminate.
  - exfalso. destruct (q_kind q); [discriminate|]. unfold appr_update_approver in H.
    destruct (_ =? _)%N; [|discriminate]. injection H as <- <-. by apply elem_of_nil in Hx.
  - exfalso. destruct (q_kind q); [|discriminate]. injection H as <- <-. by apply elem_of_nil in Hx.
Qed.

(** The records: a new one exactly with a propose message; in coins if the configuration is. *)
Lemma pre_handle_recs q e a m q' subs :
  qinv q -> pre_handle q e a m = Ok (q', subs) ->
  match m with
  | PUpdateConfig (Some d) _ => exists x, d_denom d = Native x
  | _ => True
  end ->
  in_coins (q_deposit q) ->
  (forall id r, q_deposits q !! id = Some r -> in_coins r.1) ->
  (forall i r, q_pending q !! i = Some r -> in_coins (a_deposit r)) ->
  in_coins (q_deposit q') /\
  (forall id r, q_deposits q' !! id = Some r -> in_coins r.1) /\
  (forall i r, q_pending q' !! i = Some r -> in_coins (a_deposit r)).
Proof.
  intros Hq H Hm C1 C2 C3.
  assert (quiet_msg m \/ ~ quiet_msg m) as [Hqm|Hqm] by (destruct m; simpl; tauto).
  { destruct (quiet_shape q e a m q' subs Hqm H) as ((_ & _ & _ & D & E & _) & _).
    rewrite D, E. split; [|done]. destruct m; cbn [pre_handle quiet_msg] in *; try done.
    - unfold pre_update_config in H. destruct (_ =? _)%N; [|discriminate]. destruct d as [d|].
      + unfold into_checked in H. destruct (negb _); [|discriminate].
        destruct p as [p|]; [destruct (validate_submission p) as [[]|]; [|discriminate]|];
          injection H as <- <-; exact Hm.
      + destruct p as [p|]; [destruct (validate_submission p) as [[]|]; [|discriminate]|];
          injection H as <- <-; exact I.
    - unfold pre_update_policy in H. destruct (_ =? _)%N; [|discriminate].
      match type of H with (match ?e with Ok _ => _ | Err _ => _ end = _) =>
        destruct e as [p|]; [|discriminate] end.
      destruct (validate_submission p) as [[]|]; [|discriminate]. by injection H as <- <-.
    - unfold pre_withdraw in H. res_inv H; done.
    - unfold pre_add_hook in H. res_inv H; done.
    - unfold pre_remove_hook in H. res_inv H; done.
    - unfold pre_completed in H. destruct (_ =? _)%N; [|discriminate].
      destruct (bool_decide _); [|discriminate].
      destruct (q_deposits q !! id) as [[[d|] pr]|]; by injection H as <- <-.
    - destruct (q_kind q); [discriminate|]. unfold appr_update_approver in H.
      destruct (_ =? _)%N; [|discriminate]. by injection H as <- <-.
    - destruct (q_kind q); [|discriminate]. by injection H as <- <-. }
  destruct m; simpl in Hqm; try tauto; clear Hqm; cbn [pre_handle] in H; destruct (q_kind q) eqn:Ek;
    try discriminate.
  - apply pre_propose_shape in H as (takes & _ & Hd & -> & _); [|done].
    cbn [q_deposit q_deposits q_pending q_with_deposits]. split; [done|]. split; [|done].
    intros id r Hr. apply lookup_insert_Some in Hr as [[_ <-]|[_ Hr]]; [done|eauto].
  - apply appr_propose_shape in H as (takes & _ & Hd & -> & _).
    cbn [q_deposit q_deposits q_pending q_with_flow]. split; [done|]. split; [done|].
    intros id r Hr. apply lookup_insert_Some in Hr as [[_ <-]|[_ Hr]]; [done|eauto].
  - unfold appr_approve in H. destruct (_ =? _)%N; [|discriminate].
    destruct (q_pending q !! id) as [p|] eqn:Epd; [|discriminate]. injection H as <- <-.
    cbn [q_deposit q_deposits q_pending q_with_flow q_with_deposits]. split; [done|]. split.
    + intros i r Hr. apply lookup_insert_Some in Hr as [[_ <-]|[_ Hr]]; [cbn [fst]|]; eauto.
    + intros i r Hr. apply lookup_delete_Some in Hr as [_ Hr]. eauto.
  - unfold appr_reject in H. destruct (_ =? _)%N; [|discriminate].
    destruct (q_pending q !! id) as [p|] eqn:Epd; [|discriminate]. injection H as <- <-.
    cbn [q_deposit q_deposits q_pending q_with_flow q_with_deposits]. split; [done|]. split; [done|].
    intros i r Hr. apply lookup_delete_Some in Hr as [_ Hr]. eauto.
Qed.
Lemma pre_handle_new q e a m q' pm rest :
  qinv q -> pre_handle q e a m = Ok (q', XPropose pm :: rest) -> a <> q_module q ->
  is_Some (q_deposits q' !! e_next e).
Proof.
  intros Hq H Ha.
  assert (quiet_msg m \/ ~ quiet_msg m) as [Hm|Hm] by (destruct m; simpl; tauto).
  { destruct (quiet_shape q e a m q' _ Hm H) as (_ & _ & _ & Hs).
    destruct (Hs (XPropose pm) ltac:(left)) as [(dn & n & E)|(E & _)]; done. }
  destruct m; simpl in Hm; try tauto; clear Hm; cbn [pre_handle] in H; destruct (q_kind q) eqn:Ek;
    try discriminate.
  - apply pre_propose_shape in H as (takes & _ & _ & -> & _); [|done].
    cbn [q_deposits q_with_deposits]. rewrite lookup_insert. eauto.
  - apply appr_propose_shape in H as (takes & _ & Hd & _ & E). exfalso.
    assert (XPropose pm ∈ takes ++ map (fun h => XHook h (HApproval (q_current q + 1))) (q_hooks q)) as Hx
      by (rewrite <- E; left).
    apply elem_of_app in Hx as [Hx|Hx].
    + eapply takes_only in Hx as (? & ? & ?); [|exact Hd]. done.
    + apply elem_of_list_In, in_map_iff in Hx as (? & ? & _). done.
  - unfold appr_approve in H. destruct (_ =? _)%N; [|discriminate].
    destruct (q_pending q !! id) as [p|] eqn:Epd; [|discriminate]. injection H as <- _ _.
    cbn [q_deposits q_with_flow q_with_deposits]. rewrite lookup_insert. eauto.
  - unfold appr_reject in H. destruct (_ =? _)%N; [|discriminate].
    destruct (q_pending q !! id) as [p|] eqn:Epd; [|discriminate]. injection H as _ H.
    destruct (a_deposit p) as [d|]; [|done]. unfold return_messages in H. destruct (_ =? _); done.
Qed.
