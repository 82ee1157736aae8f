(** Who may do what with a vest: lemmas. *)
From Verif Require Import Base BaseProofs Exec ExecProofs Plain PlainProofs StoreModel WormModel
  VestModel VestSpec VestProofs VestClaims VAuthSpec.

(** What no call changes. *)
Record vfix (i : vinit) (s : vstate) : Prop := VFix {
  vf_recipient : ve_recipient (vs_vest s) = vi_recipient i;
  vf_denom : ve_denom (vs_vest s) = vi_denom i;
  vf_bond : vs_bond s = vi_bond i;
  vf_start : forall t, vi_start i = Some t -> ve_start (vs_vest s) = t;
  vf_ub : vs_ub s = vi_ub i }.
Definition kept (s s' : vstate) : Prop :=
  ve_recipient (vs_vest s') = ve_recipient (vs_vest s) /\
  ve_denom (vs_vest s') = ve_denom (vs_vest s) /\
  ve_start (vs_vest s') = ve_start (vs_vest s) /\
  vs_bond s' = vs_bond s /\ vs_ub s' = vs_ub s.

(** A successful call, opened. *)
Ltac vopen s H :=
  unfold v_handle, v_receive, v_cancel, v_distribute, v_withdraw, v_ownership, v_delegate,
    v_redelegate, v_undelegate, v_set_withdraw, v_register_slash, may_delegate, settle, put in H;
  cbn [vs_own vs_vest vs_tr vs_ub vs_chain_ub vs_bond vs_chain] in H;
  let ES := fresh "ES" in
  destruct (ve_status (vs_vest s)) as [| |ow] eqn:ES; res_inv H;
  repeat match goal with
  | E : p_cancel _ _ _ = Ok _ |- _ => unfold p_cancel in E; rewrite ?ES in E; res_inv E
  | E : p_distribute _ _ _ _ = Ok _ |- _ => unfold p_distribute in E; rewrite ?ES in E; res_inv E
  | E : p_withdraw _ _ _ _ = Ok _ |- _ => unfold p_withdraw in E; rewrite ?ES in E; res_inv E
  | E : p_register_slash _ _ _ _ _ _ = Ok _ |- _ => unfold p_register_slash in E; rewrite ?ES in E; res_inv E
  | E : _ = Ok ?v |- _ => is_var v; match type of v with vest => res_inv E | unit => res_inv E end
  end;
  unfold set_claimed, set_status in *;
  cbn [vs_own vs_vest vs_tr vs_ub vs_chain_ub vs_bond vs_chain ve_curve ve_start ve_status ve_recipient
       ve_denom ve_claimed ve_slashed] in *.
Ltac vmsgs m := destruct m as [n| |r|r|act|v n|v v' n can|v n|x self|v|v t n unb|n|v n|k n].
Lemma handle_kept s b a m s' subs : v_handle s b a m = Ok (s', subs) -> kept s s'.
Proof.
  intros H. unfold kept. vmsgs m; vopen s H; done.
Qed.
Lemma instantiate_fix b i s subs : v_instantiate b i = Ok (s, subs) -> vfix i s.
Proof.
  intros H. unfold v_instantiate, vest_new in H.
  destruct (_ <=? U64_MAX); [|done]. destruct (_ <? _); [|done].
  destruct (negb (vi_total i =? 0)); [|done]. destruct (negb (vi_dur i =? 0)); [|done].
  destruct (into_curve _ _ _) as [c|]; [|done].
  destruct (vi_denom i) as [d|x] eqn:Ed.
  - destruct (must_pay _ _) as [sent|]; [|done]. destruct (sent =? _); [|done]. injection H as <- <-.
    split; cbn; try done. by intros t ->.
  - destruct (vi_funds i); [|done]. injection H as <- <-. split; cbn; try done. by intros t ->.
Qed.
Lemma fix_kept i s s' : vfix i s -> kept s s' -> vfix i s'.
Proof.
  intros [A B C D E] (K1 & K2 & K3 & K4 & K5). split; try congruence. intros t Ht. rewrite K3. by apply D.
Qed.
Lemma vreached_fix i b s l : vreached i b s l -> vfix i s.
Proof.
  intros (b0 & s0 & subs0 & Hf & Ht & Hi & HL).
  apply (leads_inv v_handle (fun _ s => vfix i s)) with (b0 := b0) (s0 := s0) (b := b) (l := l); try done.
  - intros b1 s1 a m s' subs HF HH. eapply fix_kept; [exact HF|]. by eapply handle_kept.
  - by eapply instantiate_fix.
Qed.
Lemma vreached_call_fix i b s l pre b1 a m post subs :
  vreached i b s l -> ECall pre b1 a m post subs ∈ l ->
  v_handle pre b1 a m = Ok (post, subs) /\ vfix i pre.
Proof.
  intros (b0 & s0 & subs0 & Hf & Ht & Hi & HL) Hin.
  destruct (leads_call v_handle (fun _ s => vfix i s)
    ltac:(intros b2 s1 a1 m1 s' sb HF HH; eapply fix_kept; [exact HF|by eapply handle_kept])
    ltac:(done) b0 s0 b s l (instantiate_fix _ _ _ _ Hi) HL _ _ _ _ _ _ Hin) as (H1 & H2 & _).
  done.
Qed.

(** ** The terms *)
Lemma c134_terms i b s l :
  vreached i b s l ->
  ve_recipient (vs_vest s) = vi_recipient i /\ ve_denom (vs_vest s) = vi_denom i /\
  (forall t, vi_start i = Some t -> ve_start (vs_vest s) = t) /\
  forall pre b1 a m post subs, ECall pre b1 a m post subs ∈ l ->
    ve_start (vs_vest post) = ve_start (vs_vest pre) /\
    (m <> VCancel -> forall b', vested_at post b' = vested_at pre b').
Proof.
  intros HR. destruct (vreached_fix _ _ _ _ HR) as [A B C D E]. split; [done|]. split; [done|]. split; [done|].
  intros pre b1 a m post subs Hin. destruct (vreached_call_fix _ _ _ _ _ _ _ _ _ _ HR Hin) as [HH HF].
  split; [by apply handle_kept in HH as (_ & _ & ? & _)|]. intros Hm b'.
  unfold vested_at, vested. enough (ve_curve (vs_vest post) = ve_curve (vs_vest pre) /\
    ve_start (vs_vest post) = ve_start (vs_vest pre)) as [-> ->] by done.
  clear HR Hin HF A B C D E. vmsgs m; try (by destruct Hm); clear Hm; vopen pre HH; done.
Qed.

(** ** Who *)
Lemma total_of i b s l :
  vreached i b s l -> ~ is_canceled s -> ve_total (vs_vest s) = vi_total i.
Proof.
  intros HR Hn. unfold ve_total. rewrite (not_canceled_curve _ _ _ _ HR Hn).
  apply vreached_inv in HR. destruct (I_total _ _ _ _ HR) as (_ & A & B). by rewrite cgood_range.
Qed.
Lemma total_pre i b s l :
  vinv i b s l -> ~ is_canceled s -> ve_total (vs_vest s) = vi_total i.
Proof.
  intros HI Hn. unfold ve_total. pose proof (I_phase _ _ _ _ HI) as P. unfold phase in P.
  destruct (I_total _ _ _ _ HI) as (_ & A & B).
  assert (ve_curve (vs_vest s) = curve0 i) as ->.
  { destruct (ve_status (vs_vest s)) as [| |ow] eqn:E; [by destruct P as (P1 & _)|by destruct P as (P1 & _)|].
    destruct Hn. by eexists. }
  by rewrite cgood_range.
Qed.
Lemma is_owner_true o a : is_owner o a = true -> o_owner o = Some a.
Proof. unfold is_owner. destruct (o_owner o) as [x|]; [|done]. intros H. f_equal. lia. Qed.
Lemma upd_own o b a act o' :
  update_ownership o b a act = Ok o' ->
  match act with OAccept => o_pending o = Some a | _ => o_owner o = Some a end.
Proof.
  unfold update_ownership. intros H. destruct act as [x e| |]; cbn in H.
  - destruct (is_owner o a) eqn:E; [|done]. by apply is_owner_true.
  - destruct (o_pending o) as [p|]; [|done]. destruct (p =? a)%N eqn:E; [|done]. f_equal. lia.
  - destruct (is_owner o a) eqn:E; [|done]. by apply is_owner_true.
Qed.
Lemma entitled_call i b s l a m s' subs :
  vinv i b s l -> vfix i s -> v_handle s b a m = Ok (s', subs) -> entitled i s a m.
Proof.
  intros HI HF HH. pose proof (total_pre _ _ _ _ HI) as HT. destruct HF as [F1 F2 F3 F4 F5].
  clear HI. unfold entitled, owned_by, is_canceled in *.
  vmsgs m; vopen s HH; rewrite ?ES in *; try done.
  all: repeat match goal with
    | H : is_owner _ _ = true |- _ => apply is_owner_true in H
    | H : bool_decide _ = true |- _ => apply bool_decide_eq_true in H
    | H : (_ =? _)%N = true |- _ => apply N.eqb_eq in H
    | H : (_ =? _) = true |- _ => apply Z.eqb_eq in H
    | H : negb ?x = true |- _ => apply negb_true_iff in H
    end; try naive_solver.
  - split; [done|]. split; [congruence|]. rewrite <-HT; [done|]. by intros [? ?].
  - (* nothing to distribute *)
    exfalso. match goal with E : distributable _ _ _ = _ |- _ => unfold distributable, liquid in E; rewrite ES in E;
      res_inv E end.
    match goal with E : negb _ = true |- _ => idtac | E : (_ || _) = false |- _ => apply orb_false_iff in E end.
    unfold sat_sub in *. destruct r; cbn [fits_opt] in *; unfold fits128 in *; cbn [default] in *; cbn in *; lia.
  - by eapply upd_own.
  - by eapply upd_own.
  - by eapply upd_own.
  - split; [done|]. split; congruence.
  - split; [done|]. split; congruence.
Qed.
Lemma c134_who i b s l pre b1 a m post subs :
  vreached i b s l -> ECall pre b1 a m post subs ∈ l -> entitled i pre a m.
Proof.
  intros HR Hin. destruct (vreached_call_fix _ _ _ _ _ _ _ _ _ _ HR Hin) as [HH HF].
  destruct (vreached_call _ _ _ _ _ _ _ _ _ _ HR Hin) as (_ & l1 & HI & _).
  by eapply entitled_call.
Qed.
(** The rest is open to anybody. *)
Lemma c134_anybody s b a a' m :
  match m with
  | VDistribute _ | VWithdraw _ | VWithdrawReward _ => True
  | VUndelegate _ _ => is_canceled s
  | _ => False
  end -> v_handle s b a m = v_handle s b a' m.
Proof.
  destruct m; intros H; try done.
  destruct H as [ow H]. unfold v_handle, v_undelegate, settle, put. cbn [vs_vest]. by rewrite H.
Qed.

(** ** To whom *)
Lemma c134_to_whom i b s l pre b1 a m post subs :
  vreached i b s l -> ECall pre b1 a m post subs ∈ l -> Forall (directed i pre a m) subs.
Proof.
  intros HR Hin. destruct (vreached_call_fix _ _ _ _ _ _ _ _ _ _ HR Hin) as [HH HF].
  destruct (vreached_call _ _ _ _ _ _ _ _ _ _ HR Hin) as (_ & l1 & HI & _).
  clear HR Hin.
  destruct HF as [F1 F2 F3 F4 F5]. unfold directed, owned_by.
  clear HI. vmsgs m; vopen pre HH; rewrite ?ES in *.
  all: repeat match goal with
    | H : is_owner _ _ = true |- _ => apply is_owner_true in H
    | H : negb ?x = true |- _ => apply negb_true_iff in H
    | H : _ || _ = false |- _ => apply orb_false_iff in H as [? ?]
    | |- context [if ?x =? 0 then _ else _] => destruct (x =? 0) eqn:?
    end; cbn [app].
  all: repeat first [apply Forall_cons; split | apply Forall_nil; exact I].
  all: try done.
  all: try (split; [done|lia]).
  all: try (left; done).
  all: try (right; by subst).
Qed.

(** ** Stages *)
Lemma c134_stages i b s l pre b1 a m post subs :
  vreached i b s l -> ECall pre b1 a m post subs ∈ l ->
  stage pre <= stage post <= 2 /\
  (stage post = stage pre \/
   stage pre = 0 /\ stage post = 1 /\ (exists n, m = VReceive n) \/ stage pre < 2 /\ stage post = 2 /\ m = VCancel).
Proof.
  intros HR Hin. destruct (vreached_call_fix _ _ _ _ _ _ _ _ _ _ HR Hin) as [HH HF].
  clear HR Hin HF. unfold stage.
  vmsgs m; vopen pre HH; rewrite ?ES; (split; [lia|]); eauto 10 with lia.
Qed.
(** A native vest is funded from the start. *)
Lemma c134_native i b s l d : vreached i b s l -> vi_denom i = DNative d -> ve_status (vs_vest s) <> Unfunded.
Proof.
  intros (b0 & s0 & subs0 & Hf & Ht & Hi & HL) Hd.
  apply (leads_inv v_handle (fun _ s => ve_status (vs_vest s) <> Unfunded))
    with (b0 := b0) (s0 := s0) (b := b) (l := l); try done.
  - intros b1 s1 a m s' subs HF HH. vmsgs m; vopen s1 HH; congruence.
  - unfold v_instantiate, vest_new in Hi. rewrite Hd in Hi. res_inv Hi. done.
Qed.

(** ** The owner *)
Lemma c134_owner i b s l pre b1 a m post subs :
  vreached i b s l -> ECall pre b1 a m post subs ∈ l ->
  (forall act, m <> VOwnership act) /\ vs_own post = vs_own pre \/
  (exists c e, m = VOwnership (OTransfer c e) /\ owned_by pre a /\ owned_by post a /\
     o_pending (vs_own post) = Some c) \/
  (m = VOwnership OAccept /\ o_pending (vs_own pre) = Some a /\ owned_by post a /\
     o_pending (vs_own post) = None) \/
  (m = VOwnership ORenounce /\ owned_by pre a /\ o_owner (vs_own post) = None /\
     o_pending (vs_own post) = None /\
     forall ow, ve_status (vs_vest pre) = Canceled ow -> ow = 0).
Proof.
  intros HR Hin. destruct (vreached_call_fix _ _ _ _ _ _ _ _ _ _ HR Hin) as [HH HF].
  clear HR Hin HF. unfold owned_by.
  destruct m as [n| |r|r|act|v n|v v' n can|v n|x self|v|v t n unb|n|v n|k n];
    try (left; split; [done|]; vopen pre HH; done).
  right. unfold v_handle, v_ownership, settle, put in HH.
  cbn [vs_own vs_vest vs_tr vs_ub vs_chain_ub vs_bond vs_chain] in HH.
  match type of HH with (if negb ?x then _ else _) = _ => destruct x eqn:EC; [done|] end. cbn [negb] in HH.
  destruct (update_ownership _ _ _ _) as [o|] eqn:EU; [|done]. injection HH as <- <-. cbn [vs_own vs_vest].
  pose proof (upd_own _ _ _ _ _ EU) as HU.
  destruct act as [c e| |]; unfold update_ownership in EU.
  - left. res_inv EU; cbn [o_owner o_pending] in *; eauto 10.
  - right. left. rewrite HU in EU. res_inv EU; cbn [o_owner o_pending] in *; repeat split; congruence.
  - right. right. res_inv EU; cbn [o_owner o_pending] in *. repeat split; try done.
    intros ow Ho. rewrite Ho in EC. lia.
Qed.
(** A vest without an owner and without a nominee never has one again, and is never
    cancelled if it was not. *)
Lemma c134_nobody b0 s0 b s l :
  leads v_handle b0 s0 b s l -> o_owner (vs_own s0) = None -> o_pending (vs_own s0) = None ->
  o_owner (vs_own s) = None /\ (~ is_canceled s0 -> ~ is_canceled s).
Proof.
  intros HL Ho Hp.
  enough (o_owner (vs_own s) = None /\ o_pending (vs_own s) = None /\ (~ is_canceled s0 -> ~ is_canceled s))
    as (? & _ & ?) by done.
  apply (leads_inv v_handle (fun _ s => o_owner (vs_own s) = None /\ o_pending (vs_own s) = None /\
    (~ is_canceled s0 -> ~ is_canceled s)))
    with (b0 := b0) (s0 := s0) (b := b) (l := l); try done.
  intros b1 s1 a m s' subs (HF1 & HF2 & HF3) HH. unfold is_canceled in *.
  vmsgs m; vopen s1 HH; rewrite ?ES in *; try done;
    repeat match goal with H : is_owner _ _ = true |- _ => apply is_owner_true in H; congruence end.
  1: by repeat split; try done; intros _ [? ?].
  all: match goal with E : update_ownership _ _ _ _ = _ |- _ =>
    destruct act; apply upd_own in E; congruence end.
Qed.

(** ** Making a vest *)
Lemma in_order_spec x l :
  steps_in_order x l = true <->
  (forall p, l !! 0%nat = Some p -> x < p.1) /\
  forall k p q, l !! k = Some p -> l !! S k = Some q -> p.1 < q.1.
Proof.
  revert x. induction l as [|p l IH]; intros x; cbn [steps_in_order].
  - split; [|done]. intros _. split; intros; by rewrite lookup_nil in *.
  - rewrite andb_true_iff, IH. split.
    + intros [A [B C]]. split; [intros q [= <-]; lia|]. intros [|k] q r Hq Hr; cbn in *.
      * injection Hq as <-. by apply B.
      * by apply (C k).
    + intros [A B]. split; [specialize (A p eq_refl); lia|]. split.
      * intros q Hq. by apply (B 0%nat p q).
      * intros k q r Hq Hr. by apply (B (S k) q r).
Qed.
Lemma increase_spec y l :
  steps_increase y l = true <->
  (forall p, l !! 0%nat = Some p -> y <= p.2) /\
  forall k p q, l !! k = Some p -> l !! S k = Some q -> p.2 <= q.2.
Proof.
  revert y. induction l as [|p l IH]; intros y; cbn [steps_increase].
  - split; [|done]. intros _. split; intros; by rewrite lookup_nil in *.
  - rewrite andb_true_iff, IH. split.
    + intros [A [B C]]. split; [intros q [= <-]; lia|]. intros [|k] q r Hq Hr; cbn in *.
      * injection Hq as <-. by apply B.
      * by apply (C k).
    + intros [A B]. split; [specialize (A p eq_refl); lia|]. split.
      * intros q Hq. by apply (B 0%nat p q).
      * intros k q r Hq Hr. by apply (B (S k) q r).
Qed.
Lemma increase_last y l p : steps_increase y l = true -> last l = Some p -> y <= p.2.
Proof.
  revert y. induction l as [|q l IH]; intros y; [done|]. cbn [steps_increase]. rewrite andb_true_iff.
  intros [A B] HL. destruct l as [|r l]; [injection HL as <-; lia|].
  assert (q.2 <= p.2) by (apply IH; done). lia.
Qed.
Lemma into_curve_iff sc total dur :
  0 < total -> 0 < dur -> is_ok (into_curve sc total dur) = true <-> pays sc total.
Proof.
  intros Ht Hd. unfold into_curve. destruct sc as [|l].
  - cbn [validate_increasing curve_range].
    replace (0 <? dur) with true by lia. replace (0 <=? total) with true by lia.
    replace (0 <? total) with true by lia. rewrite bool_decide_true by done. done.
  - cbn [pays]. split.
    + intros H. destruct (2 <=? Z.of_nat (length l)) eqn:E; [|done]. destruct l as [|first l]; [done|].
      destruct l as [|fin mid _] using rev_ind; [cbn in E; lia|].
      cbn [validate_increasing] in H.
      destruct (steps_in_order 0 _) eqn:E1; [|done]. destruct (steps_increase _ _) eqn:E2; [|done].
      case_bool_decide as E3; [|done].
      apply in_order_spec in E1 as [O1 O2].
      pose proof (increase_last _ _ fin E2 ltac:(by rewrite last_snoc)).
      apply increase_spec in E2 as [I1 I2].
      unfold curve_range in E3. rewrite app_comm_cons, last_snoc in E3.
      exists first, mid, fin. split; [done|]. split; [by apply O1|].
      destruct (first.2 <? fin.2) eqn:E4; injection E3 as E3 E5.
      * split; [done|]. split; [done|]. intros k p q Hp Hq. split; [by eapply O2|].
        destruct k as [|k]; [injection Hp as <-; by apply I1|]. by apply (I2 k).
      * exfalso. lia.
    + intros (first & mid & fin & -> & H1 & H2 & H3 & H4).
      replace (2 <=? _) with true by (rewrite cons_length, app_length; cbn [length]; lia).
      cbn [validate_increasing].
      assert (steps_in_order 0 (first :: mid ++ [fin]) = true) as ->.
      { apply in_order_spec. split; [by intros p [= <-]|]. intros k p q Hp Hq. by destruct (H4 k p q Hp Hq). }
      assert (steps_increase first.2 (mid ++ [fin]) = true) as ->.
      { apply increase_spec. split.
        - intros p Hp. by destruct (H4 0%nat first p eq_refl Hp).
        - intros k p q Hp Hq. by destruct (H4 (S k) p q Hp Hq). }
      unfold curve_range. rewrite app_comm_cons, last_snoc. rewrite H2, H3.
      replace (0 <? total) with true by lia. by rewrite bool_decide_true.
Qed.
Lemma c134_made i b :
  fits_vinit i = true ->
  (exists s subs, v_instantiate b i = Ok (s, subs)) <->
  0 < vi_total i /\ 0 < vi_dur i /\
  time b < default (time b) (vi_start i) + vi_dur i * 10 ^ 9 < 2 ^ 64 /\
  pays (vi_schedule i) (vi_total i) /\ paid_in i.
Proof.
  intros Hf. unfold fits_vinit in Hf. repeat setoid_rewrite andb_true_iff in Hf.
  destruct Hf as ((((F1 & F2) & F3) & F4) & F5). unfold fits128 in F1.
  unfold v_instantiate. set (start := default (time b) (vi_start i)).
  assert (NANOS = 10 ^ 9) as EN by (vm_compute; reflexivity).
  assert (U64_MAX = 2 ^ 64 - 1) as EU by (vm_compute; reflexivity).
  split.
  - intros (s & subs & H).
    destruct (start + vi_dur i * NANOS <=? U64_MAX) eqn:E1; [|done].
    destruct (time b <? start + vi_dur i * NANOS) eqn:E2; [|done].
    unfold vest_new in H. destruct (negb (vi_total i =? 0)) eqn:E3; [|done].
    destruct (negb (vi_dur i =? 0)) eqn:E4; [|done].
    destruct (into_curve _ _ _) as [c|] eqn:E5; [|done].
    assert (0 < vi_total i) as Hp by lia. assert (0 < vi_dur i) as Hd by lia.
    split; [done|]. split; [done|]. split; [rewrite EN in E1, E2; lia|].
    split; [apply (into_curve_iff _ _ (vi_dur i)); [done|done|by rewrite E5]|].
    pose proof (into_curve_good _ _ _ _ Hp Hd E5) as [G1 G2].
    unfold paid_in. destruct (vi_denom i) as [d|x]; [|by destruct (vi_funds i)].
    destruct (vi_funds i) as [|[d' n] [|? ?]]; [done| |done]. cbn [must_pay] in H.
    destruct (n =? 0); [done|]. destruct (d' =? d)%N eqn:E6; [|done].
    match type of H with context [if ?x then _ else _] => destruct x eqn:E7; [|done] end.
    unfold ve_total in E7. cbn [ve_curve] in E7. rewrite cgood_range in E7 by done.
    repeat f_equal; lia.
  - intros (Hp & Hd & [T1 T2] & HP & HF).
    rewrite EN. replace (_ <=? U64_MAX) with true by lia. replace (time b <? _) with true by lia.
    unfold vest_new. replace (vi_total i =? 0) with false by lia. replace (vi_dur i =? 0) with false by lia.
    cbn [negb]. apply (into_curve_iff _ _ (vi_dur i)) in HP; [|done|done].
    destruct (into_curve _ _ _) as [c|] eqn:E5; [|done].
    pose proof (into_curve_good _ _ _ _ Hp Hd E5) as [G1 G2].
    unfold paid_in in HF. destruct (vi_denom i) as [d|x]; rewrite HF; [|eauto].
    cbn [must_pay]. replace (vi_total i =? 0) with false by lia. rewrite N.eqb_refl.
    unfold ve_total. cbn [ve_curve]. rewrite cgood_range by done. rewrite G2, Z.eqb_refl. eauto.
Qed.
