(** The claims about the token issuer. *)
From Verif Require Import Base BaseProofs Exec ExecProofs Plain PlainProofs PlainMore
  StoreModel StoreProofs IssuerModel IssuerSpec IssuerProofs.
From Verif Require Import StakeProofs.

(** ** Allowances *)
Definition within (s : istate) (l : ilog) : Prop := forall a,
  allowance (i_mint s) a + minted a l <= granted (mint_grant a) l /\
  allowance (i_burn s) a + burned a l <= granted (burn_grant a) l.
Lemma within_call s0 b s l a m s' subs :
  iinv s0 s l -> within s l -> i_handle s b a m = Ok (s', subs) ->
  within s' (l ++ [ECall s b a m s' subs]).
Proof.
  intros I W H c. destruct I as [_ _ _ I4 _ I6 _ _ _ _]. specialize (I4 c). specialize (I6 c).
  destruct (W c) as [W1 W2].
  pose proof (handle_effect _ _ _ _ _ _ H) as [_ _ E3 _ E5 _ _ _ _].
  rewrite E3, E5. unfold minted, burned, granted, after_ev in *. rewrite !lsum_app. cbn [lsum].
  destruct m; cbn [i_handle] in H; cbn zeta in H; res_inv H; cbn; repeat case_decide; cbn; lia.
Qed.
Lemma minted_granted s0 b s l a : ireached s0 b s l ->
  minted a l <= granted (mint_grant a) l /\ burned a l <= granted (burn_grant a) l.
Proof.
  intros (F & b0 & HL).
  enough (iinv s0 s l /\ within s l) as [[_ _ _ I4 _ I6 _ _ _ _] W].
  { destruct (W a). specialize (I4 a). specialize (I6 a). lia. }
  revert HL. apply (leads_ind i_handle (fun b s l => iinv s0 s l /\ within s l)).
  - intros b1 s1 l1 a1 m s' subs [I W] H. split; [by apply iinv_call|by eapply within_call].
  - intros b1 s1 l1 x [I W]. split; [by apply iinv_sub|]. intros c. destruct (W c).
    unfold minted, burned, granted in *. rewrite !lsum_app. cbn. lia.
  - done.
  - split; [by apply iinv_fresh|]. intros c.
    destruct F as [(?&?&?&->)|(?&?&?&?&?&?&->)]; cbn; unfold allowance; rewrite lookup_empty; done.
Qed.

(** Since the last grant. *)
Lemma minted_since s0 b s l1 pre b1 o n post subs l2 a :
  ireached s0 b s (l1 ++ ECall pre b1 o (ISetMinter a n) post subs :: l2) ->
  ungranted (mint_grant a) l2 ->
  minted a l2 <= n /\ allowance (i_mint s) a = n - minted a l2.
Proof.
  intros R U. pose proof (ireached_inv _ _ _ _ R) as [_ _ I3 I4 _ _ _ _ _ _].
  specialize (I3 a). specialize (I4 a). rewrite left_over_app in I3. cbn in I3.
  unfold after_ev in I3. cbn in I3. rewrite decide_True in I3 by done.
  rewrite left_over_ungranted in I3 by done. unfold minted. lia.
Qed.
Lemma burned_since s0 b s l1 pre b1 o n post subs l2 a :
  ireached s0 b s (l1 ++ ECall pre b1 o (ISetBurner a n) post subs :: l2) ->
  ungranted (burn_grant a) l2 ->
  burned a l2 <= n /\ allowance (i_burn s) a = n - burned a l2.
Proof.
  intros R U. pose proof (ireached_inv _ _ _ _ R) as [_ _ _ _ I3 I4 _ _ _ _].
  specialize (I3 a). specialize (I4 a). rewrite left_over_app in I3. cbn in I3.
  unfold after_ev in I3. cbn in I3. rewrite decide_True in I3 by done.
  rewrite left_over_ungranted in I3 by done. unfold burned. lia.
Qed.

(** Who changes allowances. *)
Lemma allowance_changed s0 b s l pre b1 sender m post subs a :
  ireached s0 b s l -> ECall pre b1 sender m post subs ∈ l ->
  (allowance (i_mint post) a <> allowance (i_mint pre) a ->
     (exists n, m = ISetMinter a n /\ o_owner (i_own pre) = Some sender /\
        allowance (i_mint post) a = n) \/
     (exists to n, m = IMint to n /\ sender = a /\
        allowance (i_mint post) a = allowance (i_mint pre) a - n)) /\
  (allowance (i_burn post) a <> allowance (i_burn pre) a ->
     (exists n, m = ISetBurner a n /\ o_owner (i_own pre) = Some sender /\
        allowance (i_burn post) a = n) \/
     (exists from n, m = IBurn from n /\ sender = a /\
        allowance (i_burn post) a = allowance (i_burn pre) a - n)).
Proof.
  intros R Hin. destruct (ireached_call _ _ _ _ _ _ _ _ _ _ R Hin) as [_ H].
  pose proof (handle_effect _ _ _ _ _ _ H) as [_ _ E3 _ E5 _ _ _ _].
  specialize (E3 a). specialize (E5 a). unfold after_ev in *. rewrite E3, E5.
  assert (forall x, is_owner (i_own pre) x = true -> o_owner (i_own pre) = Some x) as O.
  { intros x. unfold is_owner. destruct (o_owner _); [|done]. by intros ->%N.eqb_eq. }
  destruct m; cbn [i_handle] in H; cbn zeta in H; res_inv H; cbn; split; intros C;
    repeat case_decide; cbn in *; subst; try (exfalso; lia);
    first [left; eexists; split; [done|]; split; [auto|]; lia
          |right; eexists _, _; split; [done|]; split; [done|]; lia].
Qed.

(** Minting: what it takes, and what it does. *)
Lemma mint_exact s b a to n s' subs : i_handle s b a (IMint to n) = Ok (s', subs) ->
  0 < n <= allowance (i_mint s) a /\ i_admin s = i_self s /\ supply s' = supply s + n /\
  forall c, i_bal_of s' c = i_bal_of s c + (if decide (c = to) then n else 0).
Proof.
  intros H. cbn [i_handle] in H; cbn zeta in H; res_inv H.
  match goal with F : fits128 _ = true |- _ => apply fits128_ok in F end.
  match goal with F : bank_send _ _ _ _ = Ok _ |- _ => apply bank_send_ok in F as [F _];
    apply move_ok in F as (_ & M1 & M2 & M3) end.
  match goal with F : tf_mint _ _ _ _ = Ok _ |- _ => apply tf_mint_ok in F as (_ & T1 & T2 & T3) end.
  cbn in T1, T2, T3. split; [lia|]. split; [done|]. split; [unfold supply in *; cbn in *; lia|].
  intros c. rewrite M3, T3. unfold i_bal_of. cbn. case_decide; case_decide; lia.
Qed.
Lemma mint_possible s b a to n :
  0 < n <= U128_MAX -> n <= allowance (i_mint s) a -> i_admin s = i_self s ->
  0 <= i_bal_of s (i_self s) ->
  (i_frozen s = true -> on_list (i_allow s) a = true \/ on_list (i_allow s) to = true) ->
  (i_bhook s = Some (i_self s) ->
     before_send s (i_self s) to (i_denom s) = Ok tt) ->
  exists s' subs, i_handle s b a (IMint to n) = Ok (s', subs).
Proof.
  intros Hn Ha Had Hb Hf Hs. cbn [i_handle]. cbn zeta.
  rewrite (proj2 (fits128_ok n)) by lia.
  destruct (Z.eqb_spec n 0); [lia|]. cbn [negb].
  destruct (Z.leb_spec n (allowance (i_mint s) a)); [|lia].
  set (s1 := set_mint s _).
  assert (not_frozen s1 a to (i_denom s1) = Ok tt) as -> by by apply not_frozen_ok.
  unfold tf_mint. change (i_admin s1) with (i_admin s). rewrite Had, N.eqb_refl.
  set (s2 := set_bal s1 _).
  assert (exists s3, move s2 (i_self s) to n = Ok s3) as [s3 E3].
  { unfold move. destruct (Z.leb_spec n (i_bal_of s2 (i_self s))) as [|L]; [eauto|].
    unfold i_bal_of in L at 1. cbn in L. rewrite lookup_insert in L. cbn in L.
    unfold i_bal_of in *. cbn in L. lia. }
  exists s3, [SMint n; SSend to n].
  assert (bank_send s2 (i_self s) to n = Ok s3) as ->; [|done].
  unfold bank_send. change (i_bhook s2) with (i_bhook s). change (i_self s2) with (i_self s).
  destruct (i_bhook s) as [h|]; [|done]. destruct (N.eqb_spec h (i_self s)) as [->|]; [|done].
  specialize (Hs eq_refl).
  assert (before_send s2 (i_self s) to (i_denom s2) = Ok tt) as -> by exact Hs. done.
Qed.
Lemma burn_exact s b a from n s' subs : i_handle s b a (IBurn from n) = Ok (s', subs) ->
  0 < n <= allowance (i_burn s) a /\ i_admin s = i_self s /\ supply s' = supply s - n /\
  n <= i_bal_of s from /\
  forall c, i_bal_of s' c = i_bal_of s c - (if decide (c = from) then n else 0).
Proof.
  intros H. cbn [i_handle] in H; cbn zeta in H; res_inv H.
  match goal with F : fits128 _ = true |- _ => apply fits128_ok in F end.
  match goal with F : tf_burn _ _ _ _ = Ok _ |- _ => apply tf_burn_ok in F as (_ & T1 & T2 & T3 & T4) end.
  cbn in T1, T2, T3. unfold supply, i_bal_of in *. cbn in *.
  split; [lia|]. split; [done|]. split; [lia|]. split; [done|]. exact T4.
Qed.

(** Moving someone's tokens: only the owner, only while the contract is the token's admin, and
    nothing but those tokens. *)
Lemma force_exact s b a n from to s' subs : i_handle s b a (IForce n from to) = Ok (s', subs) ->
  o_owner (i_own s) = Some a /\ i_admin s = i_self s /\ 0 <= n <= i_bal_of s from /\
  supply s' = supply s /\ set_bal s' (i_bal s) = s /\
  forall c, i_bal_of s' c = i_bal_of s c - (if decide (c = from) then n else 0) +
    (if decide (c = to) then n else 0).
Proof.
  intros H. cbn [i_handle] in H; cbn zeta in H; res_inv H.
  match goal with F : fits128 _ = true |- _ => apply fits128_ok in F end.
  match goal with F : move _ _ _ _ = Ok _ |- _ => apply move_ok in F as (M0 & M1 & M2 & M3) end.
  unfold is_owner in *. destruct (o_owner (i_own s)) as [o|]; [|done].
  split; [f_equal; lia|]. split; [lia|]. split; [lia|]. split; [done|]. split; [|done].
  destruct s, s'. unfold rest, set_bal in *. cbn in *. injection M0. congruence.
Qed.
(** What touches the token itself takes its admin: the contract for its own messages, and
    otherwise another account, calling directly. *)
Lemma takes_admin s b a m s' subs : i_handle s b a m = Ok (s', subs) ->
  match m with
  | IMint _ _ | IBurn _ _ | IForce _ _ _ | IAdmin _ | ISetHook _ | IMetadata =>
      i_admin s = i_self s
  | XMint _ _ | XBurn _ _ | XAdmin _ | XHook _ => i_admin s = a /\ a <> i_self s
  | XSend _ n => 0 <= n <= i_bal_of s a /\ a <> i_self s
  | _ => i_admin s' = i_admin s /\ i_bhook s' = i_bhook s /\ i_bal s' = i_bal s
  end.
Proof.
  intros H. destruct m; cbn [i_handle] in H; cbn zeta in H; res_inv H.
  all: repeat match goal with
    | F : bank_send _ _ _ _ = Ok _ |- _ => apply bank_send_ok in F as [F _]
    | F : move _ _ _ _ = Ok _ |- _ => apply move_ok in F as (_ & _ & F & _)
    | F : tf_mint _ _ _ _ = Ok _ |- _ => apply tf_mint_ok in F as (_ & _ & F & _); cbn in F
    | F : tf_burn _ _ _ _ = Ok _ |- _ => apply tf_burn_ok in F as (_ & _ & F & _); cbn in F
    | F : fits128 _ = true |- _ => apply fits128_ok in F
    end.
  all: try (repeat split; done || lia).
Qed.
(** A token the contract created and never gave away: all of it was minted on allowances. *)
Lemma supply_minted self o d b s l :
  ireached (i_new self o d) b s l -> keeps_admin l ->
  supply s = lsum (ev_all sub_mint) l - lsum (ev_all sub_burn) l.
Proof. intros R K. by destruct (in_place_reached _ _ _ _ _ _ R K) as [_ ?]. Qed.

(** ** Freezing *)
Lemma hook_decides s0 b s l from to d : ireached s0 b s l ->
  (before_send s from to d = Ok tt <->
   ((frozen l -> d = i_denom s0 -> allowed (i_self s0) from l \/ allowed (i_self s0) to l) /\
    ~ denied from l /\ ~ denied to l)).
Proof.
  intros R. pose proof (ireached_inv _ _ _ _ R) as [I1 I2 _ _ _ _ I7 I8 I9 _].
  rewrite before_send_ok, I2, I7, !I8, !I9. unfold frozen, allowed, denied.
  rewrite !not_true_iff_false. tauto.
Qed.
Lemma issuer_not_denied s0 b s l : ireached s0 b s l ->
  ~ denied (i_self s0) l /\ i_deny s !! i_self s0 <> Some true.
Proof.
  intros R. pose proof (ireached_inv _ _ _ _ R) as [_ _ _ _ _ _ _ _ I9 I10].
  split.
  - unfold denied. by rewrite <-I9, I10.
  - unfold on_list in I10. destruct (i_deny s !! i_self s0) as [[]|]; done.
Qed.
Lemma transfer_may s0 b s l1 pre b1 sender m post subs l2 from to :
  ireached s0 b s (l1 ++ ECall pre b1 sender m post subs :: l2) ->
  i_bhook pre = Some (i_self s0) -> (from, to) ∈ transfers (i_self s0) sender m ->
  may_move (i_self s0) l1 from to.
Proof.
  intros R Hh Ht. destruct (ireached_at _ _ _ _ _ _ _ _ _ _ _ R) as [I H].
  destruct I as [I1 I2 _ _ _ _ I7 I8 I9 _].
  assert (before_send pre from to (i_denom pre) = Ok tt) as Hb.
  { destruct m; cbn in Ht; try (by apply elem_of_nil in Ht).
    - apply elem_of_list_singleton in Ht. injection Ht as -> ->.
      cbn [i_handle] in H; cbn zeta in H; res_inv H.
      match goal with F : tf_mint _ _ _ _ = Ok _ |- _ => apply tf_mint_ok in F as (F & _) end.
      match goal with F : rest _ = rest _ |- _ => apply rest_fields in F; cbn in F;
        destruct F as (? & ? & F1 & ? & ? & F2 & F3 & F4 & ? & ? & ? & F5) end.
      match goal with F : bank_send _ _ _ _ = Ok _ |- _ => apply bank_send_ok in F as [_ F];
        specialize (F ltac:(congruence)) end.
      match goal with F : before_send _ _ _ _ = Ok _ |- _ => rewrite before_send_ok in F end.
      rewrite before_send_ok. by rewrite F1, F2, F3, F4, I1 in *.
    - apply elem_of_list_singleton in Ht. injection Ht as -> ->.
      cbn [i_handle] in H; res_inv H.
      match goal with F : bank_send _ _ _ _ = Ok _ |- _ => apply bank_send_ok in F as [_ F];
        apply F; congruence end. }
  apply before_send_ok in Hb. rewrite I7, !I8, !I9 in Hb.
  unfold may_move, frozen, allowed, denied. rewrite !not_true_iff_false. naive_solver.
Qed.
(** A mint while frozen, whether or not the bank asks. *)
Lemma frozen_mint s0 b s l1 pre b1 sender to n post subs l2 :
  ireached s0 b s (l1 ++ ECall pre b1 sender (IMint to n) post subs :: l2) ->
  frozen l1 -> allowed (i_self s0) sender l1 \/ allowed (i_self s0) to l1.
Proof.
  intros R F. destruct (ireached_at _ _ _ _ _ _ _ _ _ _ _ R) as [I H].
  destruct I as [I1 I2 _ _ _ _ I7 I8 I9 _].
  cbn [i_handle] in H; cbn zeta in H; res_inv H.
  match goal with F : not_frozen _ _ _ _ = Ok ?u |- _ => destruct u;
    apply (not_frozen_ok (set_mint pre _)) in F; rename F into G end.
  - cbn in G. by rewrite !I8 in G.
  - cbn. by rewrite I7.
Qed.
(** Who says who is frozen, allowed or denied. *)
Lemma lists_owner s0 b s l pre b1 sender m post subs :
  ireached s0 b s l -> ECall pre b1 sender m post subs ∈ l ->
  i_frozen post <> i_frozen pre \/ i_allow post <> i_allow pre \/ i_deny post <> i_deny pre ->
  o_owner (i_own pre) = Some sender /\ i_feat pre = true /\
  ((exists x, m = IFreeze x) \/ (exists a x, m = IAllow a x) \/ (exists a x, m = IDeny a x)).
Proof.
  intros R Hin. destruct (ireached_call _ _ _ _ _ _ _ _ _ _ R Hin) as [_ H]. intros C.
  assert (forall x, is_owner (i_own pre) x = true -> o_owner (i_own pre) = Some x) as O.
  { intros x. unfold is_owner. destruct (o_owner _); [|done]. by intros ->%N.eqb_eq. }
  destruct m; cbn [i_handle] in H; cbn zeta in H; res_inv H;
    try (repeat match goal with
    | F : bank_send _ _ _ _ = Ok _ |- _ => apply bank_send_ok in F as [F _]
    | F : move _ _ _ _ = Ok _ |- _ => apply move_ok in F as (F & _)
    | F : tf_mint _ _ _ _ = Ok _ |- _ => apply tf_mint_ok in F as (F & _)
    | F : tf_burn _ _ _ _ = Ok _ |- _ => apply tf_burn_ok in F as (F & _)
    | F : rest _ = rest _ |- _ => apply rest_fields in F; cbn in F;
        destruct F as (? & ? & ? & ? & ? & ? & ? & ? & ? & ? & ? & ?)
    end; exfalso; cbn in *; intuition congruence).
  all: split; [auto|]; split; [done|]; eauto 10.
Qed.
(** The contract stays the admin of the token it created: while the lists can be edited, the
    bank asks the contract. *)
Lemma hook_in_place self o d b s l :
  ireached (i_new self o d) b s l -> keeps_admin l ->
  (i_feat s = true <-> i_bhook s = Some self).
Proof.
  intros R K. destruct (in_place_reached _ _ _ _ _ _ R K) as [(_ & B & C) _].
  pose proof (ireached_inv _ _ _ _ R) as [I1 _ _ _ _ _ _ _ _ _]. cbn in I1.
  rewrite B, C, I1. destruct (i_hook s) as [h|]; [|done].
  rewrite N.eqb_eq. naive_solver.
Qed.
(** What only the owner does. *)
Lemma owner_only s b sender m s' subs : i_handle s b sender m = Ok (s', subs) ->
  match m with
  | IDeny _ _ | IAllow _ _ | IFreeze _ | IForce _ _ _ | IAdmin _ | ISetMinter _ _
  | ISetBurner _ _ | ISetHook _ | IMetadata => o_owner (i_own s) = Some sender
  | _ => True
  end /\
  (o_owner (i_own s') <> o_owner (i_own s) ->
     (m = IOwn ORenounce /\ o_owner (i_own s) = Some sender) \/
     (m = IOwn OAccept /\ o_pending (i_own s) = Some sender /\ o_owner (i_own s') = Some sender)) /\
  (o_pending (i_own s') <> o_pending (i_own s) -> o_pending (i_own s') <> None ->
     o_owner (i_own s) = Some sender).
Proof.
  intros H.
  assert (forall x, is_owner (i_own s) x = true -> o_owner (i_own s) = Some x) as O.
  { intros x. unfold is_owner. destruct (o_owner _); [|done]. by intros ->%N.eqb_eq. }
  destruct m; cbn [i_handle] in H; cbn zeta in H; try (unfold update_ownership in H);
    try match goal with x : own_action |- _ => destruct x end; res_inv H.
  all: repeat match goal with
    | F : bank_send _ _ _ _ = Ok _ |- _ => apply bank_send_ok in F as [F _]
    | F : move _ _ _ _ = Ok _ |- _ => apply move_ok in F as (F & _)
    | F : tf_mint _ _ _ _ = Ok _ |- _ => apply tf_mint_ok in F as (F & _)
    | F : tf_burn _ _ _ _ = Ok _ |- _ => apply tf_burn_ok in F as (F & _)
    | F : rest _ = rest _ |- _ => apply rest_fields in F; cbn in F;
        destruct F as (? & ? & ? & ? & ? & ? & ? & ? & ? & ? & ? & ?)
    end.
  all: cbn in *; try (split; [solve [auto]|]); try (split; congruence).
  - destruct (is_owner (i_own s) sender) eqn:Eo; [|done]. destruct (negb _); [|done].
    injection E as <-. cbn. split; intros; [done|]. auto.
  - destruct (o_pending (i_own s)) as [p|]; [|done].
    destruct (N.eqb_spec p sender) as [Ep|]; [|done]. subst.
    destruct (negb _); [|done]. injection E as <-. cbn. split; intros; [right; done|done].
  - destruct (is_owner (i_own s) sender) eqn:Eo; [|done]. injection E as <-. cbn.
    split; intros; [left; auto|done].
Qed.
