(** Facts about the payroll factory, used in PayClaims. *)
From Verif Require Import Base BaseProofs Exec ExecProofs Plain PlainProofs StoreModel StoreProofs
  WormModel VestModel VestSpec VestProofs PayModel PaySpec.

Lemma ymove_ok m t f to n m' :
  ymove m t f to n = Ok m' ->
  n <= ybal m t f /\
  (forall u, u <> t -> forall a, ybal m' u a = ybal m u a) /\
  (forall a, a <> f -> a <> to -> ybal m' t a = ybal m t a) /\
  (f <> to -> ybal m' t f = ybal m t f - n /\ ybal m' t to = ybal m t to + n) /\
  (f = to -> ybal m' t to = ybal m t to).
Proof.
  unfold ymove. intros H. res_inv H. unfold ybal. split; [unfold ybal in *; lia|].
  split; [intros u Hu a; by rewrite !lookup_insert_ne by congruence|].
  split; [intros a H1 H2; by rewrite !lookup_insert_ne by congruence|].
  split.
  - intros Hne. rewrite lookup_insert, (lookup_insert_ne _ (t, to)) by congruence.
    rewrite lookup_insert. rewrite lookup_insert_ne by congruence. done.
  - intros ->. rewrite !lookup_insert. unfold default. cbn. lia.
Qed.
Lemma ymove_total m t f to n : n <= ybal m t f -> exists m', ymove m t f to n = Ok m'.
Proof. intros H. unfold ymove. destruct (n <=? ybal m t f) eqn:E; [eauto|lia]. Qed.

(** ** The vesting contract *)
Lemma v_instantiate_facts b i v subs :
  fits_vinit i = true -> 0 <= time b -> v_instantiate b i = Ok (v, subs) ->
  ve_denom (vs_vest v) = vi_denom i /\ ve_recipient (vs_vest v) = vi_recipient i /\
  ve_total (vs_vest v) = vi_total i /\ vs_own v = initialize_owner (vi_owner i) /\
  match vi_denom i with
  | DNative _ => ve_status (vs_vest v) = Funded /\ ch_held (vs_chain v) = vi_total i
  | DCw20 _ => ve_status (vs_vest v) = Unfunded /\ ch_held (vs_chain v) = 0 /\ vi_funds i = []
  end.
Proof.
  intros Hf Ht H. unfold fits_vinit in Hf. repeat setoid_rewrite andb_true_iff in Hf.
  destruct Hf as ((((F1 & F2) & F3) & F4) & F5). unfold fits128 in F1.
  unfold v_instantiate in H. set (start := default (time b) (vi_start i)) in H.
  destruct (start + vi_dur i * NANOS <=? U64_MAX) eqn:E1; [|done].
  destruct (time b <? start + vi_dur i * NANOS) eqn:E2; [|done].
  unfold vest_new in H. destruct (negb (vi_total i =? 0)) eqn:E3; [|done].
  destruct (negb (vi_dur i =? 0)) eqn:E4; [|done].
  destruct (into_curve _ _ _) as [c|] eqn:E5; [|done].
  apply into_curve_good in E5 as [G1 G2]; [|lia|lia].
  destruct (vi_denom i) as [d|x] eqn:Ed.
  - destruct (must_pay _ _) as [sent|]; [|done]. destruct (sent =? _) eqn:E6; [|done].
    injection H as <- <-. unfold ve_total in *. cbn [ve_curve] in E6. rewrite cgood_range in E6 by done.
    cbn. rewrite cgood_range by done. repeat split; try done. lia.
  - destruct (vi_funds i); [|done]. injection H as <- <-. unfold ve_total. cbn.
    rewrite cgood_range by done. done.
Qed.
Lemma v_receive_facts v t n v' subs :
  v_receive v t n = Ok (v', subs) ->
  subs = [] /\ n = ve_total (vs_vest v) /\ ve_denom (vs_vest v) = DCw20 t /\
  ve_status (vs_vest v') = Funded /\
  ve_denom (vs_vest v') = ve_denom (vs_vest v) /\
  ve_recipient (vs_vest v') = ve_recipient (vs_vest v) /\
  ve_total (vs_vest v') = ve_total (vs_vest v) /\ vs_own v' = vs_own v /\
  ch_held (vs_chain v') = ch_held (vs_chain v) + n.
Proof.
  unfold v_receive. intros H. cbn zeta in H.
  destruct (ve_total (vs_vest v) =? n) eqn:E1; [|done].
  destruct (bool_decide _) eqn:E2; [|done]. apply bool_decide_eq_true in E2.
  destruct (ve_status (vs_vest v)); try done. injection H as <- <-. cbn.
  repeat split; try done. lia.
Qed.
Lemma v_receive_works b i v subs t :
  fits_vinit i = true -> 0 <= time b -> v_instantiate b i = Ok (v, subs) -> vi_denom i = DCw20 t ->
  exists v', v_receive v t (vi_total i) = Ok (v', []).
Proof.
  intros Hf Ht H Hd. destruct (v_instantiate_facts _ _ _ _ Hf Ht H) as (A & B & C & D & E).
  rewrite Hd in E. destruct E as (E & _). unfold v_receive. cbn zeta.
  rewrite C, Z.eqb_refl, A, Hd. rewrite (bool_decide_eq_true_2 (DCw20 t = DCw20 t)) by done.
  rewrite E. eauto.
Qed.
Lemma v_fresh b i v subs : v_instantiate b i = Ok (v, subs) -> settle v b = v.
Proof.
  unfold v_instantiate. cbn zeta. intros H. destruct (_ <=? U64_MAX); [|done].
  destruct (time b <? _); [|done]. destruct (vest_new _ _ _ _ _ _) as [w|]; [|done].
  destruct (vi_denom i).
  - destruct (must_pay _ _); [|done]. destruct (_ =? _); [|done]. injection H as <- <-.
    unfold settle, put, ch_settle. cbn. by rewrite Z.add_0_r.
  - destruct (vi_funds i); [|done]. by injection H as <- <-.
Qed.
(** The history of a vesting contract right after the factory made it. *)
Lemma v_born_funded b i v subs t v' subs' :
  fits_vinit i = true -> 0 <= time b -> v_instantiate b i = Ok (v, subs) ->
  v_receive v t (vi_total i) = Ok (v', subs') ->
  vreached i b v' [ECall v b t (VReceive (vi_total i)) v' []].
Proof.
  intros Hf Ht Hi Hr. exists b, v, subs. split; [done|]. split; [done|]. split; [done|].
  exists [(b, Call t (VReceive (vi_total i)) [])]. split; [|split].
  - cbn. split; [apply block_le_refl|done].
  - assert (fits128 (vi_total i) = true) as F.
    { unfold fits_vinit in Hf. do 4 apply andb_true_iff in Hf as [Hf _]. done. }
    destruct (v_receive_facts _ _ _ _ _ Hr) as (-> & _).
    cbn -[v_receive fits128]. rewrite F, (v_fresh _ _ _ _ Hi), Hr. done.
  - cbn. apply block_le_refl.
Qed.
Lemma v_born b i v subs :
  fits_vinit i = true -> 0 <= time b -> v_instantiate b i = Ok (v, subs) -> vreached i b v [].
Proof.
  intros Hf Ht Hi. exists b, v, subs. repeat (split; [done|]). apply leads_refl, block_le_refl.
Qed.

(** ** One order *)
Definition can_order (s : ystate) (x : addr) : Prop :=
  match o_owner (y_own s) with Some o => o = x | None => True end.
(** What [y_create] does, seen from outside. *)
Lemma y_create_ok s b x i new ans s' subs :
  0 <= time b -> y_tmp s = Some x -> y_create s b x i new ans = Ok (s', subs) ->
  exists v,
    subs = [YMade new (y_code s) (vi_owner i) i v] /\
    can_order s x /\ fits_vinit i = true /\ y_list s !! new = None /\ new <> y_self s /\
    y_self s' = y_self s /\ y_own s' = y_own s /\ y_code s' = y_code s /\ y_honest s' = y_honest s /\
    y_tmp s' = None /\ y_list s' = <[new := (x, vi_recipient i)]> (y_list s) /\
    ve_recipient (vs_vest v) = vi_recipient i /\ ve_total (vs_vest v) = vi_total i /\
    ve_denom (vs_vest v) = vi_denom i /\ vs_own v = initialize_owner (vi_owner i) /\
    (exists l, vreached i b v l) /\
    match vi_denom i with
    | DNative _ =>
        y_bal s' = y_bal s /\ ve_status (vs_vest v) = Funded /\ ch_held (vs_chain v) = vi_total i
    | DCw20 t =>
        if bool_decide (t ∈ y_honest s) then
          ymove (y_bal s) t (y_self s) new (vi_total i) = Ok (y_bal s') /\
          ve_status (vs_vest v) = Funded /\ ch_held (vs_chain v) = vi_total i
        else y_bal s' = y_bal s
    end.
Proof.
  intros Ht Htmp H. unfold y_create in H.
  destruct (match o_owner (y_own s) with Some o => (o =? x)%N | None => true end) eqn:Eo; [|done].
  destruct (fits_vinit i) eqn:Ef; [|done].
  destruct (bool_decide (y_list s !! new = None) && negb (new =? y_self s)%N) eqn:En; [|done].
  apply andb_true_iff in En as [En1 En2]. apply bool_decide_eq_true in En1.
  apply negb_true_iff, N.eqb_neq in En2.
  destruct (v_instantiate b i) as [[v vs]|] eqn:Ei; [|done].
  assert (can_order s x) as Hc.
  { unfold can_order. destruct (o_owner (y_own s)); [|done]. by apply N.eqb_eq in Eo. }
  destruct (v_instantiate_facts _ _ _ _ Ef Ht Ei) as (A & B & C & D & E).
  pose proof (v_born _ _ _ _ Ef Ht Ei) as Hborn.
  unfold y_reply in H. rewrite Htmp in H. rewrite A, B, C in H.
  destruct (vi_denom i) as [d|t] eqn:Ed.
  - injection H as <- <-. exists v. cbn. destruct E as [E1 E2].
    repeat (split; [first [done|eauto]|]). done.
  - destruct (bool_decide (t ∈ y_honest s)) eqn:Eh.
    + destruct (ymove _ _ _ _ _) as [m|] eqn:Em; [|done].
      destruct (v_receive v t (vi_total i)) as [[v' vs']|] eqn:Er; [|done].
      injection H as <- <-. exists v'. cbn.
      destruct (v_receive_facts _ _ _ _ _ Er) as (_ & _ & _ & R1 & R2 & R3 & R4 & R5 & R6).
      destruct E as (E1 & E2 & E3).
      split; [done|]. repeat (split; [first [done|congruence]|]).
      split; [eexists; by eapply v_born_funded|].
      split; [done|]. split; [done|]. rewrite R6, E2. lia.
    + destruct ans as [[|]|]; [| |done].
      * destruct (v_receive v t (vi_total i)) as [[v' vs']|] eqn:Er; [|done].
        injection H as <- <-. exists v'. cbn.
        destruct (v_receive_facts _ _ _ _ _ Er) as (_ & _ & _ & R1 & R2 & R3 & R4 & R5 & R6).
        split; [done|]. repeat (split; [first [done|congruence]|]).
        split; [eexists; by eapply v_born_funded|]. done.
      * injection H as <- <-. exists v. cbn. split; [done|]. repeat (split; [first [done|congruence]|]).
        split; [by eexists|]. done.
Qed.

(** Balances when the factory starts to work: the tokens sent have arrived. *)
Definition y_arrived (s : ystate) (a : addr) (m : ymsg) (s1 : ystate) : Prop :=
  match m with
  | YSend t n i _ _ =>
      t ∈ y_honest s /\ 0 <= n /\ n = vi_total i /\
      exists m', ymove (y_bal s) t a (y_self s) n = Ok m' /\ s1 = y_set_bal s m'
  | YReceive _ n i _ _ => s1 = s /\ a ∉ y_honest s /\ n = vi_total i
  | _ => s1 = s
  end.
Definition y_orderer (a : addr) (m : ymsg) : addr :=
  match m with YReceive who _ _ _ _ => who | _ => a end.
Definition y_ask (m : ymsg) : option (vinit * addr * option bool) :=
  match m with
  | YSend _ _ i new ans | YReceive _ _ i new ans | YNative i new ans => Some (i, new, ans)
  | _ => None
  end.
Lemma y_handle_ask s b a m s' subs i new ans :
  y_ask m = Some (i, new, ans) -> y_handle s b a m = Ok (s', subs) ->
  exists s1, y_arrived s a m s1 /\ (match m with YNative _ _ _ => True | _ => y_tmp s = None end) /\
    y_create (y_set_tmp s1 (Some (y_orderer a m))) b (y_orderer a m) i new ans = Ok (s', subs).
Proof.
  intros Ha H. destruct m as [t n i' new' ans'|who n i' new' ans'|i' new' ans'| | |]; try done;
    injection Ha as -> -> ->; cbn [y_handle y_orderer y_arrived] in *.
  - destruct (bool_decide (t ∈ y_honest s)) eqn:E1; [|done]. apply bool_decide_eq_true in E1.
    destruct (0 <=? n) eqn:E2; [|done].
    destruct (ymove _ _ _ _ _) as [m'|] eqn:Em; [|done].
    unfold y_receive in H. destruct (vi_funds i); [|done].
    destruct (bool_decide _) eqn:E3; [|done]. apply bool_decide_eq_true in E3. cbn in E3.
    cbn zeta in H. destruct (n =? vi_total i) eqn:E4; [|done].
    exists (y_set_bal s m'). split; [|done]. repeat split; try done; [lia|lia|eauto].
  - destruct (bool_decide (a ∉ y_honest s)) eqn:E1; [|done]. apply bool_decide_eq_true in E1.
    unfold y_receive in H. destruct (vi_funds i); [|done].
    destruct (bool_decide (y_tmp s = None)) eqn:E3; [|done]. apply bool_decide_eq_true in E3.
    cbn zeta in H. destruct (n =? vi_total i) eqn:E4; [|done].
    exists s. repeat split; try done. lia.
  - exists s. done.
Qed.
(** The other messages. *)
Lemma y_handle_other s b a m s' subs :
  y_ask m = None -> y_handle s b a m = Ok (s', subs) ->
  subs = [] /\ y_self s' = y_self s /\ y_list s' = y_list s /\ y_tmp s' = y_tmp s /\
  y_honest s' = y_honest s /\
  match m with
  | YTransfer t to n =>
      t ∈ y_honest s /\ 0 <= n /\ ymove (y_bal s) t a to n = Ok (y_bal s') /\
      y_own s' = y_own s /\ y_code s' = y_code s
  | YCode n => is_owner (y_own s) a = true /\ y_code s' = n /\ y_own s' = y_own s /\ y_bal s' = y_bal s
  | YOwn o => update_ownership (y_own s) b a o = Ok (y_own s') /\ y_code s' = y_code s /\ y_bal s' = y_bal s
  | _ => False
  end.
Proof.
  intros Ha H. destruct m as [| | |o|n|t to n]; try done; cbn [y_handle] in H.
  - destruct (update_ownership _ _ _ _) as [o'|] eqn:E; [|done]. by injection H as <- <-.
  - destruct (is_owner _ _) eqn:E; [|done]. by injection H as <- <-.
  - destruct (bool_decide (t ∈ y_honest s)) eqn:E1; [|done]. apply bool_decide_eq_true in E1.
    destruct (0 <=? n) eqn:E2; [|done].
    destruct (ymove _ _ _ _ _) as [m'|] eqn:Em; [|done]. injection H as <- <-.
    cbn. repeat split; try done. lia.
Qed.
(** One call, in full. *)
Lemma y_handle_ok s b a m s' subs :
  0 <= time b -> y_tmp s = None -> y_handle s b a m = Ok (s', subs) ->
  y_self s' = y_self s /\ y_honest s' = y_honest s /\ y_tmp s' = None /\
  match y_ask m with
  | Some (i, new, ans) =>
      exists s1 v,
        y_arrived s a m s1 /\
        subs = [YMade new (y_code s) (vi_owner i) i v] /\
        can_order s (y_orderer a m) /\ fits_vinit i = true /\ y_list s !! new = None /\ new <> y_self s /\
        y_own s' = y_own s /\ y_code s' = y_code s /\
        y_list s' = <[new := (y_orderer a m, vi_recipient i)]> (y_list s) /\
        ve_recipient (vs_vest v) = vi_recipient i /\ ve_total (vs_vest v) = vi_total i /\
        ve_denom (vs_vest v) = vi_denom i /\ vs_own v = initialize_owner (vi_owner i) /\
        (exists l, vreached i b v l) /\
        match vi_denom i with
        | DNative _ =>
            y_bal s' = y_bal s1 /\ ve_status (vs_vest v) = Funded /\ ch_held (vs_chain v) = vi_total i
        | DCw20 t =>
            if bool_decide (t ∈ y_honest s) then
              ymove (y_bal s1) t (y_self s) new (vi_total i) = Ok (y_bal s') /\
              ve_status (vs_vest v) = Funded /\ ch_held (vs_chain v) = vi_total i
            else y_bal s' = y_bal s1
        end
  | None => subs = [] /\ y_list s' = y_list s
  end.
Proof.
  intros Ht Htmp H. destruct (y_ask m) as [[[i new] ans]|] eqn:Ha.
  - destruct (y_handle_ask _ _ _ _ _ _ _ _ _ Ha H) as (s1 & Harr & _ & Hc).
    assert (y_self s1 = y_self s /\ y_own s1 = y_own s /\ y_code s1 = y_code s /\
            y_list s1 = y_list s /\ y_honest s1 = y_honest s) as (S1 & S2 & S3 & S4 & S5).
    { destruct m; try done; cbn in Harr; try (by subst s1); [|by destruct Harr as (-> & _)].
      by destruct Harr as (_ & _ & _ & m' & _ & ->). }
    assert (y_tmp (y_set_tmp s1 (Some (y_orderer a m))) = Some (y_orderer a m)) as Htm by done.
    destruct (y_create_ok _ _ _ _ _ _ _ _ Ht Htm Hc) as (v & A1 & A2 & A3 & A4 & A5 & A6 & A7 & A8 & A9 & A10 & A11 & A12 & A13 & A14 & A15 & A16 & A17).
    cbn in A1, A4, A5, A6, A7, A8, A9, A11, A17. unfold can_order in A2. cbn in A2.
    rewrite ?S1, ?S2, ?S3, ?S4, ?S5 in *.
    split; [done|]. split; [done|]. split; [done|]. exists s1, v. unfold can_order.
    repeat (split; [done|]). done.
  - destruct (y_handle_other _ _ _ _ _ _ Ha H) as (-> & A & B & C & D & _). rewrite C. done.
Qed.

(** ** Histories *)
Definition yinv (b : block) (s : ystate) : Prop := 0 <= time b /\ y_tmp s = None.
Lemma yinv_call b s a m s' subs : yinv b s -> y_handle s b a m = Ok (s', subs) -> yinv b s'.
Proof. intros [A B] H. split; [done|]. by destruct (y_handle_ok _ _ _ _ _ _ A B H) as (_ & _ & ? & _). Qed.
Lemma yinv_time b b' s : block_le b b' -> yinv b s -> yinv b' s.
Proof. intros [_ H] [A B]. split; [lia|done]. Qed.
