(** Proofs about the token issuer. *)
From Verif Require Import Base BaseProofs Exec ExecProofs Plain PlainProofs PlainMore
  StoreModel StoreProofs IssuerModel IssuerSpec.
From Verif Require Import StakeProofs.

Lemma put_allowance m a n a' :
  allowance (put m a n) a' = if decide (a' = a) then n else allowance m a'.
Proof.
  unfold allowance, put. destruct (Z.eqb_spec n 0) as [->|]; destruct (decide (a' = a)) as [->|].
  - by rewrite lookup_delete.
  - by rewrite lookup_delete_ne by congruence.
  - by rewrite lookup_insert.
  - by rewrite lookup_insert_ne by congruence.
Qed.
Lemma flag_on m a x a' : on_list (flag m a x) a' = if decide (a' = a) then x else on_list m a'.
Proof.
  unfold on_list, flag. destruct x; destruct (decide (a' = a)) as [->|].
  - by rewrite lookup_insert.
  - by rewrite lookup_insert_ne by congruence.
  - by rewrite lookup_delete.
  - by rewrite lookup_delete_ne by congruence.
Qed.
Lemma flag_supply (m : gmap addr Z) a n :
  msum (fun _ n => n) (<[a := default 0 (m !! a) + n]> m) = msum (fun _ n => n) m + n.
Proof. rewrite msum_insert. destruct (m !! a); cbn; lia. Qed.

(** Chain operations touch only the balances. *)
Definition rest (s : istate) : istate := set_bal s ∅.
Lemma move_ok s from to n s' : move s from to n = Ok s' ->
  rest s' = rest s /\ supply s' = supply s /\ n <= i_bal_of s from /\
  (forall a, i_bal_of s' a = i_bal_of s a - (if decide (a = from) then n else 0) +
    (if decide (a = to) then n else 0)).
Proof.
  unfold move. destruct (Z.leb_spec n (i_bal_of s from)); [|done]. intros [= <-].
  split; [done|]. split.
  { unfold supply. cbn [i_bal set_bal]. rewrite flag_supply.
    replace (i_bal_of s from - n) with (default 0 (i_bal s !! from) + - n) by (unfold i_bal_of; lia).
    rewrite flag_supply. lia. }
  split; [done|]. intros a. unfold i_bal_of. cbn [i_bal set_bal].
  destruct (decide (a = to)) as [->|Nt].
  - rewrite lookup_insert. cbn. destruct (decide (to = from)) as [->|].
    + rewrite lookup_insert. cbn. lia.
    + rewrite lookup_insert_ne by congruence. lia.
  - rewrite lookup_insert_ne by congruence. destruct (decide (a = from)) as [->|].
    + rewrite lookup_insert. cbn. lia.
    + rewrite lookup_insert_ne by congruence. lia.
Qed.
Lemma bank_send_ok s from to n s' : bank_send s from to n = Ok s' ->
  move s from to n = Ok s' /\
  (i_bhook s = Some (i_self s) -> before_send s from to (i_denom s) = Ok tt).
Proof.
  unfold bank_send. destruct (i_bhook s) as [h|]; [|done].
  destruct (N.eqb_spec h (i_self s)) as [->|].
  - destruct (before_send _ _ _ _) as [[]|]; done.
  - intros ->. split; [done|]. intros [= ->]. done.
Qed.
Lemma tf_mint_ok s ad to n s' : tf_mint s ad to n = Ok s' ->
  rest s' = rest s /\ supply s' = supply s + n /\ ad = i_admin s /\
  (forall a, i_bal_of s' a = i_bal_of s a + (if decide (a = to) then n else 0)).
Proof.
  unfold tf_mint. destruct (N.eqb_spec ad (i_admin s)); [|done]. intros [= <-].
  split; [done|]. split; [unfold supply, i_bal_of; cbn [i_bal set_bal]; apply flag_supply|].
  split; [done|]. intros a. unfold i_bal_of. cbn [i_bal set_bal]. destruct (decide (a = to)) as [->|].
  - by rewrite lookup_insert.
  - rewrite lookup_insert_ne by congruence. lia.
Qed.
Lemma tf_burn_ok s ad from n s' : tf_burn s ad from n = Ok s' ->
  rest s' = rest s /\ supply s' = supply s - n /\ ad = i_admin s /\ n <= i_bal_of s from /\
  (forall a, i_bal_of s' a = i_bal_of s a - (if decide (a = from) then n else 0)).
Proof.
  unfold tf_burn. destruct (N.eqb_spec ad (i_admin s)); [|done].
  destruct (Z.leb_spec n (i_bal_of s from)); [|done]. intros [= <-].
  split; [done|]. split.
  { unfold supply. cbn [i_bal set_bal].
    replace (i_bal_of s from - n) with (default 0 (i_bal s !! from) + - n) by (unfold i_bal_of; lia).
    rewrite flag_supply. lia. }
  split; [done|]. split; [done|].
  intros a. unfold i_bal_of. cbn [i_bal set_bal]. destruct (decide (a = from)) as [->|].
  - by rewrite lookup_insert.
  - rewrite lookup_insert_ne by congruence. lia.
Qed.
Lemma rest_fields s s' : rest s' = rest s ->
  i_self s' = i_self s /\ i_own s' = i_own s /\ i_denom s' = i_denom s /\ i_feat s' = i_feat s /\
  i_hook s' = i_hook s /\ i_frozen s' = i_frozen s /\ i_allow s' = i_allow s /\
  i_deny s' = i_deny s /\ i_mint s' = i_mint s /\ i_burn s' = i_burn s /\
  i_admin s' = i_admin s /\ i_bhook s' = i_bhook s.
Proof. unfold rest, set_bal. intros E. by injection E. Qed.

(** What a call does to each part of the state. *)
Definition then_says (f : option bool) (x : bool) : bool := default x f.
Definition after_ev (g : ievent -> option Z) (f : ievent -> Z) (x : Z) (e : ievent) : Z :=
  match g e with Some n => n | None => x - f e end.
Record effect (s : istate) (a : addr) (m : imsg) (s' : istate) (e : ievent) : Prop := Effect {
  ef_self : i_self s' = i_self s;
  ef_denom : i_denom s' = i_denom s;
  ef_mint : forall c, allowance (i_mint s') c =
    after_ev (mint_grant c) (ev_by sub_mint c) (allowance (i_mint s) c) e;
  ef_mint_pos : forall c, 0 <= allowance (i_mint s) c -> 0 <= allowance (i_mint s') c;
  ef_burn : forall c, allowance (i_burn s') c =
    after_ev (burn_grant c) (ev_by sub_burn c) (allowance (i_burn s) c) e;
  ef_burn_pos : forall c, 0 <= allowance (i_burn s) c -> 0 <= allowance (i_burn s') c;
  ef_frozen : i_frozen s' = then_says (says_frozen e) (i_frozen s);
  ef_allow : forall c, on_list (i_allow s') c =
    then_says (says_allowed (i_self s) c e) (on_list (i_allow s) c);
  ef_deny : forall c, on_list (i_deny s') c = then_says (says_denied c e) (on_list (i_deny s) c) }.

Ltac fin := subst; cbn in *; repeat case_decide; subst; cbn in *; try lia; try congruence; try done.
Lemma handle_effect s b a m s' subs : i_handle s b a m = Ok (s', subs) ->
  effect s a m s' (ECall s b a m s' subs).
Proof.
  intros H. destruct m; cbn [i_handle] in H; cbn zeta in H; res_inv H.
  all: repeat match goal with
    | F : bank_send _ _ _ _ = Ok _ |- _ => apply bank_send_ok in F as [F _]
    | F : move _ _ _ _ = Ok _ |- _ => apply move_ok in F as (F & _)
    | F : tf_mint _ _ _ _ = Ok _ |- _ => apply tf_mint_ok in F as (F & _)
    | F : tf_burn _ _ _ _ = Ok _ |- _ => apply tf_burn_ok in F as (F & _)
    | F : rest _ = rest _ |- _ => apply rest_fields in F; cbn in F;
        destruct F as (? & ? & ? & ? & ? & ? & ? & ? & ? & ? & ? & ?)
    end.
  all: try match goal with F : fits128 _ = true |- _ => apply fits128_ok in F end.
  all: split; try (intros c); unfold after_ev, then_says;
    repeat match goal with F : i_mint _ = _ |- _ => rewrite F end;
    repeat match goal with F : i_burn _ = _ |- _ => rewrite F end;
    repeat match goal with F : i_allow _ = _ |- _ => rewrite F end;
    repeat match goal with F : i_deny _ = _ |- _ => rewrite F end;
    cbn; rewrite ?put_allowance, ?flag_on; fin.
Qed.

(** ** Over a history *)
Fixpoint left_over (g : ievent -> option Z) (f : ievent -> Z) (x : Z) (l : ilog) : Z :=
  match l with
  | [] => x
  | e :: l' => left_over g f (after_ev g f x e) l'
  end.
Lemma left_over_app g f x l l' : left_over g f x (l ++ l') = left_over g f (left_over g f x l) l'.
Proof. revert x. induction l; intros x; cbn; auto. Qed.
Lemma last_said_app f x l l' : last_said f x (l ++ l') = last_said f (last_said f x l) l'.
Proof. revert x. induction l; intros x; cbn; auto. Qed.
Lemma left_over_ungranted g f x l : ungranted g l -> left_over g f x l = x - lsum f l.
Proof.
  revert x. induction l as [|e l IH]; intros x U; cbn; [lia|].
  rewrite IH by (intros e' ?; apply U; by right).
  unfold after_ev. rewrite (U e) by left. lia.
Qed.

Record iinv (s0 : istate) (s : istate) (l : ilog) : Prop := IInv {
  ii_self : i_self s = i_self s0;
  ii_denom : i_denom s = i_denom s0;
  ii_mint : forall c, allowance (i_mint s) c =
    left_over (mint_grant c) (ev_by sub_mint c) 0 l;
  ii_mint_pos : forall c, 0 <= allowance (i_mint s) c;
  ii_burn : forall c, allowance (i_burn s) c =
    left_over (burn_grant c) (ev_by sub_burn c) 0 l;
  ii_burn_pos : forall c, 0 <= allowance (i_burn s) c;
  ii_frozen : i_frozen s = last_said says_frozen false l;
  ii_allow : forall c, on_list (i_allow s) c = last_said (says_allowed (i_self s0) c) false l;
  ii_deny : forall c, on_list (i_deny s) c = last_said (says_denied c) false l;
  ii_self_deny : on_list (i_deny s) (i_self s0) = false }.

Lemma iinv_call s0 b s l a m s' subs :
  iinv s0 s l -> i_handle s b a m = Ok (s', subs) -> iinv s0 s' (l ++ [ECall s b a m s' subs]).
Proof.
  intros [I1 I2 I3 I4 I5 I6 I7 I8 I9 I10] H.
  pose proof (handle_effect _ _ _ _ _ _ H) as [E1 E2 E3 E4 E5 E6 E7 E8 E9].
  split.
  - congruence.
  - congruence.
  - intros c. rewrite left_over_app, <-I3. cbn. apply E3.
  - intros c. apply E4, I4.
  - intros c. rewrite left_over_app, <-I5. cbn. apply E5.
  - intros c. apply E6, I6.
  - rewrite last_said_app, <-I7. cbn. apply E7.
  - intros c. rewrite last_said_app, <-I8. cbn. rewrite <-I1. apply E8.
  - intros c. rewrite last_said_app, <-I9. cbn. apply E9.
  - rewrite E9. unfold then_says. destruct m as [| |c x| | | | | | | | | | | | | |]; cbn; try done.
    destruct (decide (c = i_self s0)) as [->|]; [|done]. cbn.
    cbn in H. rewrite I1, N.eqb_refl in H. res_inv H.
Qed.
Lemma iinv_sub s0 b s l x : iinv s0 s l -> iinv s0 s (l ++ [ESub s b x true s]).
Proof.
  intros [I1 I2 I3 I4 I5 I6 I7 I8 I9 I10]. split; try done.
  - intros c. rewrite left_over_app, <-I3. cbn. lia.
  - intros c. rewrite left_over_app, <-I5. cbn. lia.
  - rewrite last_said_app, <-I7. done.
  - intros c. rewrite last_said_app, <-I8. done.
  - intros c. rewrite last_said_app, <-I9. done.
Qed.
Lemma iinv_fresh s0 : ifresh s0 -> iinv s0 s0 [].
Proof.
  intros [(?&?&?&->)|(?&?&?&?&?&?&->)]; split; cbn; try done.
Qed.
Lemma ireached_inv s0 b s l : ireached s0 b s l -> iinv s0 s l.
Proof.
  intros (F & b0 & HL). revert HL. apply (leads_ind i_handle (fun b s l => iinv s0 s l)).
  - intros. by apply iinv_call.
  - intros. by apply iinv_sub.
  - done.
  - by apply iinv_fresh.
Qed.
Lemma ireached_at s0 b s l1 pre b1 a m post subs l2 :
  ireached s0 b s (l1 ++ ECall pre b1 a m post subs :: l2) ->
  iinv s0 pre l1 /\ i_handle pre b1 a m = Ok (post, subs).
Proof.
  intros (F & b0 & HL). revert HL. apply (leads_at i_handle (fun b s l => iinv s0 s l)).
  - intros. by apply iinv_call.
  - intros. by apply iinv_sub.
  - done.
  - by apply iinv_fresh.
Qed.
Lemma ireached_call s0 b s l pre b1 a m post subs :
  ireached s0 b s l -> ECall pre b1 a m post subs ∈ l ->
  i_self pre = i_self s0 /\ i_handle pre b1 a m = Ok (post, subs).
Proof.
  intros R (l1 & l2 & ->)%elem_of_list_split.
  destruct (ireached_at _ _ _ _ _ _ _ _ _ _ _ R) as [[] ?]. done.
Qed.

(** The hook. *)
Lemma before_send_ok s from to d : before_send s from to d = Ok tt <->
  (i_frozen s = true -> d = i_denom s ->
     on_list (i_allow s) from = true \/ on_list (i_allow s) to = true) /\
  on_list (i_deny s) from = false /\ on_list (i_deny s) to = false.
Proof.
  unfold before_send, not_frozen, not_denied, on_list.
  destruct (i_frozen s); cbn; [destruct (N.eqb_spec d (i_denom s))|];
    destruct (i_allow s !! from) as [[]|], (i_allow s !! to) as [[]|],
      (i_deny s !! from) as [[]|], (i_deny s !! to) as [[]|]; cbn; naive_solver.
Qed.
Lemma not_frozen_ok s from to : not_frozen s from to (i_denom s) = Ok tt <->
  (i_frozen s = true -> on_list (i_allow s) from = true \/ on_list (i_allow s) to = true).
Proof.
  unfold not_frozen, on_list. rewrite N.eqb_refl, andb_true_r.
  destruct (i_frozen s), (i_allow s !! from) as [[]|], (i_allow s !! to) as [[]|]; cbn; naive_solver.
Qed.

(** As long as the contract stays the admin of the denomination it created, the bank asks the
    contract the state names. *)
Definition in_place (s : istate) : Prop :=
  i_admin s = i_self s /\ i_bhook s = i_hook s /\
  i_feat s = match i_hook s with Some x => (x =? i_self s)%N | None => false end.
Definition all_minted (l : ilog) : Z := lsum (ev_all sub_mint) l.
Definition all_burned (l : ilog) : Z := lsum (ev_all sub_burn) l.
Lemma in_place_call s b a m s' subs : in_place s -> (forall c, m <> IAdmin c) ->
  i_handle s b a m = Ok (s', subs) ->
  in_place s' /\ supply s' = supply s + ev_all sub_mint (ECall s b a m s' subs)
    - ev_all sub_burn (ECall s b a m s' subs).
Proof.
  intros (A & B & C) NA H.
  destruct m; cbn [i_handle] in H; cbn zeta in H; res_inv H.
  all: repeat match goal with
    | F : bank_send _ _ _ _ = Ok _ |- _ => apply bank_send_ok in F as [F _]
    | F : move _ _ _ _ = Ok _ |- _ => apply move_ok in F as (F & ? & _)
    | F : tf_mint _ _ _ _ = Ok _ |- _ => apply tf_mint_ok in F as (F & ? & ? & _)
    | F : tf_burn _ _ _ _ = Ok _ |- _ => apply tf_burn_ok in F as (F & ? & ? & _)
    | F : rest _ = rest _ |- _ => apply rest_fields in F; cbn in F;
        destruct F as (? & ? & ? & ? & ? & ? & ? & ? & ? & ? & ? & ?)
    end.
  all: unfold in_place, supply in *; cbn in *; try (exfalso; by eapply NA).
  all: try match goal with F : (?x =? ?y)%N = true |- _ => apply N.eqb_eq in F end.
  all: try match goal with F : negb (?x =? ?y)%N = true |- _ =>
    apply negb_true_iff, N.eqb_neq in F end.
  all: try (exfalso; congruence).
  all: try (match goal with |- (i_admin ?x = _ /\ _) /\ _ => destruct x; cbn in *; subst end).
  all: try lia; split; [split_and!; try congruence|try lia].
  match goal with F : i_hook ?x = _, F' : i_self ?x = _, F2 : i_feat ?x = _ |- _ =>
    by rewrite F, F', F2 end.
Qed.
Lemma in_place_reached self o d b s l :
  ireached (i_new self o d) b s l -> keeps_admin l ->
  in_place s /\ supply s = all_minted l - all_burned l.
Proof.
  intros (_ & b0 & HL) K. revert K.
  revert HL. apply (leads_ind i_handle (fun b s l => keeps_admin l ->
    in_place s /\ supply s = all_minted l - all_burned l)).
  - intros b1 s1 l1 a m s' subs IH H K.
    destruct IH as [A B]. { intros p ????? Hin. eapply K, elem_of_app. left. exact Hin. }
    assert (forall c, m <> IAdmin c) as NA.
    { intros c ->. eapply K, elem_of_app. right. by left. }
    destruct (in_place_call _ _ _ _ _ _ A NA H) as [A' B'].
    split; [done|]. unfold all_minted, all_burned in *. rewrite !lsum_app. cbn [lsum]. lia.
  - intros b1 s1 l1 x IH K. destruct IH as [A B].
    { intros p ????? Hin. eapply K, elem_of_app. left. exact Hin. }
    split; [done|]. unfold all_minted, all_burned in *. rewrite !lsum_app. cbn. lia.
  - done.
  - intros _. split; [done|]. unfold supply. cbn. by rewrite msum_empty.
Qed.
