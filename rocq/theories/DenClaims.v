(** Denominations: the claims. *)
From stdpp Require Import gmap strings.
From Verif Require Import Base BaseProofs DenModel DenSpec.

(** Two tests of a byte agree if they agree on all 256. *)
Fixpoint occursb (c : Ascii.ascii) (s : string) : bool :=
  match s with EmptyString => false | String d s => Ascii.eqb c d || occursb c s end.
Lemma occursb_spec c s : occursb c s = true <-> occurs c s.
Proof.
  induction s as [|d s IH]; cbn [occursb occurs]; [done|].
  rewrite orb_true_iff, IH, Ascii.eqb_eq. done.
Qed.
Lemma letter_ok c : is_alphabetic c = true <-> letter c.
Proof.
  unfold letter. rewrite <- occursb_spec.
  assert (is_alphabetic c = occursb c (small ++ capital)) as ->; [|done].
  destruct c as [[] [] [] [] [] [] [] []]; vm_compute; reflexivity.
Qed.
Lemma symbol_ok c : later_ok c = true <-> symbol c.
Proof.
  unfold symbol. rewrite <- occursb_spec.
  assert (later_ok c = occursb c (small ++ capital ++ digits ++ marks)) as ->; [|done].
  destruct c as [[] [] [] [] [] [] [] []]; vm_compute; reflexivity.
Qed.
Lemma all_later_ok s : all_later s = true <-> Forall symbol (chars s).
Proof.
  induction s as [|c s IH]; cbn [all_later chars]; [split; [by constructor|done]|].
  rewrite andb_true_iff, IH, symbol_ok, Forall_cons. done.
Qed.
Lemma chars_length s : length (chars s) = String.length s.
Proof. induction s as [|c s IH]; cbn; [done|by rewrite IH]. Qed.

Lemma native_iff s : (exists s', validate_native_denom s = Ok s') <-> sdk_denom s.
Proof.
  unfold validate_native_denom, sdk_denom. cbv zeta. rewrite <- (chars_length s). split.
  - intros [s' H].
    destruct (Z.ltb_spec (Z.of_nat (length (chars s))) 3); [done|].
    destruct (Z.ltb_spec 128 (Z.of_nat (length (chars s)))); [done|]. cbn [orb negb] in H.
    destruct s as [|c rest]; [done|].
    destruct (is_alphabetic c) eqn:E1; [|done]. destruct (all_later rest) eqn:E2; [|done].
    exists c, (chars rest). split; [done|]. split; [by apply letter_ok|].
    split; [by apply all_later_ok|]. cbn [chars length] in *. lia.
  - intros (c & l & E & Hc & Hl & Hn). rewrite E. cbn [length].
    destruct (Z.ltb_spec (Z.of_nat (S (length l))) 3); [lia|].
    destruct (Z.ltb_spec 128 (Z.of_nat (S (length l)))); [lia|]. cbn [orb negb].
    destruct s as [|c' rest]; [done|]. cbn [chars] in E. injection E as -> <-.
    rewrite (proj2 (letter_ok c) Hc), (proj2 (all_later_ok rest) Hl). eauto.
Qed.
Lemma native_same s s' : validate_native_denom s = Ok s' -> s' = s.
Proof.
  unfold validate_native_denom. destruct (negb _); [|done]. destruct s as [|c rest]; [done|].
  destruct (is_alphabetic c); [|done]. destruct (all_later rest); [|done]. by injection 1.
Qed.

(** Checked denominations are what was named: the native one of that name, if it is one, or
    the contract at that address, if it answers as a token. *)
Lemma checked_iff valid answers u d :
  into_checked valid answers u = Ok d <->
  match u with
  | UNative s => d = CNative s /\ sdk_denom s
  | UCw20 s => exists a, valid s = Some a /\ answers a = true /\ d = CCw20 a
  end.
Proof.
  destruct u as [s|s]; cbn [into_checked].
  - split.
    + destruct (validate_native_denom s) as [s'|] eqn:E; [|done]. injection 1 as <-.
      rewrite (native_same _ _ E). split; [done|]. apply native_iff. eauto.
    + intros [-> H]. apply native_iff in H as [s' E]. rewrite E. by rewrite (native_same _ _ E).
  - destruct (valid s) as [a|]; [|by split; [|intros (? & ? & _)]]. split.
    + destruct (answers a) eqn:E; [|done]. injection 1 as <-. eauto.
    + intros (a' & [= ->] & -> & ->). done.
Qed.
Lemma kinds d : (forall s, is_native d s = true <-> d = CNative s) /\
  (forall a, is_cw20 d a = true <-> d = CCw20 a).
Proof.
  destruct d as [s|a]; cbn [is_native is_cw20]; split; intros x; try (split; [done|discriminate]).
  - rewrite bool_decide_eq_true. split; [by intros ->|by injection 1].
  - rewrite N.eqb_eq. split; [by intros ->|by injection 1].
Qed.

Definition asset_of (d : checked) : asset :=
  match d with CNative s => ABank s | CCw20 a => AToken a end.
Lemma balance_of held d who : query_balance held d who = held (asset_of d) who.
Proof. by destruct d. Qed.
Lemma transfer_iff held d from to n :
  (exists h, deliver held from (transfer_to d to n) = Ok h) <->
  0 < n <= query_balance held d from.
Proof.
  rewrite balance_of. assert (deliver held from (transfer_to d to n) = moved held (asset_of d) from to n) as ->.
  { destruct d; cbn [transfer_to deliver send_coins asset_of]; [|done].
    by destruct (moved held (ABank s) from to n). }
  unfold moved. destruct (Z.ltb_spec 0 n); [|by split; [intros []|lia]].
  destruct (Z.leb_spec n (held (asset_of d) from)); [|by split; [intros []|lia]].
  split; [lia|eauto].
Qed.
Lemma transfer_exact held d from to n h :
  deliver held from (transfer_to d to n) = Ok h ->
  (from <> to -> query_balance h d from = query_balance held d from - n /\
     query_balance h d to = query_balance held d to + n) /\
  (from = to -> query_balance h d to = query_balance held d to) /\
  (forall d' a, d' <> d \/ (a <> from /\ a <> to) -> query_balance h d' a = query_balance held d' a).
Proof.
  rewrite !balance_of. assert (deliver held from (transfer_to d to n) = moved held (asset_of d) from to n) as ->.
  { destruct d; cbn [transfer_to deliver send_coins asset_of]; [|done].
    by destruct (moved held (ABank s) from to n). }
  unfold moved. destruct (0 <? n); [|done]. destruct (n <=? held (asset_of d) from); [|done].
  injection 1 as <-. split; [|split].
  - intros Hne. split; repeat case_bool_decide; try lia; exfalso; naive_solver.
  - intros ->. repeat case_bool_decide; try lia; exfalso; naive_solver.
  - intros d' a Hd. rewrite !balance_of.
    assert (asset_of d' = asset_of d -> d' = d) as Hinj.
    { destruct d', d; cbn; intros E; try discriminate; by injection E as ->. }
    repeat case_bool_decide; try lia; exfalso; naive_solver.
Qed.
