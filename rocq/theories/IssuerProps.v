(** cw-tokenfactory-issuer: theorems.  Each is followed by what it rests on and by a concrete
    case meeting its hypotheses. *)
From Verif Require Import Base BaseProofs Exec ExecProofs Plain StoreModel
  IssuerModel IssuerSpec IssuerProofs IssuerClaims IssuerExamples.

(** * C61 *)
Theorem C61_within_grants s0 b s l a : ireached s0 b s l ->
  minted a l <= granted (mint_grant a) l /\ burned a l <= granted (burn_grant a) l.
Proof. exact (minted_granted s0 b s l a). Qed.
Print Assumptions C61_within_grants.
Theorem C61_minted_since_grant s0 b s l1 pre b1 o n post subs l2 a :
  ireached s0 b s (l1 ++ ECall pre b1 o (ISetMinter a n) post subs :: l2) ->
  ungranted (mint_grant a) l2 ->
  minted a l2 <= n /\ allowance (i_mint s) a = n - minted a l2.
Proof. exact (minted_since s0 b s l1 pre b1 o n post subs l2 a). Qed.
Print Assumptions C61_minted_since_grant.
Theorem C61_burned_since_grant s0 b s l1 pre b1 o n post subs l2 a :
  ireached s0 b s (l1 ++ ECall pre b1 o (ISetBurner a n) post subs :: l2) ->
  ungranted (burn_grant a) l2 ->
  burned a l2 <= n /\ allowance (i_burn s) a = n - burned a l2.
Proof. exact (burned_since s0 b s l1 pre b1 o n post subs l2 a). Qed.
Print Assumptions C61_burned_since_grant.
Theorem C61_who_changes s0 b s l pre b1 sender m post subs a :
  ireached s0 b s l -> ECall pre b1 sender m post subs ∈ l ->
  (allowance (i_mint post) a <> allowance (i_mint pre) a ->
     (exists n, m = ISetMinter a n /\ o_owner (i_own pre) = Some sender /\
        allowance (i_mint post) a = n) \/
     (exists to n, m = IMint to n /\ sender = a /\
        allowance (i_mint post) a = allowance (i_mint pre) a - n)) /\
  (allowance (i_burn post) a <> allowance (i_burn pre) a ->
     (exists n, m = ISetBurner a n /\ o_owner (i_own pre) = Some sender /\
        allowance (i_burn post) a = n) \/
     (exists from n, m = IBurn from n /\ sender = a /\
        allowance (i_burn post) a = allowance (i_burn pre) a - n)).
Proof. exact (allowance_changed s0 b s l pre b1 sender m post subs a). Qed.
Print Assumptions C61_who_changes.
Theorem C61_owner_only s b sender m s' subs : i_handle s b sender m = Ok (s', subs) ->
  match m with
  | IDeny _ _ | IAllow _ _ | IFreeze _ | IForce _ _ _ | IAdmin _ | ISetMinter _ _
  | ISetBurner _ _ | ISetHook _ | IMetadata => o_owner (i_own s) = Some sender
  | _ => True
  end /\
  (o_owner (i_own s') <> o_owner (i_own s) ->
     (m = IOwn ORenounce /\ o_owner (i_own s) = Some sender) \/
     (m = IOwn OAccept /\ o_pending (i_own s) = Some sender /\ o_owner (i_own s') = Some sender)) /\
  (o_pending (i_own s') <> o_pending (i_own s) -> o_pending (i_own s') <> None ->
     o_owner (i_own s) = Some sender).
Proof. exact (owner_only s b sender m s' subs). Qed.
Print Assumptions C61_owner_only.
Theorem C61_mint_exact s b a to n s' subs : i_handle s b a (IMint to n) = Ok (s', subs) ->
  0 < n <= allowance (i_mint s) a /\ i_admin s = i_self s /\ supply s' = supply s + n /\
  forall c, i_bal_of s' c = i_bal_of s c + (if decide (c = to) then n else 0).
Proof. exact (mint_exact s b a to n s' subs). Qed.
Print Assumptions C61_mint_exact.
Theorem C61_mint_possible s b a to n :
  0 < n <= U128_MAX -> n <= allowance (i_mint s) a -> i_admin s = i_self s ->
  0 <= i_bal_of s (i_self s) ->
  (i_frozen s = true -> on_list (i_allow s) a = true \/ on_list (i_allow s) to = true) ->
  (i_bhook s = Some (i_self s) ->
     before_send s (i_self s) to (i_denom s) = Ok tt) ->
  exists s' subs, i_handle s b a (IMint to n) = Ok (s', subs).
Proof. exact (mint_possible s b a to n). Qed.
Print Assumptions C61_mint_possible.
Theorem C61_burn_exact s b a from n s' subs : i_handle s b a (IBurn from n) = Ok (s', subs) ->
  0 < n <= allowance (i_burn s) a /\ i_admin s = i_self s /\ supply s' = supply s - n /\
  n <= i_bal_of s from /\
  forall c, i_bal_of s' c = i_bal_of s c - (if decide (c = from) then n else 0).
Proof. exact (burn_exact s b a from n s' subs). Qed.
Print Assumptions C61_burn_exact.
Theorem C61_force_exact s b a n from to s' subs : i_handle s b a (IForce n from to) = Ok (s', subs) ->
  o_owner (i_own s) = Some a /\ i_admin s = i_self s /\ 0 <= n <= i_bal_of s from /\
  supply s' = supply s /\ set_bal s' (i_bal s) = s /\
  forall c, i_bal_of s' c = i_bal_of s c - (if decide (c = from) then n else 0) +
    (if decide (c = to) then n else 0).
Proof. exact (force_exact s b a n from to s' subs). Qed.
Print Assumptions C61_force_exact.
Theorem C61_takes_admin s b a m s' subs : i_handle s b a m = Ok (s', subs) ->
  match m with
  | IMint _ _ | IBurn _ _ | IForce _ _ _ | IAdmin _ | ISetHook _ | IMetadata =>
      i_admin s = i_self s
  | XMint _ _ | XBurn _ _ | XAdmin _ | XHook _ => i_admin s = a /\ a <> i_self s
  | XSend _ n => 0 <= n <= i_bal_of s a /\ a <> i_self s
  | _ => i_admin s' = i_admin s /\ i_bhook s' = i_bhook s /\ i_bal s' = i_bal s
  end.
Proof. exact (takes_admin s b a m s' subs). Qed.
Print Assumptions C61_takes_admin.
Theorem C61_supply self o d b s l :
  ireached (i_new self o d) b s l -> keeps_admin l ->
  supply s = lsum (ev_all sub_mint) l - lsum (ev_all sub_burn) l.
Proof. exact (supply_minted self o d b s l). Qed.
Print Assumptions C61_supply.
(** The owner can take all 260 of account 5, and no more. *)
Example C61_force_case :
  let s := fst (irun minting) in
  ireached i0 (ib 5) s (snd (irun minting)) /\ i_bal_of s 5 = 260 /\
  is_ok (i_handle s (ib 6) 1%N (IForce 260 5 9)) = true /\
  is_ok (i_handle s (ib 6) 1%N (IForce 261 5 9)) = false /\
  is_ok (i_handle s (ib 6) 2%N (IForce 1 5 9)) = false /\
  is_ok (i_handle (set_admin s 7%N) (ib 6) 1%N (IForce 1 5 9)) = false.
Proof. cbv zeta. split; [ireach|]. repeat split; vm_compute; reflexivity. Qed.
(** With the contract as admin its own messages pass and outside ones do not; once account 7 is
    the admin it is the other way round. *)
Example C61_admin_case :
  let s := fst (irun minting) in
  let t := set_admin s 7%N in
  forallb (fun m => is_ok (i_handle s (ib 6) 1%N m) && negb (is_ok (i_handle t (ib 6) 1%N m)))
    [IForce 1 5 9; IAdmin 8; ISetHook (Some 8%N); IMetadata] = true /\
  forallb (fun m => negb (is_ok (i_handle s (ib 6) 7%N m)) && is_ok (i_handle t (ib 6) 7%N m))
    [XMint 5 1; XBurn 5 1; XAdmin 8; XHook (Some 8%N)] = true.
Proof. cbv zeta. split; vm_compute; reflexivity. Qed.
(** 550 granted, 320 minted, 30 left of the last 50. *)
Example C61_case :
  let r := irun minting in let s := fst r in let l := snd r in
  ireached i0 (ib 5) s l /\ keeps_admin l /\ minted 2 l = 320 /\ granted (mint_grant 2) l = 550 /\
  minted 9 l = 0 /\ allowance (i_mint s) 2 = 30 /\ burned 3 l = 40 /\
  allowance (i_burn s) 3 = 60 /\ supply s = 280 /\ i_bal_of s 5 = 260 /\
  (exists pre b post subs l1 l2, l = l1 ++ ECall pre b 1%N (ISetMinter 2 50) post subs :: l2 /\
     ungranted (mint_grant 2) l2 /\ minted 2 l2 = 20) /\
  is_ok (i_handle s (ib 6) 2%N (IMint 9 30)) = true /\
  is_ok (i_handle s (ib 6) 2%N (IMint 9 31)) = false.
Proof.
  cbv zeta. split; [ireach|]. split.
  { intros pre b sender a post subs Hin. vm_compute in Hin.
    repeat (apply elem_of_cons in Hin as [Hin|Hin]; [discriminate Hin|]).
    by apply elem_of_nil in Hin. }
  do 8 (split; [vm_compute; reflexivity|]). split.
  { set (l := snd (irun minting)). vm_compute in l. do 4 eexists.
    exists (firstn 4 l), (skipn 5 l). split; [vm_compute; reflexivity|]. split.
    - intros e Hin. vm_compute in Hin.
      repeat (apply elem_of_cons in Hin as [->|Hin]; [vm_compute; reflexivity|]).
      by apply elem_of_nil in Hin.
    - vm_compute. reflexivity. }
  split; vm_compute; reflexivity.
Qed.

(** * C62 *)
(** Missing: a hook taken away or handed to another contract leaves the token frozen only
    by name. *)
Theorem C62_hook_partial s0 b s l from to d : ireached s0 b s l ->
  (before_send s from to d = Ok tt <->
   ((frozen l -> d = i_denom s0 -> allowed (i_self s0) from l \/ allowed (i_self s0) to l) /\
    ~ denied from l /\ ~ denied to l)).
Proof. exact (hook_decides s0 b s l from to d). Qed.
Print Assumptions C62_hook_partial.
Theorem C62_transfer_partial s0 b s l1 pre b1 sender m post subs l2 from to :
  ireached s0 b s (l1 ++ ECall pre b1 sender m post subs :: l2) ->
  i_bhook pre = Some (i_self s0) -> (from, to) ∈ transfers (i_self s0) sender m ->
  may_move (i_self s0) l1 from to.
Proof. exact (transfer_may s0 b s l1 pre b1 sender m post subs l2 from to). Qed.
Print Assumptions C62_transfer_partial.
Theorem C62_frozen_mint s0 b s l1 pre b1 sender to n post subs l2 :
  ireached s0 b s (l1 ++ ECall pre b1 sender (IMint to n) post subs :: l2) ->
  frozen l1 -> allowed (i_self s0) sender l1 \/ allowed (i_self s0) to l1.
Proof. exact (frozen_mint s0 b s l1 pre b1 sender to n post subs l2). Qed.
Print Assumptions C62_frozen_mint.
Theorem C62_unhooked_refuted : exists s0 b s l from to n s' subs,
  ireached s0 b s l /\ frozen l /\ denied from l /\ ~ may_move (i_self s0) l from to /\
  i_handle s b from (XSend to n) = Ok (s', subs) /\ 0 < n /\ subs = [].
Proof. exact unhooked_refuted. Qed.
Print Assumptions C62_unhooked_refuted.
Theorem C62_issuer_never_denied s0 b s l : ireached s0 b s l ->
  ~ denied (i_self s0) l /\ i_deny s !! i_self s0 <> Some true.
Proof. exact (issuer_not_denied s0 b s l). Qed.
Print Assumptions C62_issuer_never_denied.
Theorem C62_lists_owner s0 b s l pre b1 sender m post subs :
  ireached s0 b s l -> ECall pre b1 sender m post subs ∈ l ->
  i_frozen post <> i_frozen pre \/ i_allow post <> i_allow pre \/ i_deny post <> i_deny pre ->
  o_owner (i_own pre) = Some sender /\ i_feat pre = true /\
  ((exists x, m = IFreeze x) \/ (exists a x, m = IAllow a x) \/ (exists a x, m = IDeny a x)).
Proof. exact (lists_owner s0 b s l pre b1 sender m post subs). Qed.
Print Assumptions C62_lists_owner.
Theorem C62_hook_in_place self o d b s l :
  ireached (i_new self o d) b s l -> keeps_admin l ->
  (i_feat s = true <-> i_bhook s = Some self).
Proof. exact (hook_in_place self o d b s l). Qed.
Print Assumptions C62_hook_in_place.
Example C62_case :
  let r := irun freezing in let s := fst r in let l := snd r in
  let t := irun sending in
  ireached i0 (ib 8) s l /\ i_bhook s = Some 100%N /\ i_feat s = true /\
  frozen l /\ allowed 100 8 l /\ allowed 100 100 l /\ denied 6 l /\
  before_send s 5 8 7 = Ok tt /\ before_send s 5 9 3 = Ok tt /\
  is_ok (before_send s 5 9 7) = false /\ is_ok (before_send s 6 8 7) = false /\
  is_ok (before_send s 8 6 3) = false /\ i_deny s !! 100%N = None /\
  ireached i0 (ib 8) (fst t) (snd t) /\ length (snd t) = S (length l) /\
  i_bal_of (fst t) 8 = 10.
Proof.
  cbv zeta. split; [ireach|]. do 12 (split; [vm_compute; reflexivity|]).
  split; [ireach|]. split; vm_compute; reflexivity.
Qed.
