(** Model of contracts/external/cw-tokenfactory-issuer/src: contract.rs, execute.rs,
    helpers.rs, hooks.rs, state.rs.

    The token factory and the bank are part of the chain.  The last three fields of the state
    are the chain's: who holds how much of the managed token, who the token factory takes for
    the admin of its denomination, and which contract the bank asks before a transfer.  The
    messages a handler emits are performed by the handler, a failure reverts the call.  The
    chain does not run the hook for burning and for forced transfers; if it does, fewer of them
    succeed.  A hook contract other than this one lets everything pass and does not call
    back.  The messages beginning with [X] are calls to the chain, not to this contract: the
    sender is any account but the contract.

    The denomination is set at once; a contract creating its token gets it in the reply to the
    message creating it (contract.rs:178-189). *)
From Verif Require Import Base Exec StoreModel.

Record istate := IState {
  i_self : addr;
  i_own : own;
  i_denom : N;
  i_feat : bool;                 (* state.rs:15-25, advanced_features_enabled *)
  i_hook : option addr;          (* hook_contract_address *)
  i_frozen : bool;
  i_allow : gmap addr bool;
  i_deny : gmap addr bool;
  i_mint : gmap addr Z;
  i_burn : gmap addr Z;
  i_bal : gmap addr Z;
  i_admin : addr;
  i_bhook : option addr }.

Definition set_own (s : istate) (o : own) : istate :=
  IState (i_self s) o (i_denom s) (i_feat s) (i_hook s) (i_frozen s) (i_allow s) (i_deny s)
    (i_mint s) (i_burn s) (i_bal s) (i_admin s) (i_bhook s).
Definition set_hook (s : istate) (f : bool) (h : option addr) (bh : option addr) : istate :=
  IState (i_self s) (i_own s) (i_denom s) f h (i_frozen s) (i_allow s) (i_deny s)
    (i_mint s) (i_burn s) (i_bal s) (i_admin s) bh.
Definition set_frozen (s : istate) (x : bool) : istate :=
  IState (i_self s) (i_own s) (i_denom s) (i_feat s) (i_hook s) x (i_allow s) (i_deny s)
    (i_mint s) (i_burn s) (i_bal s) (i_admin s) (i_bhook s).
Definition set_allow (s : istate) (m : gmap addr bool) : istate :=
  IState (i_self s) (i_own s) (i_denom s) (i_feat s) (i_hook s) (i_frozen s) m (i_deny s)
    (i_mint s) (i_burn s) (i_bal s) (i_admin s) (i_bhook s).
Definition set_deny (s : istate) (m : gmap addr bool) : istate :=
  IState (i_self s) (i_own s) (i_denom s) (i_feat s) (i_hook s) (i_frozen s) (i_allow s) m
    (i_mint s) (i_burn s) (i_bal s) (i_admin s) (i_bhook s).
Definition set_mint (s : istate) (m : gmap addr Z) : istate :=
  IState (i_self s) (i_own s) (i_denom s) (i_feat s) (i_hook s) (i_frozen s) (i_allow s)
    (i_deny s) m (i_burn s) (i_bal s) (i_admin s) (i_bhook s).
Definition set_burn (s : istate) (m : gmap addr Z) : istate :=
  IState (i_self s) (i_own s) (i_denom s) (i_feat s) (i_hook s) (i_frozen s) (i_allow s)
    (i_deny s) (i_mint s) m (i_bal s) (i_admin s) (i_bhook s).
Definition set_bal (s : istate) (m : gmap addr Z) : istate :=
  IState (i_self s) (i_own s) (i_denom s) (i_feat s) (i_hook s) (i_frozen s) (i_allow s)
    (i_deny s) (i_mint s) (i_burn s) m (i_admin s) (i_bhook s).
Definition set_admin (s : istate) (a : addr) : istate :=
  IState (i_self s) (i_own s) (i_denom s) (i_feat s) (i_hook s) (i_frozen s) (i_allow s)
    (i_deny s) (i_mint s) (i_burn s) (i_bal s) a (i_bhook s).

(** msg.rs:28-150 [ExecuteMsg]; [None] for the hook is the empty address. *)
Inductive imsg :=
| IMint (to : addr) (n : Z)
| IBurn (from : addr) (n : Z)
| IDeny (a : addr) (x : bool)
| IAllow (a : addr) (x : bool)
| IFreeze (x : bool)
| IForce (n : Z) (from to : addr)
| IAdmin (a : addr)
| IOwn (act : own_action)
| ISetMinter (a : addr) (n : Z)
| ISetBurner (a : addr) (n : Z)
| ISetHook (h : option addr)
| IMetadata
| XSend (to : addr) (n : Z)      (* bank transfer by the sender *)
| XMint (to : addr) (n : Z)      (* the next four: by the admin of the denomination *)
| XBurn (from : addr) (n : Z)
| XAdmin (a : addr)
| XHook (h : option addr).
(** The messages emitted. *)
Inductive isub :=
| SMint (n : Z)
| SSend (to : addr) (n : Z)
| SBurn (from : addr) (n : Z)
| SForce (n : Z) (from to : addr)
| SAdmin (a : addr)
| SHook (h : option addr)
| SMeta.

(** contract.rs:23-66 [instantiate]: creating the token. *)
Definition i_new (self sender : addr) (denom : N) : istate :=
  IState self (initialize_owner (Some sender)) denom false None false ∅ ∅ ∅ ∅ ∅ self None.
(** The same, taking over a token with its holders, its admin and its hook. *)
Definition i_take (self sender : addr) (denom : N) (bal : gmap addr Z) (admin : addr)
    (bh : option addr) : istate :=
  IState self (initialize_owner (Some sender)) denom false None false ∅ ∅ ∅ ∅ bal admin bh.

(** helpers.rs:16-24 [check_is_not_denied]. *)
Definition not_denied (s : istate) (a : addr) : result unit :=
  match i_deny s !! a with
  | Some true => Err "Denied"
  | _ => Ok tt
  end.
(** helpers.rs:26-63 [check_is_not_frozen]. *)
Definition not_frozen (s : istate) (from to : addr) (denom : N) : result unit :=
  if i_frozen s && (denom =? i_denom s)%N then
    match i_allow s !! from, i_allow s !! to with
    | Some true, _ => Ok tt
    | _, Some true => Ok tt
    | _, _ => Err "ContractFrozen"
    end
  else Ok tt.
(** hooks.rs:10-25 [beforesend_hook]. *)
Definition before_send (s : istate) (from to : addr) (denom : N) : result unit :=
  do! u <- not_frozen s from to denom;
  do! u <- not_denied s from;
  not_denied s to.

(** The chain. *)
Definition i_bal_of (s : istate) (a : addr) : Z := default 0 (i_bal s !! a).
Definition move (s : istate) (from to : addr) (n : Z) : result istate :=
  check! n <=? i_bal_of s from else "insufficient funds";
  let m := <[from := i_bal_of s from - n]> (i_bal s) in
  Ok (set_bal s (<[to := default 0 (m !! to) + n]> m)).
Definition bank_send (s : istate) (from to : addr) (n : Z) : result istate :=
  match i_bhook s with
  | Some h =>
      if (h =? i_self s)%N then do! u <- before_send s from to (i_denom s); move s from to n
      else move s from to n
  | None => move s from to n
  end.
Definition tf_mint (s : istate) (admin to : addr) (n : Z) : result istate :=
  check! (admin =? i_admin s)%N else "unauthorized account";
  Ok (set_bal s (<[to := i_bal_of s to + n]> (i_bal s))).
Definition tf_burn (s : istate) (admin from : addr) (n : Z) : result istate :=
  check! (admin =? i_admin s)%N else "unauthorized account";
  check! n <=? i_bal_of s from else "insufficient funds";
  Ok (set_bal s (<[from := i_bal_of s from - n]> (i_bal s))).

(** An allowance map loaded with zero for no entry, and saved without zeros. *)
Definition allowance (m : gmap addr Z) (a : addr) : Z := default 0 (m !! a).
Definition put (m : gmap addr Z) (a : addr) (n : Z) : gmap addr Z :=
  if n =? 0 then delete a m else <[a := n]> m.
Definition flag (m : gmap addr bool) (a : addr) (x : bool) : gmap addr bool :=
  if x then <[a := x]> m else delete a m.

Definition i_handle (s : istate) (b : block) (sender : addr) (m : imsg)
  : result (istate * list isub) :=
  match m with
  (* execute.rs:19-76 *)
  | IMint to n =>
      check! fits128 n else "parse";
      check! negb (n =? 0) else "ZeroAmount";
      check! n <=? allowance (i_mint s) sender else "NotEnoughMintAllowance";
      let s1 := set_mint s (put (i_mint s) sender (allowance (i_mint s) sender - n)) in
      do! u <- not_frozen s1 sender to (i_denom s1);
      do! s2 <- tf_mint s1 (i_self s) (i_self s) n;
      do! s3 <- bank_send s2 (i_self s) to n;
      Ok (s3, [SMint n; SSend to n])
  (* 83-132 *)
  | IBurn from n =>
      check! fits128 n else "parse";
      check! negb (n =? 0) else "ZeroAmount";
      check! n <=? allowance (i_burn s) sender else "NotEnoughBurnAllowance";
      let s1 := set_burn s (put (i_burn s) sender (allowance (i_burn s) sender - n)) in
      do! s2 <- tf_burn s1 (i_self s) from n;
      Ok (s2, [SBurn from n])
  (* 370-402 *)
  | IDeny a x =>
      check! i_feat s else "BeforeSendHookFeaturesDisabled";
      check! is_owner (i_own s) sender else "NotOwner";
      check! negb (a =? i_self s)%N else "CannotDenylistSelf";
      Ok (set_deny s (flag (i_deny s) a x), [])
  (* 411-437 *)
  | IAllow a x =>
      check! i_feat s else "BeforeSendHookFeaturesDisabled";
      check! is_owner (i_own s) sender else "NotOwner";
      Ok (set_allow s (flag (i_allow s) a x), [])
  (* 337-363 *)
  | IFreeze x =>
      check! i_feat s else "BeforeSendHookFeaturesDisabled";
      check! is_owner (i_own s) sender else "NotOwner";
      Ok (set_allow (set_frozen s x) (flag (i_allow s) (i_self s) x), [])
  (* 440-474 *)
  | IForce n from to =>
      check! fits128 n else "parse";
      check! is_owner (i_own s) sender else "NotOwner";
      check! (i_self s =? i_admin s)%N else "unauthorized account";
      do! s1 <- move s from to n;
      Ok (s1, [SForce n from to])
  (* 147-176 *)
  | IAdmin a =>
      check! is_owner (i_own s) sender else "NotOwner";
      check! (i_self s =? i_admin s)%N else "unauthorized account";
      Ok (set_admin s a, [SAdmin a])
  (* 134-145 *)
  | IOwn act =>
      do! o <- update_ownership (i_own s) b sender act;
      Ok (set_own s o, [])
  (* 297-320 *)
  | ISetMinter a n =>
      check! fits128 n else "parse";
      check! is_owner (i_own s) sender else "NotOwner";
      Ok (set_mint s (put (i_mint s) a n), [])
  (* 268-291 *)
  | ISetBurner a n =>
      check! fits128 n else "parse";
      check! is_owner (i_own s) sender else "NotOwner";
      Ok (set_burn s (put (i_burn s) a n), [])
  (* 198-262 *)
  | ISetHook h =>
      check! is_owner (i_own s) sender else "NotOwner";
      check! (i_self s =? i_admin s)%N else "unauthorized account";
      Ok (set_hook s (match h with Some x => (x =? i_self s)%N | None => false end) h h, [SHook h])
  (* 178-195 *)
  | IMetadata =>
      check! is_owner (i_own s) sender else "NotOwner";
      check! (i_self s =? i_admin s)%N else "unauthorized account";
      Ok (s, [SMeta])
  | XSend to n =>
      check! fits128 n else "parse";
      check! negb (sender =? i_self s)%N else "not an outside account";
      do! s1 <- bank_send s sender to n;
      Ok (s1, [])
  | XMint to n =>
      check! fits128 n else "parse";
      check! negb (sender =? i_self s)%N else "not an outside account";
      do! s1 <- tf_mint s sender to n;
      Ok (s1, [])
  | XBurn from n =>
      check! fits128 n else "parse";
      check! negb (sender =? i_self s)%N else "not an outside account";
      do! s1 <- tf_burn s sender from n;
      Ok (s1, [])
  | XAdmin a =>
      check! negb (sender =? i_self s)%N else "not an outside account";
      check! (sender =? i_admin s)%N else "unauthorized account";
      Ok (set_admin s a, [])
  | XHook h =>
      check! negb (sender =? i_self s)%N else "not an outside account";
      check! (sender =? i_admin s)%N else "unauthorized account";
      Ok (set_hook s (i_feat s) (i_hook s) h, [])
  end.
