(** An NFT collection: cw721-base 0.18, from its documentation and the cw721 standard.  It is
    what dao-voting-cw721-staked instantiates for a DAO with a collection of its own
    (contracts/voting/dao-voting-cw721-staked/src/contract.rs:118-163); its messages are those
    of [Cw721ExecuteMsg] (packages/dao-cw721-extensions and contracts/external/cw721-roles
    wrap the same ones).  Token ids are numbers.  Left out: names, symbols, URIs, extensions. *)
From Verif Require Import Base Exec StoreModel.

(** A token: its owner, and who may move it. *)
Record tok := Tok { k_owner : addr; k_appr : list (addr * expiration) }.
(** [q_own]: who may mint; [q_ops]: who may move every token of an owner. *)
Record coll := Coll { q_own : own; q_toks : gmap N tok; q_ops : gmap (addr * addr) expiration }.
Definition coll_new (minter : addr) : coll := Coll (initialize_owner (Some minter)) ∅ ∅.

Inductive cmsg :=
| CMint (id : N) (owner : addr)
| CTransfer (id : N) (to : addr)
| CSend (id : N) (to : addr)
| CApprove (id : N) (spender : addr) (e : expiration)
| CRevoke (id : N) (spender : addr)
| CApproveAll (operator : addr) (e : expiration)
| CRevokeAll (operator : addr)
| CBurn (id : N)
| COwn (act : own_action).

(** Whether [a] is an operator of [owner]. *)
Definition operator (c : coll) (b : block) (owner a : addr) : bool :=
  match q_ops c !! (owner, a) with Some e => negb (is_expired e b) | None => false end.
(** [check_can_send], [check_can_approve]. *)
Definition can_send (c : coll) (b : block) (t : tok) (a : addr) : bool :=
  (k_owner t =? a)%N ||
  existsb (fun x => (x.1 =? a)%N && negb (is_expired x.2 b)) (k_appr t) ||
  operator c b (k_owner t) a.
Definition can_approve (c : coll) (b : block) (t : tok) (a : addr) : bool :=
  (k_owner t =? a)%N || operator c b (k_owner t) a.
Definition with_toks (c : coll) (m : gmap N tok) : coll := Coll (q_own c) m (q_ops c).
(** [_transfer_nft]: the approvals are forgotten. *)
Definition c_move (c : coll) (b : block) (sender : addr) (id : N) (to : addr) : result coll :=
  some! t <- q_toks c !! id else "not found";
  check! can_send c b t sender else "NotOwner";
  Ok (with_toks c (<[id := Tok to []]> (q_toks c))).
(** [_update_approvals]. *)
Definition c_approvals (c : coll) (b : block) (sender : addr) (id : N) (spender : addr)
    (add : option expiration) : result coll :=
  some! t <- q_toks c !! id else "not found";
  check! can_approve c b t sender else "NotOwner";
  let rest := List.filter (fun x => negb (x.1 =? spender)%N) (k_appr t) in
  do! appr <- match add with
              | Some e => check! negb (is_expired e b) else "Expired"; Ok (rest ++ [(spender, e)])
              | None => Ok rest
              end;
  Ok (with_toks c (<[id := Tok (k_owner t) appr]> (q_toks c))).
Definition c_handle (c : coll) (b : block) (sender : addr) (m : cmsg) : result coll :=
  match m with
  | CMint id owner =>
      check! is_owner (q_own c) sender else "NotOwner";
      match q_toks c !! id with
      | Some _ => Err "Claimed"
      | None => Ok (with_toks c (<[id := Tok owner []]> (q_toks c)))
      end
  | CTransfer id to | CSend id to => c_move c b sender id to
  | CApprove id sp e => c_approvals c b sender id sp (Some e)
  | CRevoke id sp => c_approvals c b sender id sp None
  | CApproveAll op e =>
      check! negb (is_expired e b) else "Expired";
      Ok (Coll (q_own c) (q_toks c) (<[(sender, op) := e]> (q_ops c)))
  | CRevokeAll op => Ok (Coll (q_own c) (q_toks c) (delete (sender, op) (q_ops c)))
  | CBurn id =>
      some! t <- q_toks c !! id else "not found";
      check! can_send c b t sender else "NotOwner";
      Ok (with_toks c (delete id (q_toks c)))
  | COwn act =>
      do! o <- update_ownership (q_own c) b sender act;
      Ok (Coll o (q_toks c) (q_ops c))
  end.
(** [NumTokens]. *)
Definition c_supply (c : coll) : Z := Z.of_nat (size (q_toks c)).
