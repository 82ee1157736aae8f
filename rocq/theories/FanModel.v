(** Model of contracts/external/btsg-ft-factory/src/contract.rs, with the chain's module of
    fan tokens (external, from its documentation as far as bitsong.rs uses it): a token has an
    authority, a minter and a maximal supply; the minter mints positive amounts up to it; the
    authority and the minter hand on their right.

    One call runs to its end: the entry point, the chain's creation of the token, the reply,
    its messages.  The chain's creation of a token calls no contract.  Names, symbols and URIs
    are one number; the fee for a new token is left out. *)
From Verif Require Import Base.

Record fantoken := FanToken {
  ft_authority : addr; ft_minter : addr; ft_max : Z; ft_supply : Z; ft_meta : N }.
Record fanchain := FanChain { fc_tokens : gmap N fantoken; fc_held : gmap (N * addr) Z }.
Definition held_of (s : fanchain) (d : N) (a : addr) : Z := default 0 (fc_held s !! (d, a)).

(** ** The chain *)
Definition fc_issue (s : fanchain) (d : N) (a m : addr) (max : Z) (meta : N) : result fanchain :=
  check! match fc_tokens s !! d with Some _ => false | None => true end else "denom exists";
  Ok (FanChain (<[d := FanToken a m max 0 meta]> (fc_tokens s)) (fc_held s)).
Definition fc_mint (s : fanchain) (sender : addr) (d : N) (a : addr) (n : Z) : result fanchain :=
  some! t <- fc_tokens s !! d else "no such token";
  check! (sender =? ft_minter t)%N else "unauthorized";
  check! 0 <? n else "amount";
  check! ft_supply t + n <=? ft_max t else "exceeds max supply";
  Ok (FanChain
        (<[d := FanToken (ft_authority t) (ft_minter t) (ft_max t) (ft_supply t + n) (ft_meta t)]> (fc_tokens s))
        (<[(d, a) := held_of s d a + n]> (fc_held s))).
Definition fc_set_authority (s : fanchain) (sender : addr) (d : N) (a : addr) : result fanchain :=
  some! t <- fc_tokens s !! d else "no such token";
  check! (sender =? ft_authority t)%N else "unauthorized";
  Ok (FanChain (<[d := FanToken a (ft_minter t) (ft_max t) (ft_supply t) (ft_meta t)]> (fc_tokens s))
        (fc_held s)).
Definition fc_set_minter (s : fanchain) (sender : addr) (d : N) (a : addr) : result fanchain :=
  some! t <- fc_tokens s !! d else "no such token";
  check! (sender =? ft_minter t)%N else "unauthorized";
  Ok (FanChain (<[d := FanToken (ft_authority t) a (ft_max t) (ft_supply t) (ft_meta t)]> (fc_tokens s))
        (fc_held s)).
Definition fc_send (s : fanchain) (sender : addr) (d : N) (a : addr) (n : Z) : result fanchain :=
  check! (0 <? n) && (n <=? held_of s d sender) else "insufficient funds";
  let h := <[(d, sender) := held_of s d sender - n]> (fc_held s) in
  let s1 := FanChain (fc_tokens s) h in
  Ok (FanChain (fc_tokens s) (<[(d, a) := held_of s1 d a + n]> h)).

(** ** The factory *)
(** msg.rs:23-38 [NewFanToken]. *)
Record newtoken := NewToken {
  nt_meta : N; nt_max : Z; nt_balances : list (addr * Z); nt_dao : option Z }.
(** state.rs: the token in creation with its DAO; the chain is part of the state. *)
Record factory := Factory {
  fa_self : addr; fa_creating : option (newtoken * addr); fa_chain : fanchain }.

(** The messages of [reply], 108-158. *)
Inductive fanmsg :=
| MMint (a : addr) (n : Z)
| MAuthority (a : addr)
| MMinter (a : addr).
Definition fan_messages (t : newtoken) (dao : addr) : list fanmsg :=
  map (fun x => MMint x.1 x.2) (nt_balances t) ++
  match nt_dao t with
  | Some n => if n =? 0 then [] else [MMint dao n]
  | None => []
  end ++ [MAuthority dao; MMinter dao].
Definition fan_run (s : fanchain) (me : addr) (d : N) (m : fanmsg) : result fanchain :=
  match m with
  | MMint a n => fc_mint s me d a n
  | MAuthority a => fc_set_authority s me d a
  | MMinter a => fc_set_minter s me d a
  end.
Fixpoint fan_all (s : fanchain) (me : addr) (d : N) (l : list fanmsg) : result fanchain :=
  match l with
  | [] => Ok s
  | m :: l => do! s' <- fan_run s me d m; fan_all s' me d l
  end.
(** 89-174 [reply]. *)
Definition fan_reply (s : factory) (d : N) : result (factory * list fanmsg) :=
  some! x <- fa_creating s else "NotFound";
  Ok (Factory (fa_self s) None (fa_chain s), fan_messages x.1 x.2).
(** 46-81 [execute_issue], the creation and the reply; [dao] is what the sender answers to the
    question for its DAO, [d] the denomination the chain chooses. *)
Definition fan_issue (s : factory) (dao : option addr) (d : N) (t : newtoken) : result factory :=
  some! x <- dao else "query failed";
  let s1 := Factory (fa_self s) (Some (t, x)) (fa_chain s) in
  do! c1 <- fc_issue (fa_chain s1) d (fa_self s) (fa_self s) (nt_max t) (nt_meta t);
  do! ' (s2, msgs) <- fan_reply (Factory (fa_self s1) (fa_creating s1) c1) d;
  do! c2 <- fan_all (fa_chain s2) (fa_self s) d msgs;
  Ok (Factory (fa_self s2) (fa_creating s2) c2).

(** ** All that may happen *)
Inductive fanevent :=
| FIssue (dao : option addr) (d : N) (t : newtoken)        (* somebody calls the factory *)
| FNew (a m : addr) (d : N) (max : Z) (meta : N)           (* somebody else makes a token *)
| FMint (d : N) (a : addr) (n : Z)
| FAuthority (d : N) (a : addr)
| FMinter (d : N) (a : addr)
| FSend (d : N) (a : addr) (n : Z).
Definition fan_event (s : factory) (sender : addr) (e : fanevent) : result factory :=
  let on c := Factory (fa_self s) (fa_creating s) c in
  match e with
  | FIssue dao d t => fan_issue s dao d t
  | _ =>
      (* the factory sends no other messages *)
      check! negb (sender =? fa_self s)%N else "not the factory";
      do! c <-
        match e with
        | FNew a m d max meta => fc_issue (fa_chain s) d a m max meta
        | FMint d a n => fc_mint (fa_chain s) sender d a n
        | FAuthority d a => fc_set_authority (fa_chain s) sender d a
        | FMinter d a => fc_set_minter (fa_chain s) sender d a
        | FSend d a n => fc_send (fa_chain s) sender d a n
        | FIssue _ _ _ => Err "above"
        end;
      Ok (on c)
  end.
