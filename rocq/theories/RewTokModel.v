(** dao-rewards-distributor (RewModel.v) joined to dao-voting-token-staked (TokModel.v), the
    voting-power contract and hook caller of some of its distributions.

    A stake or unstake at the module at [md] sends a hook to every receiver on its list
    (contracts/voting/dao-voting-token-staked/src/contract.rs:181-282,
    packages/dao-hooks/src/stake.rs:21-63).  These messages wait in [rj_out], the first to be
    delivered first; what a call sends is put in front.  [RDeliver] delivers the first: if the
    receiver is the distributor at [self] it handles it (contracts/distribution/
    dao-rewards-distributor/src/hooks.rs:57-140), as a call of the module; other receivers do
    whatever they like, that is, anybody may call either contract at any time.  They are
    sent without a reply, so a block ends only when all are delivered; a refused one undoes
    the call that sent it, which is then no part of the history.

    The distributor's questions about the power at [md] are answered by the module: after every
    change [e_vps] holds the module's own storage.  Voting-power contracts and hook callers
    other than [md] are as in RewModel.v.  The module makes no calls of its own but these.

    Both start out fresh.  A distributor made later is one that nobody called until then:
    nothing in its first state depends on the block. *)
From Verif Require Import Base Exec HooksModel StoreModel TokModel RewModel.

Record rjstate := RJ {
  rj_t : tstate;
  rj_e : estate;
  rj_out : list tsub;
  rj_block : block }.
Inductive rjmsg :=
| RTok (m : tmsg)
| RRew (m : emsg)
| RDeliver.
Inductive rjsub := RT (x : tsub) | RE (x : esub).

Definition is_hook (x : tsub) : bool := match x with THook _ _ _ _ => true | _ => false end.
Definition stakes (m : tmsg) : bool :=
  match m with TStake _ | TUnstake _ => true | _ => false end.
Definition hooked (self : addr) (t : tstate) : bool := existsb (N.eqb self) (t_hooks t).
(** The distributor sees the module's storage as it is after the call [m] of [who].  [e_due]
    counts the reports on their way to it (RewModel.v). *)
Definition seen (md self : addr) (e : estate) (b : block) (t t' : tstate) (who : addr) : estate :=
  EState (e_own e) (e_count e) (e_dists e) (e_pend e) (e_acc e) (e_hooks e)
    (<[md := VP (t_bals t') (t_total t') (height b)]> (e_vps e)) (e_held e)
    (match e_hooks e !! md with
     | Some _ => if hooked self t then e_due e ++ [(md, who)] else e_due e
     | None => e_due e
     end) b.
(** Changes of power elsewhere. *)
Definition elsewhere (md : addr) (m : emsg) : bool :=
  match m with
  | EPower vp caller _ _ => negb (vp =? md)%N && negb (caller =? md)%N
  | _ => true
  end.
Definition rj_goes (md : addr) (s : rjstate) (b : block) : bool :=
  (height b <=? U64_MAX) &&
  if height b =? height (rj_block s) then time b =? time (rj_block s)
  else match rj_out s with [] => true | _ => false end &&
       forallb (fun x => (x.1 =? md)%N) (e_due (rj_e s)).
Definition rj_handle (md self : addr) (s : rjstate) (b : block) (sender : addr) (m : rjmsg)
  : result (rjstate * list rjsub) :=
  check! rj_goes md s b else "no such block";
  match m with
  | RTok m =>
      do! ' (t', subs) <- t_handle (rj_t s) b sender m;
      Ok (RJ t' (if stakes m then seen md self (rj_e s) b (rj_t s) t' sender else rj_e s)
            (List.filter is_hook subs ++ rj_out s) b, map RT (List.filter (fun x => negb (is_hook x)) subs))
  | RRew m =>
      check! negb (sender =? md)%N && elsewhere md m else "not so";
      do! ' (e', subs) <- e_step (set_block (rj_e s) b) b sender m;
      Ok (RJ (rj_t s) e' (rj_out s) b, map RE subs)
  | RDeliver =>
      match rj_out s with
      | THook h _ who _ :: out =>
          if (h =? self)%N then
            do! ' (e', subs) <- e_step (set_block (rj_e s) b) b md (EHook [who]);
            Ok (RJ (rj_t s) e' out b, [])
          else Ok (RJ (rj_t s) (rj_e s) out b, [])
      | _ => Err "nothing to deliver"
      end
  end.
Definition rj_start (md : addr) (b : block) (owner : addr) (vs : gset addr) (t : tstate) : rjstate :=
  RJ t (e_instantiate b owner ({[md]} ∪ vs)) [] b.
