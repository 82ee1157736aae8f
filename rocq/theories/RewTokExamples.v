(** Concrete histories of the distributor at 80 with the token module at 70. *)
From Verif Require Import Base BaseProofs Exec Plain HooksModel StoreModel ExtModel ExtProofs ActiveModel TokModel RewModel RewSpec RewTokModel RewTokSpec.
Transparent SCALE.

Definition md : addr := 70%N.
Definition self : addr := 80%N.
Definition alice : addr := 2%N.
Definition bob : addr := 3%N.
Definition rb (n : Z) : block := Block n (n * 6).
Definition t0 : tstate := TState 1%N 5%N (Some (DHeight 20)) None ∅ snap_empty ∅ [] 0.
Lemma t0_ok : t_instantiate 1%N 5%N (ExistingToken 1000) (Some (DHeight 20)) None = Ok t0.
Proof. vm_compute. reflexivity. Qed.
Definition rjrun (h : list (block * call rjmsg)) : rjstate * rjlog :=
  run_hist (rj_handle md self) no_fail no_reply (rj_start md (rb 0) 1%N ∅ t0) h.
Definition rc (n : Z) (a : addr) (m : rjmsg) : block * call rjmsg := (rb n, Call a m []).
Lemma rjreached_run h b :
  hist_ok (rb 0) h -> block_le (hist_end (rb 0) h) b -> rj_goes md (fst (rjrun h)) b = true ->
  rjreached md self b (fst (rjrun h)) (snd (rjrun h)).
Proof.
  intros Hh Hb Hg. exists (rb 0), 1%N, ∅, 1%N, 5%N, (ExistingToken 1000), (Some (DHeight 20)), None, t0.
  split; [done|]. split; [exact t0_ok|]. split; [|done].
  exists h. split; [done|]. split; [|done]. unfold rjrun. by destruct (run_hist _ _ _ _ h).
Qed.
Ltac rjside := vm_compute; repeat split; discriminate || reflexivity.
Ltac rjreach := apply rjreached_run; rjside.

Definition reward : asset := (false, 7%N).
Definition make : rjmsg := RRew (ECreate reward (EmLinear 100 (DHeight 1) false) md md None None [(7%N, 1000)]).
(** Alice and Bob stake; a distribution of 100 a block is made and the hook added; Alice adds
    to her stake, Bob takes his out, both claim. *)
Definition usual : list (block * call rjmsg) :=
  [rc 1 alice (RTok (TStake [(5%N, 10)])); rc 1 bob (RTok (TStake [(5%N, 30)]));
   rc 2 1%N make; rc 2 1%N (RTok (TAddHook self));
   rc 6 alice (RTok (TStake [(5%N, 20)])); rc 6 alice RDeliver;
   rc 8 bob (RTok (TUnstake 30)); rc 8 bob RDeliver;
   rc 9 alice (RRew (EClaim 1))].
(** Only the hook is added: nobody is registered with the distributor. *)
Definition early : list (block * call rjmsg) :=
  [rc 1 alice (RTok (TStake [(5%N, 10)])); rc 2 1%N (RTok (TAddHook self))].
(** The hook is added too late: Bob stakes unnoticed. *)
Definition late : list (block * call rjmsg) :=
  [rc 1 alice (RTok (TStake [(5%N, 10)])); rc 2 1%N make; rc 10 alice (RRew (EClaim 1));
   rc 10 bob (RTok (TStake [(5%N, 990)])); rc 11 1%N (RTok (TAddHook self))].
Definition us : rjstate := fst (rjrun usual).
Definition ul : rjlog := snd (rjrun usual).
Definition is : rjstate := fst (rjrun early).
Definition ls : rjstate := fst (rjrun late).
Definition ll : rjlog := snd (rjrun late).

Lemma early_stuck :
  exists md self b s l a n, rjreached md self b s l /\ rj_out s = [] /\ t_hooks (rj_t s) = [self] /\
    smap_get (t_bals (rj_t s)) a = n /\ 0 < n /\
    exists s1 x, rj_handle md self s b a (RTok (TUnstake n)) = Ok (s1, x) /\
      forall c, rj_handle md self s1 b c RDeliver = Err "InvalidHookSender".
Proof.
  exists md, self, (rb 3), is, (snd (rjrun early)), alice, 10.
  split; [rjreach|]. split; [vm_compute; reflexivity|]. split; [vm_compute; reflexivity|]. split; [vm_compute; reflexivity|]. split; [done|].
  eexists _, _. split; [vm_compute; reflexivity|]. intros c. vm_compute. reflexivity.
Qed.
Lemma late_promises :
  exists md self b s l id a d, rjreached md self b s l /\ e_dists (rj_e s) !! id = Some d /\
    di_vp d = md /\ di_hook d = md /\ t_hooks (rj_t s) = [self] /\ e_hooks (rj_e s) !! md = Some [id] /\
    forallb (unhurried id) l = true /\ jfunded id l = 1000 /\ claimable (rj_e s) b id a = 79398.
Proof.
  exists md, self, (rb 20), ls, ll, 1, bob.
  destruct (e_dists (rj_e ls) !! 1) as [d|] eqn:E; [|vm_compute in E; discriminate].
  exists d. split; [rjreach|]. split; [reflexivity|].
  assert ((di_vp d =? md)%N && (di_hook d =? md)%N = true) as H.
  { vm_compute in E. injection E as <-. vm_compute. reflexivity. }
  apply andb_prop in H as [H1 H2]. apply N.eqb_eq in H1, H2. clear E. split; [exact H1|]. split; [exact H2|].
  do 3 (split; [vm_compute; reflexivity|]). split; vm_compute; reflexivity.
Qed.
