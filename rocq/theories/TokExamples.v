(** Concrete histories of dao-voting-token-staked. *)
From Verif Require Import Base BaseProofs Exec ExecProofs Plain PlainProofs HooksModel
  VotingModel StoreModel StoreProofs LedgerProofs ActiveModel TokModel TokSpec TokProofs TokClaims.

Definition tb (n : Z) : block := Block n (n * NANOS).
Definition tini (d : option duration) (thr : option athreshold) : tstate :=
  match t_instantiate 9%N 5%N (ExistingToken 1000) d thr with
  | Ok s => s | Err _ => TState 0%N 0%N None None ∅ snap_empty ∅ [] 0 end.
Definition trun (d : option duration) (thr : option athreshold) (h : list (block * call tmsg)) :=
  run_hist t_handle no_fail no_reply (tini d thr) h.
Definition tc (a : addr) (m : tmsg) : call tmsg := Call a m [].
Definition tstk (a : addr) (x : Z) : call tmsg := tc a (TStake [(5%N, x)]).

Lemma treached_run d thr h b :
  fits_dur d = true -> fits_active thr = true ->
  is_ok (t_instantiate 9%N 5%N (ExistingToken 1000) d thr) = true -> hist_ok (tb 1) h ->
  block_le (hist_end (tb 1) h) b ->
  treached b (fst (trun d thr h)) (snd (trun d thr h)).
Proof.
  intros Hf Hthr Hd Hh Hb. exists (tb 1), 9%N, 5%N, (ExistingToken 1000), d, thr, (tini d thr).
  split; [done|]. split; [done|]. split.
  - unfold tini. by destruct (t_instantiate _ _ _ _ _).
  - exists h. split; [done|]. split; [|done]. by destruct (trun d thr h) eqn:E.
Qed.
Ltac tside := vm_compute; repeat split; discriminate || reflexivity.
Ltac treach := apply treached_run; tside.

(** Two stakers, claims under two unbonding periods, a donation, a hook. *)
Definition ex_thr : option athreshold := Some (APercent (25 * 10 ^ 16)).
Definition ex_td : option duration := Some (DHeight 10).
Definition ex_th : list (block * call tmsg) :=
  [(tb 2, tstk 1%N 200); (tb 3, tstk 2%N 100); (tb 3, tc 9%N (TAddHook 77%N));
   (tb 4, tc 1%N (TUnstake 60)); (tb 5, tc 8%N (TDonate 7));
   (tb 6, tc 9%N (TUpdateConfig (Some (DHeight 20)))); (tb 7, tc 1%N (TUnstake 15));
   (tb 14, tc 1%N TClaim); (tb 15, tc 9%N (TUpdateConfig None)); (tb 16, tc 2%N (TUnstake 30));
   (tb 16, tstk 2%N 5)].
Definition ex_t : tstate := fst (trun ex_td ex_thr ex_th).
Definition ex_tl : tlog := snd (trun ex_td ex_thr ex_th).
Lemma ex_treached : treached (tb 20) ex_t ex_tl.
Proof. treach. Qed.

(** A percentage with more than nine decimals: the module reports active with
    nothing staked at all. *)
Lemma c44_refuted :
  exists b s l p supply, treached b s l /\ t_thr s = Some (APercent p) /\ 0 < p /\ 0 < supply /\
    ttotal s * DEC_ONE < supply * p /\ t_is_active s supply = Ok true.
Proof.
  exists (tb 2), (fst (trun None (Some (APercent 1)) [])), (snd (trun None (Some (APercent 1)) [])),
    1, 1000. split; [treach|]. vm_compute. repeat split.
Qed.
