(** Concrete histories of dao-rewards-distributor. *)
From Verif Require Import Base BaseProofs Exec ExecProofs Plain PlainProofs StoreModel StoreProofs
  ExtModel ExtProofs RewModel RewSpec RewProofs RewClaims.
Transparent SCALE.

Definition eb (n : Z) : block := Block n (n * NANOS).
Definition erun (h : list (block * call emsg)) :=
  run_hist e_handle no_fail no_reply (e_instantiate (eb 0) 1%N ∅) h.
Definition ec (n : Z) (a : addr) (m : emsg) : block * call emsg := (eb n, Call a m []).
Lemma ereached_run h b :
  hist_ok (eb 0) h -> block_le (hist_end (eb 0) h) b -> e_goes (fst (erun h)) b = true ->
  ereached b (fst (erun h)) (snd (erun h)).
Proof.
  intros Hh Hb Hg. exists (eb 0), 1%N, ∅. split; [done|]. split; [|done].
  exists h. split; [done|]. split; [|done]. unfold erun. by destruct (run_hist _ _ _ _ h).
Qed.
Ltac eside := vm_compute; repeat split; discriminate || reflexivity.
Ltac ereach := apply ereached_run; eside.

(** Voting power at contract 70, which reports changes itself; rewards in token 7. *)
Definition token : asset := (false, 7%N).
Definition setup : list (block * call emsg) :=
  [ec 1 9%N (EPower 70%N 70%N 2%N 30); ec 1 9%N (EPower 70%N 70%N 3%N 10)].
Definition linear : list (block * call emsg) :=
  setup ++ [ec 1 1%N (ECreate token (EmLinear 100 (DHeight 10) false) 70%N 70%N None None [(7%N, 1000)])].
Definition ex_rh : list (block * call emsg) :=
  linear ++
  [ec 11 2%N (EClaim 1);
   ec 21 9%N (EPower 70%N 70%N 3%N 30); ec 21 70%N (EHook [3%N]);
   ec 25 9%N (EDonate token 5);
   ec 30 1%N (ECreate (true, 50%N) EmImmediate 70%N 70%N None (Some 8%N) []);
   ec 31 50%N (EReceive 9%N 400 None);
   ec 41 3%N (EClaim 1); ec 41 2%N (EClaim 2)].
Definition ex_r := erun ex_rh.

(** Power bought after the last block counts for rewards funded in this one. *)
Definition ex_same : list (block * call emsg) :=
  setup ++
  [ec 1 1%N (ECreate token EmImmediate 70%N 70%N None None []);
   ec 5 9%N (EPower 70%N 70%N 3%N 1000); ec 5 70%N (EHook [3%N]); ec 5 9%N (EFund 1 [(7%N, 400)])].
(** The same, when a continuous distribution is funded for the past. *)
Definition ex_past : list (block * call emsg) :=
  setup ++
  [ec 1 1%N (ECreate token (EmLinear 100 (DHeight 10) true) 70%N 70%N None None [(7%N, 100)]);
   ec 31 9%N (EPower 70%N 70%N 3%N 1000); ec 31 70%N (EHook [3%N]); ec 31 9%N (EFund 1 [(7%N, 200)])].
(** The voting-power contract is exchanged: power there counts for the past. *)
Definition ex_move : list (block * call emsg) :=
  linear ++
  [ec 1 9%N (EPower 71%N 71%N 4%N 1000000); ec 41 2%N (EClaim 1);
   ec 41 1%N (EUpdate 1 None (Some 71%N) None None None)].
Lemma c54_same_block :
  exists b s l id us, ereached b s l /\ forallb (reported id) l = true /\ forallb (steady id) l = true /\
    NoDup us /\ funded id l < claimed id l + withdrawn id l + lsum (claimable s b id) us.
Proof.
  exists (eb 6), (fst (erun ex_same)), (snd (erun ex_same)), 1, [3%N].
  split; [ereach|]. split; [vm_compute; reflexivity|]. split; [vm_compute; reflexivity|].
  split; [apply NoDup_singleton|]. vm_compute. reflexivity.
Qed.
Lemma c54_past :
  exists b s l id us, ereached b s l /\ forallb (reported id) l = true /\ forallb (steady id) l = true /\
    forallb no_immediate l = true /\
    NoDup us /\ funded id l < claimed id l + withdrawn id l + lsum (claimable s b id) us.
Proof.
  exists (eb 32), (fst (erun ex_past)), (snd (erun ex_past)), 1, [3%N].
  split; [ereach|]. split; [vm_compute; reflexivity|]. split; [vm_compute; reflexivity|].
  split; [vm_compute; reflexivity|]. split; [apply NoDup_singleton|]. vm_compute. reflexivity.
Qed.
Lemma c54_move :
  exists b s l id us, ereached b s l /\ forallb (reported id) l = true /\ forallb (quiet id) l = true /\
    NoDup us /\ funded id l < claimed id l + withdrawn id l + lsum (claimable s b id) us.
Proof.
  exists (eb 42), (fst (erun ex_move)), (snd (erun ex_move)), 1, [4%N].
  split; [ereach|]. split; [vm_compute; reflexivity|]. split; [vm_compute; reflexivity|].
  split; [apply NoDup_singleton|]. vm_compute. reflexivity.
Qed.

(** Updates every nine blocks, periods of ten. *)
Definition pokes9 : list (block * call emsg) :=
  map (fun k => ec (1 + 9 * k) 70%N (EHook [9%N])) [1; 2; 3; 4; 5; 6; 7; 8; 9; 10].
Definition big : list (block * call emsg) :=
  setup ++ [ec 1 1%N (ECreate token (EmLinear (10 ^ 32) (DHeight 10) false) 70%N 70%N None None
    [(7%N, 10 ^ 34)])].
(** Updates after one period each. *)
Definition pokes10 : list (block * call emsg) :=
  map (fun k => ec (1 + 10 * k) 70%N (EHook [2%N])) [1; 2; 3; 4; 5; 6; 7; 8; 9].
Definition erun_from (s : estate) (h : list (block * call emsg)) := run_hist e_handle no_fail no_reply s h.
Lemma leads_from s h b b' :
  hist_ok b h -> block_le (hist_end b h) b' ->
  leads e_handle b s b' (fst (erun_from s h)) (snd (erun_from s h)).
Proof.
  intros Hh Hb. exists h. split; [done|]. split; [|done]. unfold erun_from. by destruct (run_hist _ _ _ _ h).
Qed.
Lemma c55_cut :
  exists b0 s l0 b s' l id d a amount u ct n n', ereached b0 s l0 /\ tame id l0 = true /\
    e_dists s !! id = Some d /\ ep_rate (di_ep d) = EmLinear amount u ct /\
    leads e_handle b0 s b s' l /\ forallb poke l = true /\
    pending_rewards s b id a = Ok n /\ pending_rewards s' b id a = Ok n' /\
    n' + earned id a l + 10 ^ 31 * (calls l + 1) < n.
Proof.
  set (s := fst (erun big)). set (s' := fst (erun_from s pokes9)).
  exists (eb 2), s, (snd (erun big)), (eb 91), s', (snd (erun_from s pokes9)), 1.
  do 7 eexists. split; [unfold s; ereach|]. split; [vm_compute; reflexivity|].
  split; [vm_compute; reflexivity|]. split; [vm_compute; reflexivity|].
  split; [apply leads_from; eside|]. split; [vm_compute; reflexivity|].
  split; [instantiate (2 := 2%N); vm_compute; reflexivity|]. split; [vm_compute; reflexivity|].
  vm_compute. reflexivity.
Qed.
