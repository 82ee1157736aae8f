(** A swap of 100 coins against 250 cw20 tokens. *)
From Verif Require Import Base BaseProofs Exec ExecProofs Plain PlainProofs StoreModel
  SwapModel SwapSpec.

Definition the_deal : deal := Deal 1 (false, 7%N) 100 2 (true, 50%N) 250.
Definition wb (h : Z) : block := Block h (h * 10).
Definition w0 : wstate :=
  match w_instantiate 1 (false, 7%N) 100 true 2 (true, 50%N) 250 true with
  | Ok s => s
  | Err _ => WState (Party 0 (false, 0%N) 0 false) (Party 0 (false, 0%N) 0 false) ∅
  end.
Definition wc (h : Z) (a : addr) (m : wmsg) : block * call wmsg := (wb h, Call a m []).
Definition wrun (h : list (block * call wmsg)) : wstate * wlog :=
  run_hist w_handle no_fail no_reply w0 h.
Lemma wreached_run h b : hist_ok (wb 0) h -> block_le (hist_end (wb 0) h) b ->
  wreached the_deal b (fst (wrun h)) (snd (wrun h)).
Proof.
  intros Hh Hb. exists (wb 0), true, true, w0. split; [done|].
  exists h. split; [done|]. split; [|done]. unfold wrun. by destruct (run_hist _ _ _ _ h).
Qed.
Ltac wside := vm_compute; repeat split; discriminate || reflexivity.
Ltac wreach := apply wreached_run; wside.

(** The first party provides, takes back, provides again; a wrong amount is refused; the
    second provides; a late withdrawal and a stranger are refused; somebody donates. *)
Definition half : list (block * call wmsg) :=
  [wc 1 1 (WFund [(7%N, 99)]); wc 1 1 (WFund [(7%N, 100)]); wc 2 1 WWithdraw; wc 2 9 WWithdraw;
   wc 3 1 (WFund [(7%N, 100)]); wc 3 9 (WDonate (false, 7%N) 5)].
Definition whole : list (block * call wmsg) :=
  half ++ [wc 4 51 (WReceive 2 250); wc 4 50 (WReceive 2 250); wc 5 1 WWithdraw].
