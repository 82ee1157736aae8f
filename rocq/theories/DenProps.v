(** C110: denominations. *)
From stdpp Require Import gmap strings.
From Verif Require Import Base BaseProofs DenModel DenSpec DenClaims DenExamples.

(** * C110 *)
Theorem C110_native s : (exists s', validate_native_denom s = Ok s') <-> sdk_denom s.
Proof. exact (native_iff s). Qed.
Print Assumptions C110_native.
Theorem C110_checked valid answers u d :
  into_checked valid answers u = Ok d <->
  match u with
  | UNative s => d = CNative s /\ sdk_denom s
  | UCw20 s => exists a, valid s = Some a /\ answers a = true /\ d = CCw20 a
  end.
Proof. exact (checked_iff valid answers u d). Qed.
Print Assumptions C110_checked.
Theorem C110_kinds d : (forall s, is_native d s = true <-> d = CNative s) /\
  (forall a, is_cw20 d a = true <-> d = CCw20 a).
Proof. exact (kinds d). Qed.
Print Assumptions C110_kinds.
Theorem C110_transfer_accepted held d from to n :
  (exists h, deliver held from (transfer_to d to n) = Ok h) <->
  0 < n <= query_balance held d from.
Proof. exact (transfer_iff held d from to n). Qed.
Print Assumptions C110_transfer_accepted.
Theorem C110_transfer_exact held d from to n h :
  deliver held from (transfer_to d to n) = Ok h ->
  (from <> to -> query_balance h d from = query_balance held d from - n /\
     query_balance h d to = query_balance held d to + n) /\
  (from = to -> query_balance h d to = query_balance held d to) /\
  (forall d' a, d' <> d \/ (a <> from /\ a <> to) -> query_balance h d' a = query_balance held d' a).
Proof. exact (transfer_exact held d from to n h). Qed.
Print Assumptions C110_transfer_exact.
Example C110_case :
  map (fun s => match validate_native_denom s with Ok _ => "ok" | Err e => e end)
    ["uosmo"; "ab"; "abc"; "a-._:/9"; "1abc"; ("a" ++ times 127 "Z")%string; ("a" ++ times 128 "Z")%string; "ab c"; "ab,";
     "ibc/27394FB092D2ECCD56123C74F36E4C1F926001CEADA9CA97EA622B25F41E5EB2"] =
  ["ok"; "NativeDenomLength"; "ok"; "ok"; "NonAlphabeticAscii"; "ok"; "NativeDenomLength";
   "InvalidCharacter"; "InvalidCharacter"; "ok"].
Proof. exact denom_cases. Qed.
Example C110_case_transfer :
  match deliver den_held 1 (transfer_to (CNative "uosmo") 2 50) with
  | Ok h => map (fun a => query_balance h (CNative "uosmo") a) [1%N; 2%N; 3%N] = [0; 53; 3] /\
            query_balance h (CCw20 8) 1 = 20
  | Err _ => False
  end.
Proof. vm_compute. done. Qed.
