(** Denominations: concrete cases. *)
From stdpp Require Import gmap strings.
From Verif Require Import Base DenModel DenSpec.

Fixpoint times (n : nat) (s : string) : string :=
  match n with O => "" | S n => (s ++ times n s)%string end.
Example denom_cases :
  map (fun s => match validate_native_denom s with Ok _ => "ok" | Err e => e end)
    ["uosmo"; "ab"; "abc"; "a-._:/9"; "1abc"; ("a" ++ times 127 "Z")%string; ("a" ++ times 128 "Z")%string; "ab c"; "ab,";
     "ibc/27394FB092D2ECCD56123C74F36E4C1F926001CEADA9CA97EA622B25F41E5EB2"] =
  ["ok"; "NativeDenomLength"; "ok"; "ok"; "NonAlphabeticAscii"; "ok"; "NativeDenomLength";
   "InvalidCharacter"; "InvalidCharacter"; "ok"].
Proof. vm_compute. reflexivity. Qed.
Definition den_held (x : asset) (a : addr) : Z :=
  match x with ABank "uosmo" => if (a =? 1)%N then 50 else 3 | AToken 8 => 20 | _ => 0 end.
