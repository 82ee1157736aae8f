(** Model of packages/cw-denom/src/lib.rs.

    Strings are sequences of bytes, as [len] at 167 counts them; a character outside ASCII is
    several bytes of 128 and more, each of which fails the tests that the character fails.
    Whether an address is valid and whether a contract answers [TokenInfo] are oracles. *)
From Coq Require Import Ascii.
From stdpp Require Import gmap strings.
From Verif Require Import Base.

(** [char::is_ascii_alphabetic], [char::is_ascii_alphanumeric] (standard library). *)
Definition byte (c : ascii) : Z := Z.of_N (N_of_ascii c).
Definition within (c : ascii) (lo hi : ascii) : bool :=
  (byte lo <=? byte c) && (byte c <=? byte hi).
Definition is_alphabetic (c : ascii) : bool := within c "a"%char "z"%char || within c "A"%char "Z"%char.
Definition is_alphanumeric (c : ascii) : bool := is_alphabetic c || within c "0"%char "9"%char.

(** 179-184, of one character. *)
Definition later_ok (c : ascii) : bool :=
  is_alphanumeric c || within c "/"%char "/"%char || within c ":"%char ":"%char || within c "."%char "."%char ||
  within c "_"%char "_"%char || within c "-"%char "-"%char.
Fixpoint all_later (s : string) : bool :=
  match s with
  | EmptyString => true
  | String c s => later_ok c && all_later s
  end.
(** 166-188 [validate_native_denom]. *)
Definition validate_native_denom (s : string) : result string :=
  let len := Z.of_nat (String.length s) in
  check! negb ((len <? 3) || (128 <? len)) else "NativeDenomLength";
  match s with
  | EmptyString => Err "NonAlphabeticAscii"
  | String c rest =>
      check! is_alphabetic c else "NonAlphabeticAscii";
      check! all_later rest else "InvalidCharacter";
      Ok s
  end.

(** 37-54 [CheckedDenom], [UncheckedDenom]. *)
Inductive checked := CNative (s : string) | CCw20 (a : addr).
Inductive unchecked := UNative (s : string) | UCw20 (s : string).
(** 65-78 [into_checked]. *)
Definition into_checked (valid : string -> option addr) (answers : addr -> bool) (u : unchecked)
  : result checked :=
  match u with
  | UNative s => do! s <- validate_native_denom s; Ok (CNative s)
  | UCw20 s =>
      some! a <- valid s else "invalid address";
      check! answers a else "InvalidCw20";
      Ok (CCw20 a)
  end.
(** 93-98 [is_cw20], 113-118 [is_native]. *)
Definition is_cw20 (d : checked) (a : addr) : bool :=
  match d with CNative _ => false | CCw20 a' => (a' =? a)%N end.
Definition is_native (d : checked) (s : string) : bool :=
  match d with CNative s' => bool_decide (s' = s) | CCw20 _ => false end.

(** ** Transfers *)
(** The chain's bank and standard cw20 contracts; both refuse a transfer of nothing. *)
Inductive asset := ABank (s : string) | AToken (a : addr).
Global Instance asset_eq_dec : EqDecision asset.
Proof. solve_decision. Defined.
Inductive tmsg := TBank (to : addr) (coins : list (string * Z)) | TCw20 (contract to : addr) (n : Z).
(** 120-136 [query_balance]. *)
Definition query_balance (held : asset -> addr -> Z) (d : checked) (who : addr) : Z :=
  match d with CNative s => held (ABank s) who | CCw20 a => held (AToken a) who end.
(** 141-161 [get_transfer_to_message]. *)
Definition transfer_to (d : checked) (who : addr) (n : Z) : tmsg :=
  match d with
  | CNative s => TBank who [(s, n)]
  | CCw20 a => TCw20 a who n
  end.
(** The effect of one transfer of asset [x] on all balances. *)
Definition moved (held : asset -> addr -> Z) (x : asset) (from to : addr) (n : Z)
  : result (asset -> addr -> Z) :=
  check! 0 <? n else "zero amount";
  check! n <=? held x from else "insufficient funds";
  Ok (fun y a =>
        held y a - (if bool_decide (y = x /\ a = from) then n else 0)
                 + (if bool_decide (y = x /\ a = to) then n else 0)).
Fixpoint send_coins (held : asset -> addr -> Z) (from to : addr) (l : list (string * Z))
  : result (asset -> addr -> Z) :=
  match l with
  | [] => Ok held
  | (s, n) :: l => do! h <- moved held (ABank s) from to n; send_coins h from to l
  end.
Definition deliver (held : asset -> addr -> Z) (from : addr) (m : tmsg)
  : result (asset -> addr -> Z) :=
  match m with
  | TBank to l => send_coins held from to l
  | TCw20 c to n => moved held (AToken c) from to n
  end.
