(** The CashAddr format, from its specification, without the code's accumulators.
    Uses the model only for the [text] of ASCII literals and for the address type enum. *)
From Verif Require Import Base Model_Address.
Local Open Scope Z_scope.

(** The low [w] bits of [v], most significant first; a list of [w]-bit symbols as one bit string. *)
Fixpoint bits (w : nat) (v : Z) : list bool :=
  match w with O => [] | S k => Z.testbit v (Z.of_nat k) :: bits k v end.
Definition bitstring (w : nat) (l : list Z) : list bool := concat (map (bits w) l).

(** Base32 alphabet: symbol [s] is written as byte [c]. *)
Definition b32_char (s c : Z) : Prop :=
  0 <= s < 32 /\ nth_error (text "qpzry9x8gf2tvdw0s3jn54khce6mua7l") (Z.to_nat s) = Some c.

(** The checksum register of the CashAddr specification: multiply by x (5 bits), add the symbol and the
    generator multiples selected by the 5 bits shifted out. *)
Definition generators : list Z := [0x98f2bc8e61; 0x79b76d99e2; 0xf33e5fb3c4; 0xae2eabe2a8; 0x1e4f43e470].
Definition selected (x : Z) : Z :=
  fold_right (fun ig acc => if Z.testbit x (fst ig) then Z.lxor (snd ig) acc else acc) 0 (combine [0;1;2;3;4] generators).
Definition register (c v : Z) : Z := Z.lxor (Z.lxor (32 * (c mod 2 ^ 35)) v) (selected (c / 2 ^ 35)).
(** Remainder of prefix, separator and symbols; valid when it is 1. *)
Definition remainder (prefix symbols : list Z) : Z :=
  fold_left register (map (fun x => x mod 32) prefix ++ [0] ++ symbols) 1.

Definition type_byte (t : address_type) : Z := match t with P2PKH => 0 | P2SH => 8 end.

(** [cash_addr_text prefix t hash txt]: [txt] is the CashAddr text of the address. *)
Definition cash_addr_text (prefix : list Z) (t : address_type) (hash txt : list Z) : Prop :=
  exists payload checksum pad chars,
    txt = prefix ++ [58] ++ chars /\ Forall2 b32_char (payload ++ checksum) chars /\
    (pad < 5)%nat /\ bitstring 5 payload = bitstring 8 (type_byte t :: hash) ++ repeat false pad /\
    length checksum = 8%nat /\ remainder prefix (payload ++ checksum) = 1.

(** Letter case is ignored when reading. *)
Definition same_letters (a b : list Z) : Prop :=
  Forall2 (fun x y => x = y \/ (65 <= x <= 90 /\ y = x + 32) \/ (65 <= y <= 90 /\ x = y + 32)) a b.

(** How a text is divided into prefix and payload letters: at the first colon, else the default prefix. *)
Definition divided (txt prefix chars : list Z) : Prop :=
  (txt = prefix ++ [58] ++ chars /\ ~ In 58 prefix) \/ (~ In 58 txt /\ prefix = text "bitcoincash" /\ chars = txt).

(** [valid_letters txt prefix syms]: the text, read without regard to case, consists of alphabet letters
    for the symbols [syms] and carries a valid checksum for [prefix]. *)
Definition valid_letters (txt prefix syms : list Z) : Prop :=
  exists low chars, same_letters txt low /\ Forall (fun x => ~ 65 <= x <= 90) low /\
    divided low prefix chars /\ Forall2 b32_char syms chars /\ remainder prefix syms = 1.

(** A rejection for a letter outside the alphabet or for the checksum. *)
Definition letter_or_checksum (e : err) : Prop :=
  e = EInvalidCashAddr AInvalidChecksum \/ exists i x, e = EInvalidCashAddr (AInvalidBase32Letter i x).

(** Number of positions in which two texts of the same length carry different letters. *)
Definition letter_eqb (x y : Z) : bool :=
  (x =? y) || ((65 <=? x) && (x <=? 90) && (y =? x + 32)) || ((65 <=? y) && (y <=? 90) && (x =? y + 32)).
Fixpoint changed (a b : list Z) : nat :=
  match a, b with
  | x :: a, y :: b => ((if letter_eqb x y then 0 else 1) + changed a b)%nat
  | _, _ => 0%nat
  end.
Definition upper_case (x : Z) : Z := if (97 <=? x) && (x <=? 122) then x - 32 else x.
