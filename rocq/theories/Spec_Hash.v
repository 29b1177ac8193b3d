(** Independent specification of hexadecimal texts and of relative lock times (BIP 68). *)
From Verif Require Import Base Model_ByteArray Model_Hash.
Local Open Scope Z_scope.
Local Open Scope list_scope.

(** [digit c v]: the character with code [c] is a hexadecimal digit of value [v]. *)
Inductive digit : Z -> Z -> Prop :=
| DigNum v : 0 <= v <= 9 -> digit (48 + v) v        (* '0'..'9' *)
| DigLower v : 10 <= v <= 15 -> digit (97 + (v - 10)) v (* 'a'..'f' *)
| DigUpper v : 10 <= v <= 15 -> digit (65 + (v - 10)) v (* 'A'..'F' *).
(** [hex_text s d]: the text [s] writes the bytes [d], two digits each, high half first. *)
Inductive hex_text : list Z -> list Z -> Prop :=
| HtNil : hex_text [] []
| HtCons a b h l s d : digit a h -> digit b l -> hex_text s d -> hex_text (a :: b :: s) (16 * h + l :: d).
(** Lower-case texts. *)
Definition lower_hex (c : Z) : Prop := 48 <= c <= 57 \/ 97 <= c <= 102.

(** Byte pairs of a text. *)
Fixpoint pairs (s : list Z) : list (list Z) := match s with a :: b :: r => [a; b] :: pairs r | _ => [] end.

(** BIP 68: bit 31 disables the relative lock; bit 22 selects units of 512 seconds instead of blocks; the
    low 16 bits are the value. *)
Inductive relative_lock : Type := NoLock | Blocks (n : Z) | Units512 (n : Z).
Definition bip68 (sequence : Z) : relative_lock :=
  if Z.testbit sequence 31 then NoLock
  else if Z.testbit sequence 22 then Units512 (sequence mod 65536) else Blocks (sequence mod 65536).
Definition meant (c : csv_timedelta) : relative_lock := match c with Blockheight h => Blocks h | Seconds512 s => Units512 s end.
Definition csv_ok (c : csv_timedelta) : Prop := match c with Blockheight n | Seconds512 n => u16_ok n end.
