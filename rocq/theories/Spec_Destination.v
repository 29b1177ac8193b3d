(** Independent specification: the standard locking script templates as bytes. *)
From Verif Require Import Base Model_ByteArray Model_Opcode Model_Script Spec_Script Model_Address.
Local Open Scope Z_scope.

(** DUP HASH160 <20 bytes> EQUALVERIFY CHECKSIG, and HASH160 <20 bytes> EQUAL *)
Definition locking_bytes (t : address_type) (hash : list Z) : list Z :=
  match t with
  | P2PKH => [0x76; 0xa9; 0x14] ++ hash ++ [0x88; 0xac]
  | P2SH => [0xa9; 0x14] ++ hash ++ [0x87]
  end.
(** The same templates as instruction sequences. *)
Definition locking_instrs (t : address_type) (hash : list Z) : list instr :=
  match t with
  | P2PKH => [Exec 0x76; Exec 0xa9; Push hash; Exec 0x88; Exec 0xac]
  | P2SH => [Exec 0xa9; Push hash; Exec 0x87]
  end.
(** The templates as op lists: [a] is the pushed array, [m] its minimal-push flag. *)
Definition template_ops (t : address_type) (a : barray) (m : bool) : list op :=
  match t with
  | P2PKH => [OCode OP_DUP; OCode OP_HASH160; OPushArray a m; OCode OP_EQUALVERIFY; OCode OP_CHECKSIG]
  | P2SH => [OCode OP_HASH160; OPushArray a m; OCode OP_EQUAL]
  end.
(** Sighash bytes with no undefined bit (0x20 is the undefined one). *)
Definition known_flags (f : Z) : Prop := 0 <= f < 256 /\ Z.testbit f 5 = false.
