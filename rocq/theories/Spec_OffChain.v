(** C51: computing off-chain with the library's integers and byte arrays, and the script that does the same on-chain.
    The expressions are programs a user writes twice: once in Rust with [Integer]/[ByteArray]/[Hashed] ([off_*]) and once as
    a script ([script_*], the postfix translation). *)
From Verif Require Import Base Model_Encoding Model_Integer Model_ByteArray Model_Hash Model_Opcode Model_Script Spec_Integer Spec_Script Spec_Network.
Local Open Scope list_scope.
Local Open Scope Z_scope.

Inductive hkind : Type := HSha1 | HRipemd160 | HSha256 | HHash160 | HHash256.
Inductive iexp : Type :=
| ILit (n : Z) | IAdd (a b : iexp) | ISub (a b : iexp) | IDiv (a b : iexp) | IMod (a b : iexp) | INeg (a : iexp) | ILen (a : bexp)
with bexp : Type :=
| BLit (a : barray) | BCat (a b : bexp) | BLeft (a : bexp) (k : Z) | BRight (a : bexp) (k : Z) | BNum2Bin (i : iexp) (n : Z) | BHash (h : hkind) (a : bexp).
Inductive rel : Type := REq | RNe | RLt | RGt | RLe | RGe.
Inductive cond : Type := CEqual (a b : bexp) | CRel (r : rel) (a b : iexp).

(** ** Off-chain *)
Section Off.
Variable E : env.
(** The hash functions of the hash crates are those of the network. *)
Definition digest (h : hkind) (d : list Z) : list Z :=
  match h with
  | HSha1 => e_sha1 E d | HRipemd160 => e_ripemd160 E d | HSha256 => e_sha256 E d
  | HHash160 => e_ripemd160 E (e_sha256 E d) | HHash256 => e_sha256 E (e_sha256 E d)
  end.
Definition digest_len (h : hkind) : Z := match h with HSha1 | HRipemd160 | HHash160 => 20 | HSha256 | HHash256 => 32 end.
Definition digest_func (h : hkind) : func :=
  match h with HSha1 => FSha1 | HRipemd160 => FRipemd160 | HSha256 => FSha256 | HHash160 => FHash160 | HHash256 => FHash256 end.
(** Integer operators, [Integer::new(array.len())], [concat], [split] (one of the two halves), [ByteArray::from_int], [H::digest]. *)
Fixpoint off_i (e : iexp) : outcome Z :=
  match e with
  | ILit n => integer_new n
  | IAdd a b => int_add (off_i a) (off_i b)
  | ISub a b => int_sub (off_i a) (off_i b)
  | IDiv a b => int_div (off_i a) (off_i b)
  | IMod a b => int_rem (off_i a) (off_i b)
  | INeg a => int_neg (off_i a)
  | ILen a => do x <- off_b a; integer_new (ba_len x)
  end
with off_b (e : bexp) : outcome barray :=
  match e with
  | BLit a => Ok a
  | BCat a b => do x <- off_b a; do y <- off_b b; Ok (ba_concat x y)
  | BLeft a k => do x <- off_b a; do (l, r) <- ba_split x k; Ok l
  | BRight a k => do x <- off_b a; do (l, r) <- ba_split x k; Ok r
  | BNum2Bin i n => do x <- off_i i; do d <- from_int x n; Ok (ba_unnamed d)
  | BHash h a => do x <- off_b a; hash_digest (digest h) (digest_len h) (digest_func h) x
  end.
(** Rust's [==], [!=], [<], [>], [<=], [>=] *)
Definition off_rel (r : rel) (x y : outcome Z) : bool :=
  match r with
  | REq => ires_eq x y
  | RNe => negb (ires_eq x y)
  | RLt => match ires_cmp x y with Some Lt => true | _ => false end
  | RGt => match ires_cmp x y with Some Gt => true | _ => false end
  | RLe => match ires_cmp x y with Some (Lt | Eq) => true | _ => false end
  | RGe => match ires_cmp x y with Some (Gt | Eq) => true | _ => false end
  end.
Definition off_c (c : cond) : outcome bool :=
  match c with
  | CEqual a b => do x <- off_b a; do y <- off_b b; Ok (ba_eqb x y)
  | CRel r a b => do x <- off_i a; do y <- off_i b; Ok (off_rel r (Ok x) (Ok y))
  end.

(** Script's 520 byte limit on stack items, for literals and intermediate results. *)
Fixpoint fits_i (e : iexp) : Prop :=
  match e with
  | ILit _ => True
  | IAdd a b | ISub a b | IDiv a b | IMod a b => fits_i a /\ fits_i b
  | INeg a => fits_i a
  | ILen a => fits_b a
  end
with fits_b (e : bexp) : Prop :=
  match e with
  | BLit a => zlen (ba_data a) <= 520
  | BCat a b => fits_b a /\ fits_b b /\ forall x, off_b (BCat a b) = Ok x -> zlen (ba_data x) <= 520
  | BLeft a _ | BRight a _ | BHash _ a => fits_b a
  | BNum2Bin i n => fits_i i /\ n <= 520
  end.
Definition fits_c (c : cond) : Prop := match c with CEqual a b => fits_b a /\ fits_b b | CRel _ a b => fits_i a /\ fits_i b end.
End Off.

(** ** On-chain *)
Fixpoint script_i (e : iexp) : list op :=
  match e with
  | ILit n => [OPushInt n]
  | IAdd a b => script_i a ++ script_i b ++ [OCode OP_ADD]
  | ISub a b => script_i a ++ script_i b ++ [OCode OP_SUB]
  | IDiv a b => script_i a ++ script_i b ++ [OCode OP_DIV]
  | IMod a b => script_i a ++ script_i b ++ [OCode OP_MOD]
  | INeg a => script_i a ++ [OCode OP_NEGATE]
  | ILen a => script_b a ++ [OCode OP_SIZE; OCode OP_NIP]
  end
with script_b (e : bexp) : list op :=
  match e with
  | BLit a => [OPushArray a true]
  | BCat a b => script_b a ++ script_b b ++ [OCode OP_CAT]
  | BLeft a k => script_b a ++ [OPushInt k; OCode OP_SPLIT; OCode OP_DROP]
  | BRight a k => script_b a ++ [OPushInt k; OCode OP_SPLIT; OCode OP_NIP]
  | BNum2Bin i n => script_i i ++ [OPushInt n; OCode OP_NUM2BIN]
  | BHash h a => script_b a ++ [OCode match h with HSha1 => OP_SHA1 | HRipemd160 => OP_RIPEMD160 | HSha256 => OP_SHA256 | HHash160 => OP_HASH160 | HHash256 => OP_HASH256 end]
  end.
Definition script_c (c : cond) : list op :=
  match c with
  | CEqual a b => script_b a ++ script_b b ++ [OCode OP_EQUAL]
  | CRel r a b => script_i a ++ script_i b ++ [OCode match r with REq => OP_NUMEQUAL | RNe => OP_NUMNOTEQUAL | RLt => OP_LESSTHAN | RGt => OP_GREATERTHAN
                                                          | RLe => OP_LESSTHANOREQUAL | RGe => OP_GREATERTHANOREQUAL end]
  end.

(** Literals are values of their Rust types that fit a script: integers are [Integer]s, split positions and lengths are numbers Script
    can express, arrays hold bytes. *)
Fixpoint lits_i (e : iexp) : Prop :=
  match e with
  | ILit n => script_int n
  | IAdd a b | ISub a b | IDiv a b | IMod a b => lits_i a /\ lits_i b
  | INeg a => lits_i a
  | ILen a => lits_b a
  end
with lits_b (e : bexp) : Prop :=
  match e with
  | BLit a => bytes_ok (ba_data a) /\ zlen (ba_data a) < 2 ^ 32
  | BCat a b => lits_b a /\ lits_b b
  | BLeft a k | BRight a k => lits_b a /\ 0 <= k <= 2 ^ 31 - 1
  | BNum2Bin i n => lits_i i /\ 1 <= n <= 2 ^ 31 - 1
  | BHash _ a => lits_b a
  end.
Definition lits_c (c : cond) : Prop := match c with CEqual a b => lits_b a /\ lits_b b | CRel _ a b => lits_i a /\ lits_i b end.

(** OP_NUM2BIN, unlike every other opcode, accepts numbers wider than 4 bytes.  [guarded]: it is only applied to literals and lengths,
    so no overflowed sum or difference is fed to it. *)
Fixpoint guarded_i (e : iexp) : Prop :=
  match e with
  | ILit _ => True
  | IAdd a b | ISub a b | IDiv a b | IMod a b => guarded_i a /\ guarded_i b
  | INeg a => guarded_i a
  | ILen a => guarded_b a
  end
with guarded_b (e : bexp) : Prop :=
  match e with
  | BLit a => True
  | BCat a b => guarded_b a /\ guarded_b b
  | BLeft a _ | BRight a _ | BHash _ a => guarded_b a
  | BNum2Bin i n => guarded_i i /\ match i with ILit _ | ILen _ | IDiv _ _ | IMod _ _ | INeg _ => True | IAdd _ _ | ISub _ _ => False end
  end.
Definition guarded_c (c : cond) : Prop := match c with CEqual a b => guarded_b a /\ guarded_b b | CRel _ a b => guarded_i a /\ guarded_i b end.

(** Digests of the network's hash functions have their lengths. *)
Definition digests_ok (E : env) : Prop := forall h d, zlen (digest E h d) = digest_len h.
(** The script's limits: 10000 bytes, 201 opcodes above OP_16, 1000 stack items (every instruction adds at most one item). *)
Definition opcodes_of (ops : list op) : Z := zlen (filter (fun o => match o with OCode c => 0x60 <? opcode_u8 c | _ => false end) ops).
Definition limits (ops : list op) (bytes : list Z) (stack : list (list Z)) : Prop :=
  zlen bytes <= 10000 /\ opcodes_of ops <= 201 /\ zlen stack + zlen ops <= 1000.
