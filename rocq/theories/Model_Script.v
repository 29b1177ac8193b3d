(** Model of bitcoin-cash-base/src/op.rs, bitcoin-cash/src/{tagged_op,ops,script}.rs. *)
From Verif Require Import Base Model_Encoding Model_Integer Model_ByteArray Model_Opcode.
Local Open Scope Z_scope.
Local Open Scope list_scope.

(** op.rs:3-10 [Op].  A [PushInteger] holds an [Integer], modelled by its value. *)
Inductive op : Type :=
| OCode (c : opcode)
| OInvalid (b : Z)
| OPushArray (array : barray) (is_minimal : bool)
| OPushBool (b : bool)
| OPushInt (i : Z).

(** op.rs:49-54 [from_array], 105-108 [From<ByteArray>] *)
Definition op_from_array (a : barray) : op := OPushArray a true.

(** op.rs:60-65 [to_byte_array] *)
Definition op_to_byte_array (o : op) : option barray :=
  match o with OPushArray a _ => Some a | _ => None end.

(** op.rs:67-88 [to_integer] *)
Definition op_to_integer (o : op) : outcome (option Z) :=
  match o with
  | OPushInt i => Ok (Some i)
  | OCode c =>
    if opcode_eqb c OP_0 then Ok (Some 0)
    else if opcode_eqb c OP_1NEGATE then Ok (Some (-1))
    else let n := opcode_u8 c in
         if (opcode_u8 OP_1 <=? n) && (n <=? opcode_u8 OP_16)
         then Ok (Some (n + 1 - opcode_u8 OP_1)) else Ok None
  | OPushArray a _ =>
    match vec_to_int (ba_data a) with
    | Ok v => match integer_new v with Ok i => Ok (Some i) | Err _ => Ok None | Panic => Panic end
    | Err _ => Ok None
    | Panic => Panic
    end
  | OPushBool b => Ok (Some (if b then 1 else 0))
  | OInvalid _ => Ok None
  end.

(** op.rs:91-102 [PartialEq for Op]: ignores [is_minimal] *)
Definition op_eqb (a b : op) : bool :=
  match a, b with
  | OCode c1, OCode c2 => opcode_eqb c1 c2
  | OInvalid c1, OInvalid c2 => c1 =? c2
  | OPushArray a1 _, OPushArray a2 _ => ba_eqb a1 a2
  | OPushBool b1, OPushBool b2 => Bool.eqb b1 b2
  | OPushInt i1, OPushInt i2 => i1 =? i2
  | _, _ => false
  end.

(** tagged_op.rs:5-13 [TaggedOp] *)
Record tagged_op : Type := TaggedOp {
  t_op : op;
  t_src_file : string;
  t_src_line : Z;
  t_src_column : Z;
  t_src_code : list (Z * string);
  t_pushed_names : option (list (option string));
  t_alt_pushed_names : option (list (option string))
}.
(** tagged_op.rs:16-26 [from_op] *)
Definition tagged_from_op (o : op) : tagged_op :=
  TaggedOp o "<unknown>"%string 0 0 [] None None.
(** tagged_op.rs:28-31 [named] *)
Definition tagged_named (t : tagged_op) (name : string) : tagged_op :=
  TaggedOp (t_op t) (t_src_file t) (t_src_line t) (t_src_column t) (t_src_code t)
           (Some [Some name]) (t_alt_pushed_names t).
(** tagged_op.rs:34-38 [PartialEq]: compares the ops only *)
Definition tagged_eqb (a b : tagged_op) : bool := op_eqb (t_op a) (t_op b).

(** script.rs:9-12 [Script] (the [Arc] is sharing only) *)
Definition script : Type := list tagged_op.
(** script.rs:25-33 [from_ops] *)
Definition script_from_ops (ops : list op) : script := map tagged_from_op ops.
(** script.rs:9 derived [PartialEq] *)
Fixpoint script_eqb (a b : script) : bool :=
  match a, b with
  | [], [] => true
  | x :: a', y :: b' => tagged_eqb x y && script_eqb a' b'
  | _, _ => false
  end.

(** script.rs:45-57: the search loop of [to_script_code] *)
Fixpoint find_codesep (ops : script) (idx n_codesep found : nat) : option nat :=
  match ops with
  | [] => None
  | t :: rest =>
    match t_op t with
    | OCode OP_CODESEPARATOR =>
      if Nat.eqb n_codesep found then Some idx
      else find_codesep rest (S idx) n_codesep (S found)
    | _ => find_codesep rest (S idx) n_codesep found
    end
  end.
(** script.rs:41-62 [to_script_code] *)
Definition to_script_code (s : script) (n_codesep : option nat) : outcome script :=
  match n_codesep with
  | Some n =>
    match find_codesep s 0 n 0 with
    | Some idx => Ok (skipn idx s)
    | None => Panic
    end
  | None => Ok s
  end.
(** [iter().position(pred)] *)
Fixpoint position {A} (p : A -> bool) (l : list A) : option nat :=
  match l with
  | [] => None
  | x :: rest => if p x then Some O else option_map S (position p rest)
  end.
(** script.rs:64-74 [to_script_code_first] *)
Definition to_script_code_first (s : script) : script :=
  match position (fun t => op_eqb (t_op t) (OCode OP_CODESEPARATOR)) s with
  | Some idx => skipn (S idx) s
  | None => s
  end.

(** script.rs:83-132 [serialize_push_prefix]: the bytes appended and whether data follows.
    The match arms are tried in the order of the source. *)
Definition serialize_push_prefix (bytes : list Z) (is_minimal_push : bool) : outcome (list Z * bool) :=
  let len := zlen bytes in
  if (len =? 0) && is_minimal_push then Ok ([opcode_u8 OP_0], false)
  else if (len =? 0) && negb is_minimal_push then Ok ([opcode_u8 OP_PUSHDATA1; 0], true)
  else if (len =? 1) && is_minimal_push then
    let value := nth 0 bytes 0 in
    if (0 <? value) && (value <=? 16) then Ok ([opcode_u8 OP_1 - 1 + value], false)
    else if value =? 0x81 then Ok ([opcode_u8 OP_1NEGATE], false)
    else Ok ([1], true)
  else if len <=? 0x4b then Ok ([len], true)
  else if len <=? 0xff then Ok ([opcode_u8 OP_PUSHDATA1; len], true)
  else if len <=? 0xffff then Ok (opcode_u8 OP_PUSHDATA2 :: le_bytes 2 len, true)
  else if len <=? 0xffffffff then Ok (opcode_u8 OP_PUSHDATA4 :: le_bytes 4 len, true)
  else Err EPushTooLarge.

(** script.rs:134-141 [serialize_push_bytes] *)
Definition serialize_push_bytes (bytes : barray) (is_minimal_push : bool) : outcome barray :=
  do (vec, tail) <- serialize_push_prefix (ba_data bytes) is_minimal_push;
  Ok (if tail then ba_concat (ba_unnamed vec) bytes else ba_unnamed vec).

Definition serialize_opcode (c : opcode) : barray := ba_new (opcode_name c) [opcode_u8 c].

(** script.rs:143-172 [serialize_op] *)
Definition serialize_op (o : op) : outcome barray :=
  match o with
  | OCode c => Ok (serialize_opcode c)
  | OInvalid b => Ok (ba_new "Invalid Opcode" [b])
  | OPushBool b => Ok (if b then ba_new "OP_TRUE" [opcode_u8 OP_1] else ba_new "OP_FALSE" [opcode_u8 OP_0])
  | OPushInt i =>
    if i =? -1 then Ok (serialize_opcode OP_1NEGATE)
    else if i =? 0 then Ok (serialize_opcode OP_0)
    else if (1 <=? i) && (i <=? 16) then
      match opcode_from_u8 (opcode_u8 OP_1 + i - 1) with
      | Some c => Ok (serialize_opcode c)
      | None => Panic
      end
    else if i =? -0x80000000 then Panic
    else serialize_push_bytes (ba_unnamed (encode_int i)) true
  | OPushArray a is_minimal => serialize_push_bytes a is_minimal
  end.

(** [iter().map(f).collect::<Result<Vec<_>, _>>()]: stops at the first failure *)
Fixpoint omap {A B} (f : A -> outcome B) (l : list A) : outcome (list B) :=
  match l with
  | [] => Ok []
  | x :: rest => do y <- f x; do ys <- omap f rest; Ok (y :: ys)
  end.

(** script.rs:174-180 [serialize_ops] *)
Definition serialize_ops (ops : list op) : outcome barray :=
  do parts <- omap serialize_op ops; Ok (ba_from_parts parts).

(** script.rs:204-211, 260-268: an ordinary opcode byte *)
Definition op_of_byte (b : Z) : op :=
  match opcode_from_u8 b with Some c => OCode c | None => OInvalid b end.

(** Cursor reads: [n] bytes off the front ([read_exact]), error at end of input *)
Definition take_bytes (n : Z) (cur : list Z) : outcome (list Z * list Z) :=
  if zlen cur <? n then Err EEof else Ok (firstn (Z.to_nat n) cur, skipn (Z.to_nat n) cur).

(** script.rs:182-229 [deserialize_ops].  The cursor is the list of remaining bytes; the loop counter
    [i] always equals the cursor position, so [i < bytes.len()] is "bytes remain".  One iteration of the
    body: *)
Definition deser_op (cur : list Z) : outcome (op * list Z) :=
  match cur with
  | [] => Err EEof
  | byte :: cur1 =>
    if byte =? 0 then Ok (OCode OP_0, cur1)
    else
      let push :=
        if (1 <=? byte) && (byte <=? 0x4b) then Some (Ok (byte, cur1))
        else if byte =? opcode_u8 OP_PUSHDATA1 then
          Some (do (l, c) <- take_bytes 1 cur1; Ok (le_value l, c))
        else if byte =? opcode_u8 OP_PUSHDATA2 then
          Some (do (l, c) <- take_bytes 2 cur1; Ok (le_value l, c))
        else if byte =? opcode_u8 OP_PUSHDATA4 then
          Some (do (l, c) <- take_bytes 4 cur1; Ok (le_value l, c))
        else None in
      match push with
      | None => Ok (op_of_byte byte, cur1)
      | Some r =>
        do (push_len, cur2) <- r;
        do (vec, cur3) <- take_bytes push_len cur2;
        do (prefix, _) <- serialize_push_prefix vec true;
        Ok (OPushArray (ba_unnamed vec) (nth 0 prefix 0 =? byte), cur3)
      end
  end.
(** The while loop; [fuel] is the number of iterations allowed, and every iteration consumes at least
    one byte, so [length cur] suffices ([Panic] on exhaustion is proved unreachable). *)
Fixpoint deser_loop (fuel : nat) (cur : list Z) : outcome (list op) :=
  match cur with
  | [] => Ok []
  | _ =>
    match fuel with
    | O => Panic
    | S k => do (o, rest) <- deser_op cur; do ops <- deser_loop k rest; Ok (o :: ops)
    end
  end.
Definition deserialize_ops (bytes : list Z) : outcome (list op) := deser_loop (length bytes) bytes.

(** script.rs:231-285 [deserialize_ops_byte_array]: the same on provenance-carrying arrays *)
Definition deser_op_ba (cur : barray) : outcome (op * barray) :=
  do (head, cur1) <- ba_split cur 1;
  let byte := nth 0 (ba_data head) 0 in
  if byte =? 0 then Ok (OCode OP_0, cur1)
  else
    let push :=
      if (1 <=? byte) && (byte <=? 0x4b) then Some (Ok (byte, cur1))
      else if byte =? opcode_u8 OP_PUSHDATA1 then
        Some (do (l, c) <- ba_split cur1 1; Ok (nth 0 (ba_data l) 0, c))
      else if byte =? opcode_u8 OP_PUSHDATA2 then
        Some (do (l, c) <- ba_split cur1 2; Ok (le_value (ba_data l), c))
      else if byte =? opcode_u8 OP_PUSHDATA4 then
        Some (do (l, c) <- ba_split cur1 4; Ok (le_value (ba_data l), c))
      else None in
    match push with
    | None => Ok (op_of_byte byte, cur1)
    | Some r =>
      do (push_len, cur2) <- r;
      do (pushed, cur3) <- ba_split cur2 push_len;
      do (prefix, _) <- serialize_push_prefix (ba_data pushed) true;
      Ok (OPushArray pushed (nth 0 prefix 0 =? byte), cur3)
    end.
Fixpoint deser_loop_ba (fuel : nat) (cur : barray) : outcome (list op) :=
  if ba_len cur =? 0 then Ok []
  else
    match fuel with
    | O => Panic
    | S k => do (o, rest) <- deser_op_ba cur; do ops <- deser_loop_ba k rest; Ok (o :: ops)
    end.
Definition deserialize_ops_ba (a : barray) : outcome (list op) := deser_loop_ba (length (ba_data a)) a.

(** script.rs:288-290 [Script::ser_ops] ([expect] panics on error) *)
Definition script_ser_ops (s : script) : outcome barray :=
  match serialize_ops (map t_op s) with
  | Ok a => Ok a
  | _ => Panic
  end.
(** script.rs:292-295 [Script::deser_ops] *)
Definition script_deser_ops (a : barray) : outcome script :=
  do ops <- deserialize_ops_ba a; Ok (script_from_ops ops).
