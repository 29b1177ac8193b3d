(** C52: what [Opcode::behavior], [is_disabled] and [retains_input] promise about an opcode, against the network's interpreter. *)
From Verif Require Import Base Model_Opcode Model_Behavior Spec_Network.
Local Open Scope list_scope.
Local Open Scope Z_scope.

(** Stack items of the declared types. *)
Definition item_ok (v : list Z) : Prop := zlen v <= 520.
Definition typed (t : data_type) (v : list Z) : Prop :=
  item_ok v /\
  match t with
  | TGeneric | TByteArray None => True
  | TInteger => exists n, num v = Some n
  | TBoolean => v = [] \/ v = [1]
  | TByteArray (Some k) => zlen v = Z.of_nat k
  end.
(** Results have the declared type, except that sums and differences can leave the range of integers: then they are numbers of at most
    five bytes which no other arithmetic opcode accepts. *)
Definition may_overflow (c : opcode) : bool := match c with OP_ADD | OP_SUB | OP_1ADD | OP_1SUB => true | _ => false end.
Definition produces (c : opcode) (t : data_type) (v : list Z) : Prop :=
  typed t v \/ (may_overflow c = true /\ t = TInteger /\ exists z, v = enc z /\ 2 ^ 31 <= Z.abs z < 2 ^ 32).
(** Opcodes that work on the top of the main stack only. *)
Definition on_top (c : opcode) : bool :=
  match c with
  | OP_0 | OP_1NEGATE | OP_1 | OP_2 | OP_3 | OP_4 | OP_5 | OP_6 | OP_7 | OP_8 | OP_9 | OP_10 | OP_11 | OP_12 | OP_13 | OP_14 | OP_15 | OP_16
  | OP_PUSHDATA1 | OP_PUSHDATA2 | OP_PUSHDATA4 | OP_IF | OP_NOTIF | OP_ELSE | OP_ENDIF | OP_TOALTSTACK | OP_FROMALTSTACK | OP_ROLL => false
  | _ => true
  end.
(** Opcodes that can fail although their inputs are there and have the declared types. *)
Definition partial_op (c : opcode) : bool :=
  match c with
  | OP_VERIFY | OP_RETURN | OP_PICK | OP_CAT | OP_SPLIT | OP_NUM2BIN | OP_BIN2NUM | OP_AND | OP_OR | OP_XOR | OP_EQUALVERIFY | OP_DIV | OP_MOD | OP_NUMEQUALVERIFY
  | OP_CHECKSIG | OP_CHECKSIGVERIFY | OP_CHECKDATASIG | OP_CHECKDATASIGVERIFY | OP_CHECKLOCKTIMEVERIFY | OP_CHECKSEQUENCEVERIFY
  | FIRST_UNDEFINED_OP_VALUE => true
  | _ => false
  end.
(** The effect [outs] on the inputs [ins] (both deepest first) is as declared. *)
Definition declared_order (b : behavior) (ins outs : list (list Z)) : Prop :=
  forall o, b_output_order b = Some o -> map Some outs = map (nth_error ins) o.
Definition declared_delta (b : behavior) (ins outs : list (list Z)) : Prop :=
  length (b_delta b) = length outs /\
  forall j d, nth_error (b_delta b) j = Some d ->
    (d = Observed \/ d = Untouched -> nth_error outs j = nth_error ins j) /\
    (d = Moved \/ d = MovedIndirectly -> exists k, k <> j /\ (k < length ins)%nat /\ nth_error outs j = nth_error ins k) /\
    d <> Removed.
(** The number an opcode that is itself a push stands for. *)
Definition constant (c : opcode) : option Z :=
  match c with
  | OP_0 => Some 0 | OP_1NEGATE => Some (-1) | OP_1 => Some 1 | OP_2 => Some 2 | OP_3 => Some 3 | OP_4 => Some 4 | OP_5 => Some 5 | OP_6 => Some 6 | OP_7 => Some 7 | OP_8 => Some 8
  | OP_9 => Some 9 | OP_10 => Some 10 | OP_11 => Some 11 | OP_12 => Some 12 | OP_13 => Some 13 | OP_14 => Some 14 | OP_15 => Some 15 | OP_16 => Some 16
  | _ => None
  end.
(** Every open conditional is in its taken branch. *)
Definition running (x : list bool) : Prop := Forall (fun b => b = true) x.
