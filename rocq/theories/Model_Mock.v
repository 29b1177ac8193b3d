(** Generated by tools/gen_mock.py from bitcoin-cash-base/src/opcode.rs:2435-2830: the signatures of the functions of [mod func], which
    the code generated by the script macro calls so that rustc checks the types of a script.  The number at each row is its source line. *)
From Verif Require Import Base Model_Opcode.
Local Open Scope list_scope.

(** data_type.rs:18-23: the types of data on the stack ([BitcoinInteger], [BitcoinBoolean], [BitcoinByteArray]) *)
Inductive rty : Type := RInt | RBool | RBytes.
(** a parameter or result: one of these, or the function's n-th type parameter *)
Inductive pty : Type := PT (t : rty) | PVar (n : nat).
(** opcode.rs:2435-2830 [mod func]: parameter and result types *)
Definition mock (c : opcode) : option (list pty * list pty) :=
  match c with
  | OP_1NEGATE => Some ([], [PT RInt]) (* 2452 *)
  | OP_0 => Some ([], [PT RInt]) (* 2456 *)
  | OP_1 => Some ([], [PT RInt]) (* 2460 *)
  | OP_2 => Some ([], [PT RInt]) (* 2464 *)
  | OP_3 => Some ([], [PT RInt]) (* 2468 *)
  | OP_4 => Some ([], [PT RInt]) (* 2472 *)
  | OP_5 => Some ([], [PT RInt]) (* 2476 *)
  | OP_6 => Some ([], [PT RInt]) (* 2480 *)
  | OP_7 => Some ([], [PT RInt]) (* 2484 *)
  | OP_8 => Some ([], [PT RInt]) (* 2488 *)
  | OP_9 => Some ([], [PT RInt]) (* 2492 *)
  | OP_10 => Some ([], [PT RInt]) (* 2496 *)
  | OP_11 => Some ([], [PT RInt]) (* 2500 *)
  | OP_12 => Some ([], [PT RInt]) (* 2504 *)
  | OP_13 => Some ([], [PT RInt]) (* 2508 *)
  | OP_14 => Some ([], [PT RInt]) (* 2512 *)
  | OP_15 => Some ([], [PT RInt]) (* 2516 *)
  | OP_16 => Some ([], [PT RInt]) (* 2520 *)
  | OP_NOP => Some ([], []) (* 2525 *)
  | OP_NOP1 => Some ([], []) (* 2527 *)
  | OP_NOP4 => Some ([], []) (* 2529 *)
  | OP_NOP5 => Some ([], []) (* 2531 *)
  | OP_NOP6 => Some ([], []) (* 2533 *)
  | OP_NOP7 => Some ([], []) (* 2535 *)
  | OP_NOP8 => Some ([], []) (* 2537 *)
  | OP_NOP9 => Some ([], []) (* 2539 *)
  | OP_NOP10 => Some ([], []) (* 2541 *)
  | OP_IF => Some ([PVar 0], []) (* 2544 *)
  | OP_ELSE => Some ([], []) (* 2546 *)
  | OP_ENDIF => Some ([], []) (* 2548 *)
  | OP_VERIFY => Some ([PVar 0], []) (* 2550 *)
  | OP_TOALTSTACK => Some ([PVar 0], [PVar 0]) (* 2553 *)
  | OP_FROMALTSTACK => Some ([PVar 0], [PVar 0]) (* 2557 *)
  | OP_2DROP => Some ([PVar 0; PVar 1], []) (* 2561 *)
  | OP_2DUP => Some ([PVar 0; PVar 1], [PVar 0; PVar 1; PVar 0; PVar 1]) (* 2563 *)
  | OP_3DUP => Some ([PVar 0; PVar 1; PVar 2], [PVar 0; PVar 1; PVar 2; PVar 0; PVar 1; PVar 2]) (* 2567 *)
  | OP_2OVER => Some ([PVar 0; PVar 1; PVar 2; PVar 3], [PVar 0; PVar 1; PVar 2; PVar 3; PVar 0; PVar 1]) (* 2582 *)
  | OP_2ROT => Some ([PVar 0; PVar 1; PVar 2; PVar 3; PVar 4; PVar 5], [PVar 2; PVar 3; PVar 4; PVar 5; PVar 0; PVar 1]) (* 2591 *)
  | OP_2SWAP => Some ([PVar 0; PVar 1; PVar 2; PVar 3], [PVar 2; PVar 3; PVar 0; PVar 1]) (* 2602 *)
  | OP_DEPTH => Some ([], [PT RInt]) (* 2606 *)
  | OP_DROP => Some ([PVar 0], []) (* 2610 *)
  | OP_DUP => Some ([PVar 0], [PVar 0; PVar 0]) (* 2612 *)
  | OP_NIP => Some ([PVar 0; PVar 1], [PVar 1]) (* 2616 *)
  | OP_OVER => Some ([PVar 0; PVar 1], [PVar 0; PVar 1; PVar 0]) (* 2620 *)
  | OP_PICK => Some ([PT RInt], []) (* 2624 *)
  | OP_ROLL => Some ([PT RInt], []) (* 2626 *)
  | OP_ROT => Some ([PVar 0; PVar 1; PVar 2], [PVar 1; PVar 2; PVar 0]) (* 2628 *)
  | OP_SWAP => Some ([PVar 0; PVar 1], [PVar 1; PVar 0]) (* 2632 *)
  | OP_TUCK => Some ([PVar 0; PVar 1], [PVar 1; PVar 0; PVar 1]) (* 2636 *)
  | OP_RETURN => Some ([], []) (* 2640 *)
  | OP_CAT => Some ([PT RBytes; PT RBytes], [PT RBytes]) (* 2643 *)
  | OP_SPLIT => Some ([PT RBytes; PT RInt], [PT RBytes; PT RBytes]) (* 2647 *)
  | OP_NUM2BIN => Some ([PT RInt; PT RInt], [PT RBytes]) (* 2657 *)
  | OP_BIN2NUM => Some ([PT RBytes], [PT RInt]) (* 2661 *)
  | OP_SIZE => Some ([PT RBytes], [PT RBytes; PT RInt]) (* 2665 *)
  | OP_AND => Some ([PT RBytes; PT RBytes], [PT RBytes]) (* 2669 *)
  | OP_OR => Some ([PT RBytes; PT RBytes], [PT RBytes]) (* 2673 *)
  | OP_XOR => Some ([PT RBytes; PT RBytes], [PT RBytes]) (* 2677 *)
  | OP_EQUAL => Some ([PVar 0; PVar 0], [PT RBool]) (* 2681 *)
  | OP_EQUALVERIFY => Some ([PVar 0; PVar 0], []) (* 2685 *)
  | OP_1ADD => Some ([PT RInt], [PT RInt]) (* 2688 *)
  | OP_1SUB => Some ([PT RInt], [PT RInt]) (* 2692 *)
  | OP_NEGATE => Some ([PT RInt], [PT RInt]) (* 2696 *)
  | OP_ABS => Some ([PT RInt], [PT RInt]) (* 2700 *)
  | OP_NOT => Some ([PT RBool], [PT RBool]) (* 2704 *)
  | OP_0NOTEQUAL => Some ([PT RInt], [PT RBool]) (* 2708 *)
  | OP_ADD => Some ([PT RInt; PT RInt], [PT RInt]) (* 2712 *)
  | OP_SUB => Some ([PT RInt; PT RInt], [PT RInt]) (* 2716 *)
  | OP_DIV => Some ([PT RInt; PT RInt], [PT RInt]) (* 2720 *)
  | OP_MOD => Some ([PT RInt; PT RInt], [PT RInt]) (* 2724 *)
  | OP_BOOLAND => Some ([PT RBool; PT RBool], [PT RBool]) (* 2728 *)
  | OP_BOOLOR => Some ([PT RBool; PT RBool], [PT RBool]) (* 2732 *)
  | OP_NUMEQUAL => Some ([PT RInt; PT RInt], [PT RBool]) (* 2736 *)
  | OP_NUMEQUALVERIFY => Some ([PT RInt; PT RInt], []) (* 2740 *)
  | OP_NUMNOTEQUAL => Some ([PT RInt; PT RInt], [PT RBool]) (* 2742 *)
  | OP_LESSTHAN => Some ([PT RInt; PT RInt], [PT RBool]) (* 2746 *)
  | OP_GREATERTHAN => Some ([PT RInt; PT RInt], [PT RBool]) (* 2750 *)
  | OP_LESSTHANOREQUAL => Some ([PT RInt; PT RInt], [PT RBool]) (* 2754 *)
  | OP_GREATERTHANOREQUAL => Some ([PT RInt; PT RInt], [PT RBool]) (* 2758 *)
  | OP_MIN => Some ([PT RInt; PT RInt], [PT RInt]) (* 2762 *)
  | OP_MAX => Some ([PT RInt; PT RInt], [PT RInt]) (* 2766 *)
  | OP_WITHIN => Some ([PT RInt; PT RInt; PT RInt], [PT RBool]) (* 2770 *)
  | OP_RIPEMD160 => Some ([PT RBytes], [PT RBytes]) (* 2778 *)
  | OP_SHA1 => Some ([PT RBytes], [PT RBytes]) (* 2782 *)
  | OP_SHA256 => Some ([PT RBytes], [PT RBytes]) (* 2786 *)
  | OP_HASH160 => Some ([PT RBytes], [PT RBytes]) (* 2790 *)
  | OP_HASH256 => Some ([PT RBytes], [PT RBytes]) (* 2794 *)
  | OP_CODESEPARATOR => Some ([], []) (* 2798 *)
  | OP_CHECKSIG => Some ([PT RBytes; PT RBytes], [PT RBool]) (* 2800 *)
  | OP_CHECKSIGVERIFY => Some ([PT RBytes; PT RBytes], []) (* 2804 *)
  | OP_CHECKLOCKTIMEVERIFY => Some ([PT RInt], [PT RInt]) (* 2806 *)
  | OP_CHECKSEQUENCEVERIFY => Some ([PT RInt], [PT RInt]) (* 2810 *)
  | OP_CHECKDATASIG => Some ([PT RBytes; PT RBytes; PT RBytes], [PT RBool]) (* 2814 *)
  | OP_CHECKDATASIGVERIFY => Some ([PT RBytes; PT RBytes; PT RBytes], []) (* 2822 *)
  | OP_REVERSEBYTES => Some ([PT RBytes], [PT RBytes]) (* 2829 *)
  | _ => None
  end.
