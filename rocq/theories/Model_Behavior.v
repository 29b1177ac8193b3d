(** Generated by tools/gen_behavior.py from bitcoin-cash-base/src/opcode.rs: the table of [Opcode::behavior]
    (2852-3049) and the list of functions in the type-checking module [func] (2435-2830).  The number at each row is
    its source line. *)
From Verif Require Import Base Model_Opcode.
Local Open Scope list_scope.

(** data_type.rs:3-9 [DataType] *)
Inductive data_type : Type := TGeneric | TInteger | TBoolean | TByteArray (size : option nat).
(** opcode.rs:23-32 [StackItemDelta] *)
Inductive item_delta : Type := Untouched | Added | Changed | Moved | MovedIndirectly | Observed | Removed.
(** opcode.rs:34-40 [OpcodeBehavior] *)
Record behavior : Type := Behavior {
  b_input_types : list data_type; b_output_types : list data_type;
  b_output_order : option (list nat); b_delta : list item_delta
}.
(** opcode.rs:2852-3049 [behavior] *)
Definition opcode_behavior (c : opcode) : outcome behavior :=
  match c with
  | OP_VERIFY => Ok (Behavior [TBoolean] [] None []) (* 2883 *)
  | OP_2DROP => Ok (Behavior [TGeneric; TGeneric] [] (Some []) []) (* 2885 *)
  | OP_2DUP => Ok (Behavior [TGeneric; TGeneric] [TGeneric; TGeneric; TGeneric; TGeneric] (Some [0%nat; 1%nat; 0%nat; 1%nat]) [Observed; Observed; Added; Added]) (* 2886 *)
  | OP_3DUP => Ok (Behavior [TGeneric; TGeneric; TGeneric] [TGeneric; TGeneric; TGeneric; TGeneric; TGeneric; TGeneric] (Some [0%nat; 1%nat; 2%nat; 0%nat; 1%nat; 2%nat]) [Observed; Observed; Observed; Added; Added; Added]) (* 2892 *)
  | OP_2OVER => Ok (Behavior [TGeneric; TGeneric; TGeneric; TGeneric] [TGeneric; TGeneric; TGeneric; TGeneric; TGeneric; TGeneric] (Some [0%nat; 1%nat; 2%nat; 3%nat; 0%nat; 1%nat]) [Observed; Observed; Untouched; Untouched; Added; Added]) (* 2898 *)
  | OP_2ROT => Ok (Behavior [TGeneric; TGeneric; TGeneric; TGeneric; TGeneric; TGeneric] [TGeneric; TGeneric; TGeneric; TGeneric; TGeneric; TGeneric] (Some [2%nat; 3%nat; 4%nat; 5%nat; 0%nat; 1%nat]) [MovedIndirectly; MovedIndirectly; MovedIndirectly; MovedIndirectly; Moved; Moved]) (* 2904 *)
  | OP_2SWAP => Ok (Behavior [TGeneric; TGeneric; TGeneric; TGeneric] [TGeneric; TGeneric; TGeneric; TGeneric] (Some [2%nat; 3%nat; 0%nat; 1%nat]) [MovedIndirectly; MovedIndirectly; Moved; Moved]) (* 2917 *)
  | OP_DEPTH => Ok (Behavior [] [TInteger] (Some [0%nat]) [Added]) (* 2923 *)
  | OP_DROP => Ok (Behavior [TGeneric] [] (Some []) []) (* 2924 *)
  | OP_DUP => Ok (Behavior [TGeneric] [TGeneric; TGeneric] (Some [0%nat; 0%nat]) [Observed; Added]) (* 2925 *)
  | OP_NIP => Ok (Behavior [TGeneric; TGeneric] [TGeneric] (Some [1%nat]) [MovedIndirectly]) (* 2926 *)
  | OP_OVER => Ok (Behavior [TGeneric; TGeneric] [TGeneric; TGeneric; TGeneric] (Some [0%nat; 1%nat; 0%nat]) [Observed; Untouched; Added]) (* 2927 *)
  | OP_PICK => Ok (Behavior [TInteger] [TGeneric] None [Added]) (* 2933 *)
  | OP_ROLL => Ok (Behavior [TInteger] [TGeneric] None [Moved]) (* 2934 *)
  | OP_ROT => Ok (Behavior [TGeneric; TGeneric; TGeneric] [TGeneric; TGeneric; TGeneric] (Some [1%nat; 2%nat; 0%nat]) [MovedIndirectly; MovedIndirectly; Moved]) (* 2935 *)
  | OP_SWAP => Ok (Behavior [TGeneric; TGeneric] [TGeneric; TGeneric] (Some [1%nat; 0%nat]) [MovedIndirectly; Moved]) (* 2941 *)
  | OP_TUCK => Ok (Behavior [TGeneric; TGeneric] [TGeneric; TGeneric; TGeneric] (Some [1%nat; 0%nat; 1%nat]) [Added; MovedIndirectly; MovedIndirectly]) (* 2942 *)
  | OP_CAT => Ok (Behavior [TByteArray None; TByteArray None] [TByteArray None] None [Changed]) (* 2949 *)
  | OP_SPLIT => Ok (Behavior [TByteArray None; TInteger] [TByteArray None; TByteArray None] None [Changed; Changed]) (* 2954 *)
  | OP_NUM2BIN => Ok (Behavior [TInteger; TInteger] [TByteArray None] None [Changed]) (* 2959 *)
  | OP_BIN2NUM => Ok (Behavior [TByteArray None] [TInteger] None [Changed]) (* 2960 *)
  | OP_SIZE => Ok (Behavior [TByteArray None] [TByteArray None; TInteger] None [Observed; Added]) (* 2961 *)
  | OP_AND => Ok (Behavior [TByteArray None; TByteArray None] [TByteArray None] None [Changed]) (* 2967 *)
  | OP_OR => Ok (Behavior [TByteArray None; TByteArray None] [TByteArray None] None [Changed]) (* 2972 *)
  | OP_XOR => Ok (Behavior [TByteArray None; TByteArray None] [TByteArray None] None [Changed]) (* 2977 *)
  | OP_EQUAL => Ok (Behavior [TGeneric; TGeneric] [TBoolean] None [Changed]) (* 2982 *)
  | OP_EQUALVERIFY => Ok (Behavior [TGeneric; TGeneric] [] None []) (* 2983 *)
  | OP_1ADD => Ok (Behavior [TInteger] [TInteger] None [Changed]) (* 2985 *)
  | OP_1SUB => Ok (Behavior [TInteger] [TInteger] None [Changed]) (* 2986 *)
  | OP_NEGATE => Ok (Behavior [TInteger] [TInteger] None [Changed]) (* 2987 *)
  | OP_ABS => Ok (Behavior [TInteger] [TInteger] None [Changed]) (* 2988 *)
  | OP_NOT => Ok (Behavior [TBoolean] [TBoolean] None [Changed]) (* 2989 *)
  | OP_0NOTEQUAL => Ok (Behavior [TInteger] [TBoolean] None [Changed]) (* 2990 *)
  | OP_ADD => Ok (Behavior [TInteger; TInteger] [TInteger] None [Changed]) (* 2992 *)
  | OP_SUB => Ok (Behavior [TInteger; TInteger] [TInteger] None [Changed]) (* 2993 *)
  | OP_DIV => Ok (Behavior [TInteger; TInteger] [TInteger] None [Changed]) (* 2994 *)
  | OP_MOD => Ok (Behavior [TInteger; TInteger] [TInteger] None [Changed]) (* 2995 *)
  | OP_BOOLAND => Ok (Behavior [TBoolean; TBoolean] [TBoolean] None [Changed]) (* 2996 *)
  | OP_BOOLOR => Ok (Behavior [TBoolean; TBoolean] [TBoolean] None [Changed]) (* 2997 *)
  | OP_NUMEQUAL => Ok (Behavior [TInteger; TInteger] [TBoolean] None [Changed]) (* 2998 *)
  | OP_NUMEQUALVERIFY => Ok (Behavior [TInteger; TInteger] [] None []) (* 2999 *)
  | OP_NUMNOTEQUAL => Ok (Behavior [TInteger; TInteger] [TBoolean] None [Changed]) (* 3000 *)
  | OP_LESSTHAN => Ok (Behavior [TInteger; TInteger] [TBoolean] None [Changed]) (* 3001 *)
  | OP_GREATERTHAN => Ok (Behavior [TInteger; TInteger] [TBoolean] None [Changed]) (* 3002 *)
  | OP_LESSTHANOREQUAL => Ok (Behavior [TInteger; TInteger] [TBoolean] None [Changed]) (* 3003 *)
  | OP_GREATERTHANOREQUAL => Ok (Behavior [TInteger; TInteger] [TBoolean] None [Changed]) (* 3004 *)
  | OP_MIN => Ok (Behavior [TInteger; TInteger] [TInteger] None [Changed]) (* 3005 *)
  | OP_MAX => Ok (Behavior [TInteger; TInteger] [TInteger] None [Changed]) (* 3006 *)
  | OP_WITHIN => Ok (Behavior [TInteger; TInteger; TInteger] [TBoolean] None [Changed]) (* 3007 *)
  | OP_RIPEMD160 => Ok (Behavior [TByteArray None] [(TByteArray (Some 20))] None [Changed]) (* 3009 *)
  | OP_SHA1 => Ok (Behavior [TByteArray None] [(TByteArray (Some 20))] None [Changed]) (* 3010 *)
  | OP_SHA256 => Ok (Behavior [TByteArray None] [(TByteArray (Some 32))] None [Changed]) (* 3011 *)
  | OP_HASH160 => Ok (Behavior [TByteArray None] [(TByteArray (Some 20))] None [Changed]) (* 3012 *)
  | OP_HASH256 => Ok (Behavior [TByteArray None] [(TByteArray (Some 32))] None [Changed]) (* 3013 *)
  | OP_CHECKSIG => Ok (Behavior [TByteArray None; TByteArray None] [TBoolean] None [Changed]) (* 3014 *)
  | OP_CHECKSIGVERIFY => Ok (Behavior [TByteArray None; TByteArray None] [] None [Changed]) (* 3015 *)
  | OP_CHECKDATASIG => Ok (Behavior [TByteArray None; TByteArray None; TByteArray None] [TBoolean] None [Changed]) (* 3017 *)
  | OP_CHECKDATASIGVERIFY => Ok (Behavior [TByteArray None; TByteArray None; TByteArray None] [] None []) (* 3022 *)
  | OP_REVERSEBYTES => Ok (Behavior [TByteArray None] [TByteArray None] None [Changed]) (* 3027 *)
  | OP_0 | OP_1NEGATE | OP_1 | OP_2 | OP_3 | OP_4 | OP_5 | OP_6 | OP_7 | OP_8 | OP_9 | OP_10 | OP_11 | OP_12 | OP_13 | OP_14 | OP_15 | OP_16 => Ok (Behavior [] [TInteger] None [Added]) (* 3028 *)
  | OP_IF => Ok (Behavior [TGeneric] [] None []) (* 3031 *)
  | OP_ELSE => Ok (Behavior [] [] None []) (* 3032 *)
  | OP_ENDIF => Ok (Behavior [] [] None []) (* 3033 *)
  | OP_TOALTSTACK => Ok (Behavior [TGeneric] [] None []) (* 3035 *)
  | OP_FROMALTSTACK => Ok (Behavior [] [TGeneric] None [Added]) (* 3036 *)
  | OP_CHECKLOCKTIMEVERIFY => Ok (Behavior [TInteger] [TInteger] None [Observed]) (* 3038 *)
  | OP_CHECKSEQUENCEVERIFY => Ok (Behavior [TInteger] [TInteger] None [Observed]) (* 3039 *)
  | OP_IFDUP | OP_CHECKMULTISIG | OP_CHECKMULTISIGVERIFY => Panic
  | _ => if opcode_is_disabled c then Panic else Ok (Behavior [] [] None [])
  end.
(** opcode.rs:2435-2830 [mod func]: the opcodes the generated code can call (any other is a compile error) *)
Definition func_exists (c : opcode) : bool :=
  match c with
  | OP_1NEGATE (* 2452 *)
  | OP_0 (* 2456 *)
  | OP_1 (* 2460 *)
  | OP_2 (* 2464 *)
  | OP_3 (* 2468 *)
  | OP_4 (* 2472 *)
  | OP_5 (* 2476 *)
  | OP_6 (* 2480 *)
  | OP_7 (* 2484 *)
  | OP_8 (* 2488 *)
  | OP_9 (* 2492 *)
  | OP_10 (* 2496 *)
  | OP_11 (* 2500 *)
  | OP_12 (* 2504 *)
  | OP_13 (* 2508 *)
  | OP_14 (* 2512 *)
  | OP_15 (* 2516 *)
  | OP_16 (* 2520 *)
  | OP_NOP (* 2525 *)
  | OP_NOP1 (* 2527 *)
  | OP_NOP4 (* 2529 *)
  | OP_NOP5 (* 2531 *)
  | OP_NOP6 (* 2533 *)
  | OP_NOP7 (* 2535 *)
  | OP_NOP8 (* 2537 *)
  | OP_NOP9 (* 2539 *)
  | OP_NOP10 (* 2541 *)
  | OP_IF (* 2544 *)
  | OP_ELSE (* 2546 *)
  | OP_ENDIF (* 2548 *)
  | OP_VERIFY (* 2550 *)
  | OP_TOALTSTACK (* 2553 *)
  | OP_FROMALTSTACK (* 2557 *)
  | OP_2DROP (* 2561 *)
  | OP_2DUP (* 2563 *)
  | OP_3DUP (* 2567 *)
  | OP_2OVER (* 2582 *)
  | OP_2ROT (* 2591 *)
  | OP_2SWAP (* 2602 *)
  | OP_DEPTH (* 2606 *)
  | OP_DROP (* 2610 *)
  | OP_DUP (* 2612 *)
  | OP_NIP (* 2616 *)
  | OP_OVER (* 2620 *)
  | OP_PICK (* 2624 *)
  | OP_ROLL (* 2626 *)
  | OP_ROT (* 2628 *)
  | OP_SWAP (* 2632 *)
  | OP_TUCK (* 2636 *)
  | OP_RETURN (* 2640 *)
  | OP_CAT (* 2643 *)
  | OP_SPLIT (* 2647 *)
  | OP_NUM2BIN (* 2657 *)
  | OP_BIN2NUM (* 2661 *)
  | OP_SIZE (* 2665 *)
  | OP_AND (* 2669 *)
  | OP_OR (* 2673 *)
  | OP_XOR (* 2677 *)
  | OP_EQUAL (* 2681 *)
  | OP_EQUALVERIFY (* 2685 *)
  | OP_1ADD (* 2688 *)
  | OP_1SUB (* 2692 *)
  | OP_NEGATE (* 2696 *)
  | OP_ABS (* 2700 *)
  | OP_NOT (* 2704 *)
  | OP_0NOTEQUAL (* 2708 *)
  | OP_ADD (* 2712 *)
  | OP_SUB (* 2716 *)
  | OP_DIV (* 2720 *)
  | OP_MOD (* 2724 *)
  | OP_BOOLAND (* 2728 *)
  | OP_BOOLOR (* 2732 *)
  | OP_NUMEQUAL (* 2736 *)
  | OP_NUMEQUALVERIFY (* 2740 *)
  | OP_NUMNOTEQUAL (* 2742 *)
  | OP_LESSTHAN (* 2746 *)
  | OP_GREATERTHAN (* 2750 *)
  | OP_LESSTHANOREQUAL (* 2754 *)
  | OP_GREATERTHANOREQUAL (* 2758 *)
  | OP_MIN (* 2762 *)
  | OP_MAX (* 2766 *)
  | OP_WITHIN (* 2770 *)
  | OP_RIPEMD160 (* 2778 *)
  | OP_SHA1 (* 2782 *)
  | OP_SHA256 (* 2786 *)
  | OP_HASH160 (* 2790 *)
  | OP_HASH256 (* 2794 *)
  | OP_CODESEPARATOR (* 2798 *)
  | OP_CHECKSIG (* 2800 *)
  | OP_CHECKSIGVERIFY (* 2804 *)
  | OP_CHECKLOCKTIMEVERIFY (* 2806 *)
  | OP_CHECKSEQUENCEVERIFY (* 2810 *)
  | OP_CHECKDATASIG (* 2814 *)
  | OP_CHECKDATASIGVERIFY (* 2822 *)
  | OP_REVERSEBYTES (* 2829 *) => true
  | _ => false
  end.
