(** opcode.rs:2835-2842 [is_disabled] *)
Definition opcode_is_disabled (o : opcode) : bool :=
  match o with
  | OP_RESERVED | OP_RESERVED1 | OP_RESERVED2 | OP_MUL | OP_2MUL | OP_2DIV | OP_INVERT
  | OP_LSHIFT | OP_RSHIFT | OP_VER | OP_VERIF | OP_VERNOTIF => true
  | _ => false
  end.

(** opcode.rs:2844-2850 [retains_input] *)
Definition opcode_retains_input (o : opcode) : bool :=
  match o with
  | OP_SIZE | OP_CHECKLOCKTIMEVERIFY | OP_CHECKSEQUENCEVERIFY => true
  | _ => false
  end.

(** opcode.rs:10-21 [MAP_NAME_TO_ENUM]: the association list built by the loop (later inserts win,
    so newest first); [None] when the construction itself panics (line 17). *)
Fixpoint name_map_loop (codes : list Z) (m : list (string * opcode)) : option (list (string * opcode)) :=
  match codes with
  | [] => Some m
  | c :: rest =>
    match opcode_from_u8 c with
    | None => None
    | Some o => name_map_loop rest ((opcode_name o, o) :: m)
    end
  end.
Definition name_map : option (list (string * opcode)) :=
  name_map_loop (map (fun k => 0x51 + Z.of_nat k) (seq 0 (Z.to_nat (opcode_u8 FIRST_UNDEFINED_OP_VALUE - 0x51))))
    [("OP_1NEGATE"%string, OP_1NEGATE); ("OP_0"%string, OP_0)].
Fixpoint assoc_str {A} (s : string) (m : list (string * A)) : option A :=
  match m with
  | [] => None
  | (k, v) :: rest => if String.eqb k s then Some v else assoc_str s rest
  end.
(** [MAP_NAME_TO_ENUM.get(name)], generate.rs / parse.rs lookups *)
Definition opcode_by_name (s : string) : option opcode :=
  match name_map with Some m => assoc_str s m | None => None end.

(** [derive(PartialEq)] (comparison of discriminants) *)
Definition opcode_eqb (a b : opcode) : bool := opcode_u8 a =? opcode_u8 b.
