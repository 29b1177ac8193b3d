(** Model of bitcoin-cash-base/src/encoding_utils.rs. *)
From Verif Require Import Base.
Local Open Scope Z_scope.

(** byteorder [read_uN::<LittleEndian>] on a slice cursor; the cursor is the remaining slice. *)
Definition read_le (n : nat) (bs : list Z) : outcome (Z * list Z) :=
  if Nat.ltb (length bs) n then Err EEof
  else Ok (le_value (firstn n bs), skipn n bs).

(** encoding_utils.rs:5-13 [read_var_int] *)
Definition read_var_int (bs : list Z) : outcome (Z * list Z) :=
  do (first_byte, rest) <- read_le 1 bs;
  if first_byte <=? 0xfc then Ok (first_byte, rest)
  else if first_byte =? 0xfd then read_le 2 rest
  else if first_byte =? 0xfe then read_le 4 rest
  else read_le 8 rest.

(** encoding_utils.rs:15-32 [write_var_int] and 34-38 [encode_var_int];
    writing to a [Vec] never fails.  The casts [as u8/u16/u32] are the truncation done by [le_bytes]. *)
Definition encode_var_int (number : Z) : list Z :=
  if number <=? 0xfc then le_bytes 1 number
  else if number <=? 0xffff then 0xfd :: le_bytes 2 number
  else if number <=? 0xffffffff then 0xfe :: le_bytes 4 number
  else 0xff :: le_bytes 8 number.

(** encoding_utils.rs:56-73: the [while i > 0] loop of [encode_minimally]
    ([i] is the loop variable; [vec.resize(i)] truncates, as [i <= vec.len()]). *)
Fixpoint em_loop (vec : list Z) (last : Z) (i : nat) : list Z :=
  match i with
  | O => firstn 0 vec
  | S k =>
      let x := nth k vec 0 in            (* vec[i - 1] *)
      if x =? 0 then em_loop vec last k  (* i -= 1 *)
      else if Z.land x 0x80 =? 0
      then firstn i (upd vec k (Z.lor x last))   (* vec[i-1] |= last; resize(i) *)
      else firstn (S i) (upd vec i last)         (* vec[i] = last; i += 1; resize(i) *)
  end.

(** encoding_utils.rs:40-76 [encode_minimally] *)
Definition encode_minimally (vec : list Z) : list Z :=
  match vec with
  | [] => []                                        (* vec.last() == None *)
  | _ =>
      let n := length vec in
      let lst := nth (n - 1) vec 0 in
      if negb (Z.land lst 0x7f =? 0) then vec
      else if Nat.eqb n 1 then []
      else if negb (Z.land (nth (n - 2) vec 0) 0x80 =? 0) then vec
      else em_loop vec lst (n - 1)
  end.

(** encoding_utils.rs:78-86 [encode_int] ([int.abs()] panics on i32::MIN in debug builds;
    the [Integer] type excludes it, callers pass [Integer] values). *)
Definition encode_int (int : Z) : list Z :=
  encode_minimally (le_bytes 4 (Z.abs int) ++ (if int <? 0 then [0x80] else [])).

(** encoding_utils.rs:88-94 [encode_bool] *)
Definition encode_bool (b : bool) : list Z := if b then [1] else [].

(** [i32::checked_shl]: only the shift amount is checked, the value wraps. *)
Definition checked_shl32 (a s : Z) : option Z :=
  if s <? 32 then Some (wrap32 (Z.shiftl a s)) else None.

(** encoding_utils.rs:96-99 [try_shl] *)
Definition try_shl (a s : Z) : outcome Z :=
  match checked_shl32 a s with Some v => Ok v | None => Err EIntOverflow end.

(** i32 [+=], [*=] with debug overflow checks *)
Definition i32_checked (v : Z) : outcome Z :=
  if (- 2 ^ 31 <=? v) && (v <? 2 ^ 31) then Ok v else Panic.

(** encoding_utils.rs:108-118: the loop of [vec_to_int]; [l] = elements not yet visited.
    [shift] is a [u32] ([shift += 8] panics on overflow in debug builds). *)
Fixpoint v2i_loop (l : list Z) (sign_bit shift int : Z) : outcome Z :=
  match l with
  | [] => Ok int
  | v :: t =>
      if (match t with [] => true | _ => false end) && negb (sign_bit =? 0) then
        do s <- try_shl (Z.lxor v sign_bit) shift;
        do int1 <- i32_checked (int + s);
        i32_checked (int1 * -1)
      else
        do int1 <- (if v =? 0 then Ok int
                    else do s <- try_shl v shift; i32_checked (int + s));
        if 2 ^ 32 <=? shift + 8 then Panic else v2i_loop t sign_bit (shift + 8) int1
  end.

(** encoding_utils.rs:101-120 [vec_to_int] *)
Definition vec_to_int (vec : list Z) : outcome Z :=
  match vec with
  | [] => Ok 0
  | _ => v2i_loop vec (Z.land (nth (length vec - 1) vec 0) 0x80) 0 0
  end.
