(** Model of bitcoin-cash-base/src/byte_array.rs (default feature set, i.e. without
    [simple-bytearray]): byte strings carrying a provenance tree. *)
From Verif Require Import Base.
Local Open Scope Z_scope.
Local Open Scope list_scope.

(** byte_array.rs:10-24 *)
Inductive func : Type :=
| FPlain | FSha1 | FRipemd160 | FSha256 | FHash256 | FHash160 | FNum2Bin
| FEcdsaSign | FSchnorrSign | FToDataSig | FUnexpectedSplit | FReverse.

Definition func_eq_dec (a b : func) : {a = b} + {a <> b}.
Proof. decide equality. Defined.
Definition func_eqb (a b : func) : bool := if func_eq_dec a b then true else false.

(** byte_array.rs:38-47 *)
Inductive barray : Type :=
| BA (data : list Z) (name : option string) (function : func) (preimage : option (list barray)).

Definition ba_data (a : barray) : list Z := match a with BA d _ _ _ => d end.
Definition ba_name (a : barray) : option string := match a with BA _ n _ _ => n end.
Definition ba_function (a : barray) : func := match a with BA _ _ f _ => f end.
Definition ba_preimage (a : barray) : option (list barray) := match a with BA _ _ _ p => p end.
Definition ba_len (a : barray) : Z := zlen (ba_data a).

(** byte_array.rs:75-83 [Function::should_keep_intact] *)
Definition should_keep_intact (f : func) : bool :=
  match f with
  | FPlain | FNum2Bin | FEcdsaSign | FSchnorrSign | FToDataSig => false
  | _ => true
  end.

(** byte_array.rs:91-98, 106-113 (and from_slice 146-, from_slice_unnamed 161-) *)
Definition ba_new (name : string) (data : list Z) : barray := BA data (Some name) FPlain None.
Definition ba_unnamed (data : list Z) : barray := BA data None FPlain None.

(** byte_array.rs:249-282 [concat_named_option] *)
Definition ba_concat_named (self other : barray) (name : option string) : barray :=
  let new_data := ba_data self ++ ba_data other in
  if func_eqb (ba_function self) FPlain && func_eqb (ba_function other) FPlain then
    let p1 := match ba_preimage self with Some p => p | None => [self] end in
    let p2 := match ba_preimage other with Some p => p | None => [other] end in
    BA new_data name FPlain (Some (p1 ++ p2))
  else BA new_data name FPlain (Some [self; other]).

(** byte_array.rs:299-301 [concat] *)
Definition ba_concat (self other : barray) : barray := ba_concat_named self other None.

(** byte_array.rs:175-184 [from_parts] *)
Definition ba_from_parts (parts : list barray) : barray :=
  match fold_left (fun acc part => match acc with
                                   | Some b => Some (ba_concat b part)
                                   | None => Some part
                                   end) parts None with
  | Some b => b
  | None => ba_unnamed []
  end.

(** usize subtraction, debug overflow check *)
Definition usize_sub (a b : Z) : outcome Z := if a <? b then Panic else Ok (a - b).

Definition ba_set_function (a : barray) (f : func) : barray :=
  match a with BA d n _ p => BA d n f p end.

(** byte_array.rs:312-372 [split].  [at_] is a usize, hence a non-negative [Z].
    The inner [fix] is the [for part in preimage] loop (325-350). *)
Fixpoint ba_split (a : barray) (at_ : Z) {struct a} : outcome (barray * barray) :=
  match a with
  | BA data name function preimage =>
    if zlen data <? at_ then Err (EInvalidSplit at_ (zlen data))
    else
      let left_data := firstn (Z.to_nat at_) data in
      let right_data := skipn (Z.to_nat at_) data in
      match preimage with
      | Some ps =>
        if negb (should_keep_intact function) then
          do (lp, rp) <-
            (fix loop (ps : list barray) (is_left : bool) (len : Z) (lp rp : list barray)
               : outcome (list barray * list barray) :=
               match ps with
               | [] => Ok (lp, rp)
               | part :: rest =>
                 let part_len := ba_len part in
                 let is_left := if len =? at_ then false else is_left in
                 if (at_ <? len + part_len) && is_left then
                   do sub_at <- usize_sub at_ len;
                   do (sub_left, sub_right) <- ba_split part sub_at;
                   let keep := should_keep_intact (ba_function part) in
                   let sub_left := if keep then ba_set_function sub_left FUnexpectedSplit else sub_left in
                   let sub_right := if keep then ba_set_function sub_right FUnexpectedSplit else sub_right in
                   loop rest false (len + part_len) (lp ++ [sub_left]) (rp ++ [sub_right])
                 else if is_left then loop rest is_left (len + part_len) (lp ++ [part]) rp
                 else loop rest is_left (len + part_len) lp (rp ++ [part])
               end) ps true 0 [] [];
          Ok (BA left_data None FPlain (Some lp), BA right_data None FPlain (Some rp))
        else Ok (BA left_data None FUnexpectedSplit None, BA right_data None FUnexpectedSplit None)
      | None => Ok (BA left_data None FPlain None, BA right_data None FPlain None)
      end
  end.

(** byte_array.rs:393-400 [apply_function] *)
Definition ba_apply_function (self : barray) (data : list Z) (f : func) : barray :=
  BA data None f (Some [self]).

(** byte_array.rs:408-413 [named], 421-423 [named_option] *)
Definition ba_named (self : barray) (name : string) : barray :=
  match self with BA d _ f p => BA d (Some name) f p end.
Definition ba_named_option (self : barray) (name : option string) : barray :=
  match self with BA d _ f p => BA d name f p end.

(** [==] on Vec<u8> *)
Fixpoint bytes_eqb (a b : list Z) : bool :=
  match a, b with
  | [], [] => true
  | x :: a', y :: b' => (x =? y) && bytes_eqb a' b'
  | _, _ => false
  end.

(** byte_array.rs:630-634 PartialEq: data only *)
Definition ba_eqb (a b : barray) : bool := bytes_eqb (ba_data a) (ba_data b).

(** byte_array.rs:531-544 [FixedByteArray::from_byte_array] for T = [u8; n] *)
Definition fixed_from_byte_array (n : Z) (a : barray) : outcome barray :=
  if n =? ba_len a then Ok a else Err (EInvalidSlice n (ba_len a)).
(** byte_array.rs:516-529 [FixedByteArray::from_slice_unnamed] *)
Definition fixed_from_slice (n : Z) (s : list Z) : outcome barray :=
  if n =? zlen s then Ok (ba_unnamed s) else Err (EInvalidSlice n (zlen s)).
