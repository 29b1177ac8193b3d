(** Independent specification of the signature hash message (replay-protected sighash, BIP143 layout). *)
From Verif Require Import Base Spec_Encoding Model_ByteArray Model_Opcode Model_Script Spec_Script Model_Code Spec_Wire Model_Preimage.
Local Open Scope Z_scope.

(** Reading of the flags: bit 7 is ANYONECANPAY, the low five bits select ALL / NONE / SINGLE. *)
Definition anyone_can_pay (flags : Z) : Prop := Z.testbit flags 7 = true.
Definition base_type (flags : Z) : Z := flags mod 32.
Definition is_none (flags : Z) : Prop := base_type flags = 2.
Definition is_single (flags : Z) : Prop := base_type flags = 3.

Definition zeros32 : list Z := repeat 0 32.

(** The script code of an input: what follows the first OP_CODESEPARATOR, or the whole script. *)
Definition script_code_of (lock code : script) : Prop :=
  (count_sep lock = O /\ code = lock) \/
  exists pre t, lock = pre ++ t :: code /\ t_op t = OCode OP_CODESEPARATOR /\ count_sep pre = O.

Section Message.
Variable sha256d : list Z -> list Z.

Definition spec_hash_prevouts (inputs : list sig_input) (flags : Z) (h : list Z) : Prop :=
  (anyone_can_pay flags /\ h = zeros32) \/
  (~ anyone_can_pay flags /\ exists parts, Forall2 (fun i => wire_outpoint (si_outpoint i)) inputs parts /\ h = sha256d (concat parts)).
Definition spec_hash_sequence (inputs : list sig_input) (flags : Z) (h : list Z) : Prop :=
  ((anyone_can_pay flags \/ is_none flags \/ is_single flags) /\ h = zeros32) \/
  (~ anyone_can_pay flags /\ ~ is_none flags /\ ~ is_single flags /\
   exists parts, Forall2 (fun i => wire_int 4 (si_sequence i)) inputs parts /\ h = sha256d (concat parts)).
Definition spec_hash_outputs (outputs : list tx_output) (idx : nat) (flags : Z) (h : list Z) : Prop :=
  (is_none flags /\ h = zeros32) \/
  (is_single flags /\ nth_error outputs idx = None /\ h = zeros32) \/
  (is_single flags /\ exists o bs, nth_error outputs idx = Some o /\ wire_output true o bs /\ h = sha256d bs) \/
  (~ is_none flags /\ ~ is_single flags /\ exists parts, Forall2 (wire_output true) outputs parts /\ h = sha256d (concat parts)).

(** [msg] is the message to be double-hashed and signed for input [idx] of [t] under [flags]. *)
Definition sighash_message (t : sig_tx) (idx : nat) (flags : Z) (msg : list Z) : Prop :=
  exists i value lock code version hp hs outpoint script_code val sequence ho lock_time sighash_type,
    nth_error (st_inputs t) idx = Some i /\ si_value i = Some value /\ si_lock_script i = Some lock /\
    msg = version ++ hp ++ hs ++ outpoint ++ script_code ++ val ++ sequence ++ ho ++ lock_time ++ sighash_type /\
    wire_int 4 (st_version t) version /\ spec_hash_prevouts (st_inputs t) flags hp /\
    spec_hash_sequence (st_inputs t) flags hs /\ wire_outpoint (si_outpoint i) outpoint /\
    script_code_of lock code /\ wire_script true code script_code /\
    wire_int 8 value val /\ wire_int 4 (si_sequence i) sequence /\ spec_hash_outputs (st_outputs t) idx flags ho /\
    wire_int 4 (st_lock_time t) lock_time /\ wire_int 4 flags sighash_type.
End Message.

(** What the Rust types guarantee of the data a signature covers ([script_value]: see Spec_Code), and that
    value and locking script of every input are known. *)
From Verif Require Import Spec_Code.
Definition sig_input_value (i : sig_input) : Prop :=
  outpoint_value (si_outpoint i) /\ u32_ok (si_sequence i) /\ Forall u32_ok (si_flags i) /\
  (exists v, si_value i = Some v /\ u64_ok v) /\ (exists s, si_lock_script i = Some s /\ script_value s).
Definition sig_value (t : sig_tx) : Prop :=
  i32_ok (st_version t) /\ Forall sig_input_value (st_inputs t) /\ Forall output_value (st_outputs t) /\ u32_ok (st_lock_time t).
(** The hash function returns 32 bytes; a collision of it. *)
Definition hash32 (sha256d : list Z -> list Z) : Prop := forall m, length (sha256d m) = 32%nat /\ bytes_ok (sha256d m).
Definition collision (sha256d : list Z -> list Z) : Prop := exists x y, x <> y /\ sha256d x = sha256d y.

(** What two equal messages have in common: always version, lock time, flags and the signed input's outpoint,
    sequence, value and script code; without ANYONECANPAY all outpoints; with ALL also all sequences; all
    outputs unless NONE or SINGLE; with SINGLE the output at the index of the signed input. *)
Definition commits (t t' : sig_tx) (idx idx' : nat) (f f' : Z) : Prop :=
  f = f' /\ st_version t = st_version t' /\ st_lock_time t = st_lock_time t' /\
  (exists i i' lock lock' code code', nth_error (st_inputs t) idx = Some i /\ nth_error (st_inputs t') idx' = Some i' /\
     same_outpoint (si_outpoint i) (si_outpoint i') /\ si_sequence i = si_sequence i' /\ si_value i = si_value i' /\
     si_lock_script i = Some lock /\ si_lock_script i' = Some lock' /\ script_code_of lock code /\ script_code_of lock' code' /\ same_script code code') /\
  (~ anyone_can_pay f -> Forall2 (fun i i' => same_outpoint (si_outpoint i) (si_outpoint i')) (st_inputs t) (st_inputs t')) /\
  (~ anyone_can_pay f -> ~ is_none f -> ~ is_single f -> map si_sequence (st_inputs t) = map si_sequence (st_inputs t')) /\
  (~ is_none f -> ~ is_single f -> Forall2 same_output (st_outputs t) (st_outputs t')) /\
  (is_single f -> forall o o', nth_error (st_outputs t) idx = Some o -> nth_error (st_outputs t') idx' = Some o' -> same_output o o').

