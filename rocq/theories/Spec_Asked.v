(** What a sequence of calls of the transaction builder asks for. *)
From Verif Require Import Base Model_ByteArray Model_Script Model_Code Model_Destination Model_Preimage Model_TxBuilder Spec_TxBuilder Spec_Calls.
Local Open Scope Z_scope.
Local Open Scope list_scope.

Section Calls.
Context {sigs : Z -> Type}.
Notation tx_builder := (tx_builder sigs).
Notation signatory := (signatory sigs).

(** * Sizes in bytes *)
Definition compact_len (n : Z) : Z := if n <? 253 then 1 else if n <? 2 ^ 16 then 3 else if n <? 2 ^ 32 then 5 else 9.
Definition output_size (o : tx_output) (n : Z) : Prop :=
  exists b, script_ser_ops (out_script o) = Ok b /\ n = 8 + compact_len (zlen (ba_data b)) + zlen (ba_data b).

(** * Programs *)
(** How a builder is made: TxBuilder::new, new_simple, new_with_fee, from_tx, default. *)
Inductive start : Type :=
| StartNew (version lock_time : Z) | StartSimple | StartWithFee (version lock_time fee_per_kb : Z) | StartFrom (t : unhashed_tx) | StartDefault.
Definition begin (st : start) : tx_builder :=
  match st with
  | StartNew v l => builder_new sigs v l | StartSimple => new_simple sigs | StartWithFee v l f => new_with_fee sigs v l f
  | StartFrom t => from_tx sigs t | StartDefault => builder_default sigs
  end.
(** The builder after the calls. *)
Definition after (st : start) (cs : list (@call sigs)) : tx_builder := fst (run_calls (begin st) cs).

(** * What they ask for (together with [asked_inputs], [asked_outputs] and [asked_fee] of Spec_Calls) *)
Definition asked_version (st : start) : Z :=
  match st with StartNew v _ | StartWithFee v _ _ => v | StartSimple => 1 | StartFrom t => tx_version t | StartDefault => 0 end.
Definition asked_lock_time (st : start) : Z :=
  match st with StartNew _ l | StartWithFee _ l _ => l | StartSimple => 0 | StartFrom t => tx_lock_time t | StartDefault => 0 end.
(** Satoshis per 1000 bytes: the last fee set, or else that of the start; a thousand unless given. *)
Definition asked_rate (st : start) (cs : list (@call sigs)) : Z :=
  asked_fee (match st with StartWithFee _ _ f => f | StartDefault => 0 | _ => 1000 end) cs.
(** The coins spent, in order. *)
Definition asked_spends (st : start) (cs : list (@call sigs)) : list unsigned_tx_input :=
  match st with
  | StartFrom t => map (fun i => UnsignedTxInput (in_prev_out i) (in_sequence i) (match in_value i with Some v => v | None => 0 end)) (tx_inputs t)
  | _ => []
  end ++ map (fun a => fst (fst a)) (asked_inputs cs).
(** The outputs, in order: fixed, or change with its bounds (more than 546, no upper limit, precedence 0, unless given). *)
Definition asked_outputs (st : start) (cs : list (@call sigs)) : list builder_output :=
  match st with StartFrom t => map KnownValue (tx_outputs t) | _ => [] end ++
  Spec_Calls.asked_outputs cs.
Definition asked_total (st : start) (cs : list (@call sigs)) : Z := sum (map ui_value (asked_spends st cs)).
(** All signatories are in a class. *)
Definition all_signatories (allowed : signatory -> Prop) (cs : list (@call sigs)) : Prop :=
  forall i lock s, In (CallInput i lock s) cs -> allowed s.
(** Amounts and rates are u64 values. *)
Definition amounts_ok (st : start) (cs : list (@call sigs)) : Prop :=
  Forall (fun i => u64_ok (ui_value i)) (asked_spends st cs) /\
  Forall (fun o => match o with KnownValue o => u64_ok (out_value o) | Leftover lo up _ _ => u64_ok lo /\ u64_ok up end) (asked_outputs st cs) /\
  u64_ok (asked_rate st cs).
(** No sum and no product overflows: sums of amounts, and any size times the fee rate. *)
Definition no_overflow (st : start) (cs : list (@call sigs)) : Prop :=
  asked_total st cs < 2 ^ 64 /\ known_total (asked_outputs st cs) < 2 ^ 64 /\
  forall outs size, estimate_size (after st cs) outs = Ok size -> size * asked_rate st cs < 2 ^ 64.
(** The fee rate is left alone. *)
Definition default_rate (st : start) (cs : list (@call sigs)) : Prop :=
  match st with StartNew _ _ | StartSimple | StartFrom _ => True | _ => False end /\ forall f, ~ In (CallSetFee f) cs.
End Calls.
