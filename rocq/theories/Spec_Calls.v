(** Transactions described by the list of builder calls that make them. *)
From Verif Require Import Base Model_ByteArray Model_Script Model_Code Model_Destination Model_Preimage Model_TxBuilder Spec_TxBuilder.
Local Open Scope Z_scope.
Local Open Scope list_scope.

Section Calls.
Context {sigs : Z -> Type}.
Inductive call : Type :=
| CallInput (input : unsigned_tx_input) (lock : script) (s : signatory sigs)
| CallOutput (o : tx_output)
| CallOutputs (os : list tx_output)
| CallLeftover (s : script)
| CallLeftoverBounded (lower upper precedence : Z) (s : script)
| CallSetFee (fee : Z).
(** Run the calls; collects the references [add_input] returns. *)
Definition run_call (b : tx_builder sigs) (c : call) : tx_builder sigs * list nat :=
  match c with
  | CallInput i l s => let '(b', r) := add_input b i l s in (b', [r])
  | CallOutput o => (add_output b o, [])
  | CallOutputs os => (add_outputs b os, [])
  | CallLeftover s => (add_leftover_output b s, [])
  | CallLeftoverBounded lo up p s => (add_leftover_output_bounded b lo up p s, [])
  | CallSetFee f => (set_fee_per_kb b f, [])
  end.
Fixpoint run_calls (b : tx_builder sigs) (l : list call) : tx_builder sigs * list nat :=
  match l with
  | [] => (b, [])
  | c :: r => let '(b', rs) := run_call b c in let '(b'', rs') := run_calls b' r in (b'', rs ++ rs')
  end.
(** What the caller asked for. *)
Definition asked_inputs (l : list call) : list (unsigned_tx_input * script * signatory sigs) :=
  flat_map (fun c => match c with CallInput i s sg => [(i, s, sg)] | _ => [] end) l.
Definition asked_outputs (l : list call) : list builder_output :=
  flat_map (fun c => match c with
    | CallOutput o => [KnownValue o]
    | CallOutputs os => map KnownValue os
    | CallLeftover s => [Leftover 546 18446744073709551615 0 s]  (* more than the dust limit, no upper bound, first in line *)
    | CallLeftoverBounded lo up p s => [Leftover lo up p s]
    | _ => []
    end) l.
Definition asked_fee (default : Z) (l : list call) : Z :=
  fold_left (fun f c => match c with CallSetFee f' => f' | _ => f end) l default.
(** The input of the finished transaction is the one asked for. *)
Definition as_asked (a : unsigned_tx_input * script * signatory sigs) (i : tx_input) : Prop :=
  let '(u, lock, s) := a in
  in_prev_out i = ui_prev_out u /\ in_sequence i = ui_sequence u /\ in_value i = Some (ui_value u) /\
  in_lock_script i = Some lock /\ in_is_p2sh i = Some (s_is_p2sh s) /\ in_sig_hash_flags i = Some (s_flags s).
End Calls.
