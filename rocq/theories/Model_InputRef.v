(** Model of the preimage accessors of an unsigned transaction (bitcoin-cash/src/tx_builder.rs:565-574, 624-634). *)
From Verif Require Import Base Model_ByteArray Model_Script Model_Code Model_Destination Model_Preimage Model_TxBuilder.
Local Open Scope Z_scope.

(** tx_builder.rs:71-81, 637-663 [SignatoryKind::TxPreimages]: one preimage, or a slice of them. *)
Definition preimage_view : Type := (tx_preimage + list tx_preimage)%type.

Section InputRef.
Context {sigs : Z -> Type}.
(** tx_builder.rs:646-648, 660-662 [make_tx_preimages]; [tx_preimages[0]] panics on an empty slice *)
Definition make_tx_preimages (s : signatory sigs) (pre : list tx_preimage) : outcome preimage_view :=
  match s_kind s with
  | KindOne _ _ _ => match pre with [] => Panic | p :: _ => Ok (inl p) end
  | KindMultiple _ _ _ => Ok (inr pre)
  end.
(** tx_builder.rs:624-634 [InputReference::new], [input_idx]: a reference is its index; the signatory is
    only a phantom type, here the argument [s] of [input_preimages]. *)
Definition input_reference_new (input_idx : nat) : nat := input_idx.
(** tx_builder.rs:565-570 [input_preimages]; indexing out of range panics *)
Definition input_preimages (u : unsigned_tx sigs) (s : signatory sigs) (input_token : nat) : outcome preimage_view :=
  do pre <- expect (nth_error (u_preimages u) input_token);
  make_tx_preimages s pre.
(** tx_builder.rs:572-574 [preimages] *)
Definition preimages (u : unsigned_tx sigs) : list (list tx_preimage) := u_preimages u.
End InputRef.
