(** How values of the library relate to the network's transactions (for statements that mention both). *)
From Verif Require Import Base Model_ByteArray Model_Script Model_Code Model_Destination Model_Preimage Model_TxBuilder Spec_TxBuilder Spec_Network.
Local Open Scope list_scope.
Local Open Scope Z_scope.

(** ** A value of the library as a transaction of the network: same fields, scripts in serialised form *)
Definition as_outpoint (o : tx_outpoint) (n : net_input) : Prop := ni_txid n = ba_data (op_tx_hash o) /\ ni_vout n = op_vout o.
Definition as_script (s : script) (bs : list Z) : Prop := exists x, script_ser_ops s = Ok x /\ ba_data x = bs.
Definition as_input (i : tx_input) (n : net_input) : Prop :=
  as_outpoint (in_prev_out i) n /\ as_script (in_script i) (ni_script n) /\ ni_sequence n = in_sequence i.
Definition as_output (o : tx_output) (n : net_output) : Prop := no_value n = out_value o /\ as_script (out_script o) (no_script n).
Definition as_net (t : unhashed_tx) (n : net_tx) : Prop :=
  nt_version n = tx_version t mod 2 ^ 32 /\ Forall2 as_input (tx_inputs t) (nt_inputs n) /\ Forall2 as_output (tx_outputs t) (nt_outputs n) /\ nt_lock_time n = tx_lock_time t.

(** The call [o] signs input [k], which belongs to signatory [s], with [sg]. *)
Definition signs {sigs : Z -> Type} (o : @sign_op sigs) (k : nat) (s : signatory sigs) (sg : sigs (s_type s)) : Prop :=
  o = SignInput k (Any (s_type s) sg) \/ o = SignInputSignatory k s sg.
