(** Model of bitcoin-cash-slp/src/lib.rs (the output constructors and [TokenId]).  [&str] values are the
    lists of their UTF-8 bytes. *)
From Coq Require Import String DecimalString.
From Verif Require Import Base Model_ByteArray Model_Opcode Model_Script Model_Code Model_Hash.
Local Open Scope string_scope.
Local Open Scope list_scope.
Local Open Scope Z_scope.

(** lib.rs:7-12 [SlpTokenType] and its discriminants *)
Inductive slp_token_type : Type := Fungible | Nft1Child | Nft1Group.
Definition token_type_u8 (t : slp_token_type) : Z := match t with Fungible => 1 | Nft1Child => 0x41 | Nft1Group => 0x81 end.
(** lib.rs:14-20 [SlpTxType] and 191-195 its [Display] (the derived [Debug] prints the name) *)
Inductive slp_tx_type : Type := GENESIS | SEND | MINT | COMMIT.
Definition tx_type_text (t : slp_tx_type) : list Z :=
  match t with
  | GENESIS => [71; 69; 78; 69; 83; 73; 83]
  | SEND => [83; 69; 78; 68]
  | MINT => [77; 73; 78; 84]
  | COMMIT => [67; 79; 77; 77; 73; 84]
  end.
(** lib.rs:4-5 [TokenId]: a [Sha256d]; 198-218 its functions *)
Definition token_id : Type := barray.
Definition token_id_from_slice (s : list Z) : outcome token_id := hash_from_slice_le 32 s.
Definition token_id_from_hash (h : barray) : token_id := h.
Definition token_id_as_slice_be (t : token_id) : list Z := ba_data t.
Definition token_id_hash (t : token_id) : barray := t.
Definition token_id_to_vec (t : token_id) : list Z := hash_to_vec_le t.
(** lib.rs:91-100 *)
Record genesis_params : Type := GenesisParams {
  g_token_type : slp_token_type;
  g_ticker : list Z;
  g_name : list Z;
  g_document_url : list Z;
  g_document_hash : list Z;
  g_decimals : Z;
  g_mint_baton_vout : option Z;
  g_initial_quantity : Z
}.

(** [format!("token_output_quantity{}", n)] *)
Definition quantity_name (n : nat) : string := ("token_output_quantity" ++ NilEmpty.string_of_uint (Nat.to_uint n))%string.
(** lib.rs:102-114 [slp_amount_ops]; [idx] is the position of the first amount *)
Fixpoint amount_ops_from (idx : nat) (amounts : list Z) : list op :=
  match amounts with
  | [] => []
  | a :: r => OPushArray (ba_new (quantity_name (idx + 1)) (be_bytes 8 a)) false :: amount_ops_from (S idx) r
  end.
Definition slp_amount_ops (amounts : list Z) : list op := amount_ops_from 0 amounts.

Definition lokad_id : list Z := [83; 76; 80; 0].
(** lib.rs:116-158 [slp_genesis_output] *)
Definition slp_genesis_output (p : genesis_params) : tx_output :=
  let byte_arrays :=
    [ ba_new "lokad_id" lokad_id;
      ba_new "token_type" [token_type_u8 (g_token_type p)];
      ba_new "transaction_type" (tx_type_text GENESIS);
      ba_new "token_ticker" (g_ticker p);
      ba_new "token_name" (g_name p);
      ba_new "token_document_url" (g_document_url p);
      ba_new "token_document_hash" (g_document_hash p);
      ba_new "decimals" (be_bytes 1 (g_decimals p));
      ba_new "mint_baton_vout" (match g_mint_baton_vout p with Some v => be_bytes 1 v | None => [] end);
      ba_new "initial_token_mint_quantity" (be_bytes 8 (g_initial_quantity p)) ] in
  let ops := OCode OP_RETURN :: map (fun a => OPushArray a false) byte_arrays in
  TxOutput 0 (map tagged_from_op ops).
(** lib.rs:160-189 [slp_send_output] *)
Definition slp_send_output (t : slp_token_type) (id : token_id) (amounts : list Z) : tx_output :=
  let ops :=
    [ OCode OP_RETURN;
      OPushArray (ba_new "lokad_id" lokad_id) false;
      OPushArray (ba_new "token_type" [token_type_u8 t]) false;
      OPushArray (ba_new "transaction_type" (tx_type_text SEND)) false;
      OPushArray (ba_new "token_id" (token_id_to_vec id)) false ] ++ slp_amount_ops amounts in
  TxOutput 0 (map tagged_from_op ops).

(** lib.rs:22-30, 37-49 [SlpTx] and parts (only the fields [into_unhashed_tx] reads, and the token) *)
Record slp_tx_input : Type := SlpTxInput { si_index : Z; si_amount : Z; si_input : tx_input; si_prev_script : script }.
Record slp_tx_output : Type := SlpTxOutput { so_amount : Z; so_output : tx_output }.
Record slp_tx : Type := SlpTx { st_version : Z; st_inputs : list slp_tx_input; st_outputs : list slp_tx_output; st_lock_time : Z }.
(** lib.rs:226-235 *)
Definition into_unhashed_tx (t : slp_tx) : unhashed_tx :=
  UnhashedTx (st_version t) (map si_input (st_inputs t)) (map so_output (st_outputs t)) (st_lock_time t).
