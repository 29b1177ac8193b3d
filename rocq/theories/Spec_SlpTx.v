(** What an SLP indexer reads in a transaction of the network (SLP "Token Type 1" and "NFT1" specifications): the
    message is the script of output 0; SEND gives its amounts, in order, to the outputs 1, 2, ...; GENESIS gives the whole
    quantity to output 1 and the right to mint to the output it names.  Amounts for outputs that do not exist are lost. *)
From Verif Require Import Base Model_Slp Spec_Slp Spec_Network.
Local Open Scope Z_scope.
Local Open Scope list_scope.

Definition slp_of_tx (t : net_tx) : option slp_message :=
  match nt_outputs t with o :: _ => slp_parse (no_script o) | [] => None end.
Definition token_amount (t : net_tx) (vout : nat) : Z :=
  if Nat.ltb vout (length (nt_outputs t)) then
    match slp_of_tx t with
    | Some (MSend _ _ amounts) => match vout with O => 0 | S k => nth k amounts 0 end
    | Some (MGenesis g) => if Nat.eqb vout 1 then ge_quantity g else 0
    | None => 0
    end
  else 0.
Definition minting_baton (t : net_tx) (vout : nat) : Prop :=
  (vout < length (nt_outputs t))%nat /\ exists g, slp_of_tx t = Some (MGenesis g) /\ ge_baton g = Some (Z.of_nat vout).
(** All tokens some output holds. *)
Definition tokens_held (t : net_tx) : Z := fold_right Z.add 0 (map (token_amount t) (seq 0 (length (nt_outputs t)))).

(** A token goes by the id of the transaction that made it: the double SHA-256 of its bytes, written in the opposite order. *)
Definition tx_id (sha256d : list Z -> list Z) (t : net_tx) : list Z := rev (sha256d (net_bytes t)).
Definition sends_token (id : list Z) (t : net_tx) : Prop := exists ttype amounts, slp_of_tx t = Some (MSend ttype id amounts).
