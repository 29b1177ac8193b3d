(** Independent specification of SLP messages (Simple Ledger Protocol "Token Type 1" and "NFT1"
    specifications): a parser of the bytes of an output script. *)
From Verif Require Import Base Model_Slp.
Local Open Scope Z_scope.
Local Open Scope list_scope.

(** SLP allows four ways of pushing bytes: 0x01..0x4b, PUSHDATA1 (4c), PUSHDATA2 (4d), PUSHDATA4 (4e). In
    particular the opcodes OP_0, OP_1NEGATE, OP_1..OP_16 are not allowed, nor anything else. *)
Definition take (n : Z) (bs : list Z) : option (list Z * list Z) :=
  if zlen bs <? n then None else Some (firstn (Z.to_nat n) bs, skipn (Z.to_nat n) bs).
Definition length_bytes (b : Z) : Z := if b =? 0x4c then 1 else if b =? 0x4d then 2 else if b =? 0x4e then 4 else 0.
Definition slp_push (bs : list Z) : option (list Z * list Z) :=
  match bs with
  | [] => None
  | b :: r =>
    if (1 <=? b) && (b <=? 0x4b) then take b r
    else if (0x4c <=? b) && (b <=? 0x4e) then
      match take (length_bytes b) r with Some (l, r') => take (le_value l) r' | None => None end
    else None
  end.
Fixpoint slp_pushes (fuel : nat) (bs : list Z) : option (list (list Z)) :=
  match bs, fuel with
  | [], _ => Some []
  | _, O => None
  | _, S k => match slp_push bs with
              | Some (d, r) => match slp_pushes k r with Some ds => Some (d :: ds) | None => None end
              | None => None
              end
  end.
(** The data fields of an OP_RETURN script. *)
Definition slp_fields (bs : list Z) : option (list (list Z)) :=
  match bs with
  | b :: r => if b =? 0x6a then slp_pushes (length r) r else None
  | [] => None
  end.

Record genesis : Type := Genesis {
  ge_type : Z; ge_ticker : list Z; ge_name : list Z; ge_url : list Z; ge_hash : list Z; ge_decimals : Z;
  ge_baton : option Z; ge_quantity : Z
}.
Inductive slp_message : Type :=
| MGenesis (g : genesis)
| MSend (ttype : Z) (id : list Z) (amounts : list Z).

Definition slp_lokad : list Z := [0x53; 0x4c; 0x50; 0x00].      (* "SLP" and a zero byte *)
Definition txt_genesis : list Z := [0x47; 0x45; 0x4e; 0x45; 0x53; 0x49; 0x53].
Definition txt_send : list Z := [0x53; 0x45; 0x4e; 0x44].
Fixpoint same (a b : list Z) : bool :=
  match a, b with [], [] => true | x :: a, y :: b => (x =? y) && same a b | _, _ => false end.

(** The limits the SLP specifications set. *)
Definition genesis_fields_ok (ttype : Z) (hash decimals baton quantity : list Z) : bool :=
  ((zlen hash =? 0) || (zlen hash =? 32)) &&
  ((zlen decimals =? 1) && (be_value decimals <=? 9)) &&
  ((zlen baton =? 0) || ((zlen baton =? 1) && (2 <=? be_value baton))) &&
  (zlen quantity =? 8) &&
  (if ttype =? 0x41 then (be_value decimals =? 0) && (zlen baton =? 0) && (be_value quantity =? 1) else true).
Definition send_fields_ok (id : list Z) (amounts : list (list Z)) : bool :=
  (zlen id =? 32) && (1 <=? zlen amounts) && (zlen amounts <=? 19) && forallb (fun a => zlen a =? 8) amounts.
Definition type_ok (t : list Z) : bool := (zlen t =? 1) && ((be_value t =? 1) || (be_value t =? 0x41) || (be_value t =? 0x81)).

Definition slp_parse (bs : list Z) : option slp_message :=
  match slp_fields bs with
  | Some (lokad :: ttype :: action :: rest) =>
    if same lokad slp_lokad && type_ok ttype then
      if same action txt_genesis then
        match rest with
        | [ticker; name; url; hash; decimals; baton; quantity] =>
          if genesis_fields_ok (be_value ttype) hash decimals baton quantity
          then Some (MGenesis (Genesis (be_value ttype) ticker name url hash (be_value decimals)
                      (match baton with [] => None | _ => Some (be_value baton) end) (be_value quantity)))
          else None
        | _ => None
        end
      else if same action txt_send then
        match rest with
        | id :: amounts => if send_fields_ok id amounts then Some (MSend (be_value ttype) id (map be_value amounts)) else None
        | [] => None
        end
      else None
    else None
  | _ => None
  end.

(** ** In terms of the API's parameters *)
(** What the Rust types guarantee, and texts of at most 2^32-1 bytes. *)
Definition text_ok (s : list Z) : Prop := bytes_ok s /\ zlen s < 2 ^ 32.
Definition params_ok (p : genesis_params) : Prop :=
  text_ok (g_ticker p) /\ text_ok (g_name p) /\ text_ok (g_document_url p) /\ text_ok (g_document_hash p) /\
  byte_ok (g_decimals p) /\ (forall v, g_mint_baton_vout p = Some v -> byte_ok v) /\ u64_ok (g_initial_quantity p).
Definition type_number (t : slp_token_type) : Z := match t with Fungible => 0x01 | Nft1Child => 0x41 | Nft1Group => 0x81 end.
(** The limits of the SLP specifications, in words: document hash absent or 32 bytes, at most 9 decimals, baton
    absent or at output 2 or later; an NFT child has no decimals, no baton and quantity 1. *)
Definition within_limits (p : genesis_params) : Prop :=
  (g_document_hash p = [] \/ zlen (g_document_hash p) = 32) /\ g_decimals p <= 9 /\
  (forall v, g_mint_baton_vout p = Some v -> 2 <= v) /\
  (g_token_type p = Nft1Child -> g_decimals p = 0 /\ g_mint_baton_vout p = None /\ g_initial_quantity p = 1).
Definition genesis_of (p : genesis_params) : genesis :=
  Genesis (type_number (g_token_type p)) (g_ticker p) (g_name p) (g_document_url p) (g_document_hash p) (g_decimals p)
          (g_mint_baton_vout p) (g_initial_quantity p).
