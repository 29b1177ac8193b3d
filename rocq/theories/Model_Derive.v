(** Model of the [#[derive(BitcoinCode)]] procedural macro, bitcoin-cash-code/src/lib.rs: the code generator
    [generate] as a function from a struct declaration to generated statements, and the meaning rustc gives to
    the generated [impl]. *)
From Verif Require Import Base Model_Encoding Model_ByteArray Model_Opcode Model_Script Model_Code.
Local Open Scope string_scope.
Local Open Scope list_scope.
Local Open Scope Z_scope.

(** syn's [Lit]: only string literals matter (lib.rs:15-21 [parse_string_lit]). *)
Inductive lit : Type := LStr (s : string) | LOther.
(** syn's [NestedMeta] inside an attribute list on the struct: [segments = value], another meta, or a literal. *)
Inductive nested : Type := NNameValue (segments : list string) (value : lit) | NOtherMeta | NLit.
(** One attribute of the struct after [parse_meta]: not parseable as a meta, a list (its path rendered as one
    string, and its nested items), or anything else. *)
Inductive sattr : Type := SBad | SList (path : string) (items : list nested) | SOther.
(** One attribute of a field: not parseable, [#[p]], [#[p = ..]] (doc comments are of this form), or
    [#[p(params)]] with each parameter rendered by [to_token_stream().to_string()]. *)
Inductive fattr : Type := FBad | FPath (path : string) | FNameValue (path : string) | FList (path : string) (params : list string).
(** lib.rs:78-92: the three shapes of a struct. *)
Record field (ty : Type) : Type := Field { f_name : string; f_attrs : list fattr; f_ty : ty }.
Arguments Field {ty}. Arguments f_name {ty}. Arguments f_attrs {ty}. Arguments f_ty {ty}.
Inductive fields (ty : Type) : Type := Named (fs : list (field ty)) | Unnamed | Unit_.
Arguments Named {ty}. Arguments Unnamed {ty}. Arguments Unit_ {ty}.
Record item_struct (ty : Type) : Type := ItemStruct { is_attrs : list sattr; is_fields : fields ty }.
Arguments ItemStruct {ty}. Arguments is_attrs {ty}. Arguments is_fields {ty}.

(** Generated statements.  lib.rs:131-133 [__serialize_parts.push(self.f.ser().named("f"))];
    lib.rs:134-136 [let (f, data) = <ty as BitcoinCode>::deser_rest(data)?;]; lib.rs:138-140
    [let f = Default::default();]. *)
Inductive ser_call : Type := SerPush (f : string) (name : string).
Inductive deser_call (ty : Type) : Type := LetRead (f : string) (t : ty) | LetDefault (f : string).
Arguments LetRead {ty}. Arguments LetDefault {ty}.
(** lib.rs:146-162: crate path, bodies of [ser] and [deser_rest], identifiers of the struct literal. *)
Record generated (ty : Type) : Type := Generated {
  g_crate : string; g_ser : list ser_call; g_deser : list (deser_call ty); g_idents : list string }.
Arguments Generated {ty}. Arguments g_crate {ty}. Arguments g_ser {ty}. Arguments g_deser {ty}. Arguments g_idents {ty}.

Section Generate.
Context {ty : Type}.
(** [syn::Ident::new] panics on text that is no identifier; which texts are is left to the caller. *)
Variable is_ident : string -> bool.

(** lib.rs:7-13 [single_path] *)
Definition single_path (segments : list string) : option string :=
  match segments with [s] => Some s | _ => None end.

(** lib.rs:31-67: the nested items of a [bitcoin_code(..)] attribute on the struct *)
Fixpoint struct_params (items : list nested) (crate_name : string) : outcome string :=
  match items with
  | [] => Ok crate_name
  | NNameValue segs v :: rest =>
    match single_path segs with
    | None => Err (EMsg 1)                      (* "Invalid attribute, invalid name" *)
    | Some n =>
      if (n =? "crate")%string then
        match v with
        | LStr s => if is_ident s then struct_params rest s else Panic
        | LOther => Err (EMsg 2)                (* "Invalid attribute, invalid value" *)
        end
      else Err (EMsg 3)                         (* "Invalid attribute, unknown name" *)
    end
  | NOtherMeta :: _ => Err (EMsg 4)
  | NLit :: _ => Err (EMsg 5)
  end.
(** lib.rs:28-71 *)
Fixpoint struct_attrs (attrs : list sattr) (crate_name : string) : outcome string :=
  match attrs with
  | [] => Ok crate_name
  | SBad :: _ => Err (EMsg 6)                   (* parse_meta()? *)
  | SList p items :: rest =>
    if (p =? "bitcoin_code")%string then do c <- struct_params items crate_name; struct_attrs rest c
    else struct_attrs rest crate_name
  | SOther :: rest => struct_attrs rest crate_name
  end.
(** lib.rs:101-125: the attributes of one field; the attribute's path is not looked at *)
Fixpoint field_skipped (attrs : list fattr) (is_skipped : bool) : outcome bool :=
  match attrs with
  | [] => Ok is_skipped
  | FList _ params :: rest =>
    match params with
    | [p] => if (p =? "skip")%string then field_skipped rest true else Err (EMsg 7)
    | _ => Err (EMsg 7)
    end
  | _ :: _ => Err (EMsg 7)                      (* "Invalid attribute" *)
  end.
(** lib.rs:94-142: the loop over the fields *)
Fixpoint gen_fields (fs : list (field ty)) : outcome (list ser_call * list (deser_call ty) * list string) :=
  match fs with
  | [] => Ok ([], [], [])
  | f :: rest =>
    do sk <- field_skipped (f_attrs f) false;
    do (sd, ids) <- gen_fields rest;
    let '(ser, deser) := sd in
    Ok (if sk then (ser, LetDefault (f_name f) :: deser, f_name f :: ids)
        else (SerPush (f_name f) (f_name f) :: ser, LetRead (f_name f) (f_ty f) :: deser, f_name f :: ids))
  end.
(** lib.rs:23-166 [generate] *)
Definition generate (item : item_struct ty) : outcome (generated ty) :=
  do crate_name <- struct_attrs (is_attrs item) "bitcoin_cash";
  match is_fields item with
  | Named fs => do (sd, ids) <- gen_fields fs; Ok (Generated crate_name (fst sd) (snd sd) ids)
  | Unnamed => Err (EMsg 8)
  | Unit_ => Err (EMsg 9)
  end.
End Generate.

(** The meaning of the generated [impl].  All Rust values live in one type [V]; [codec_of t] is the
    [BitcoinCode] implementation of type [t], [default_of t] its [Default].  A struct value lists its fields by
    name.  What rustc itself demands: field names distinct, and none called [data] (lib.rs:156-159: the final
    expression [Ok((S { .., data, .. }, data))] would move [data] twice, and ByteArray is not Copy). *)
Section Meaning.
Context {ty V : Type}.
Variable codec_of : ty -> codec V.
Variable default_of : ty -> V.

Definition struct_val : Type := list (string * V).
Fixpoint lookup {X} (env : list (string * X)) (n : string) : option X :=
  match env with
  | [] => None
  | (m, x) :: rest => if (m =? n)%string then Some x else lookup rest n
  end.
Definition field_types (fs : list (field ty)) : list (string * ty) := map (fun f => (f_name f, f_ty f)) fs.

(** lib.rs:148-152: body of [ser].  A missing name cannot occur in code rustc accepted ([Panic] here). *)
Fixpoint exec_ser (fs : list (field ty)) (calls : list ser_call) (self : struct_val) : outcome (list barray) :=
  match calls with
  | [] => Ok []
  | SerPush f name :: rest =>
    match lookup self f, lookup (field_types fs) f with
    | Some x, Some t =>
      do s <- c_ser (codec_of t) x;
      do parts <- exec_ser fs rest self;
      Ok (ba_named s name :: parts)
    | _, _ => Panic
    end
  end.
(** lib.rs:154-155: the [let] statements of [deser_rest]; the newest binding of a name comes first *)
Fixpoint exec_deser (fs : list (field ty)) (calls : list (deser_call ty)) (data : barray) (env : struct_val) : outcome (struct_val * barray) :=
  match calls with
  | [] => Ok (env, data)
  | LetRead f t :: rest =>
    do (x, data) <- c_deser_rest (codec_of t) data;
    exec_deser fs rest data ((f, x) :: env)
  | LetDefault f :: rest =>
    match lookup (field_types fs) f with
    | Some t => exec_deser fs rest data ((f, default_of t) :: env)
    | None => Panic
    end
  end.
(** lib.rs:156-158: the struct literal [S { a, b, .. }] *)
Fixpoint struct_literal (ids : list string) (env : struct_val) : outcome struct_val :=
  match ids with
  | [] => Ok []
  | n :: rest =>
    match lookup env n with
    | Some x => do l <- struct_literal rest env; Ok ((n, x) :: l)
    | None => Panic
    end
  end.
(** lib.rs:144-163 *)
Definition derived (fs : list (field ty)) (g : generated ty) : codec struct_val := Codec
  (fun self => do parts <- exec_ser fs (g_ser g) self; Ok (ba_from_parts parts))
  (fun data => do (env, data) <- exec_deser fs (g_deser g) data [];
               do s <- struct_literal (g_idents g) env; Ok (s, data)).
End Meaning.

(** The struct declarations of the crate that use the derive, as written. *)
Inductive rty : Type :=
| Ri32 | Ru32 | Ru64 | RSha256d | RByteArray | RScript | ROutpoint | RInputs | ROutputs | RUnhashedTx
| ROptScript | ROptU64 | ROptBool | ROptFlags.
Definition crate_attr : list sattr := [SList "bitcoin_code" [NNameValue ["crate"] (LStr "crate")]].
Definition serde_attr : sattr := SList "serde" [NNameValue ["rename_all"] (LStr "camelCase")].
Definition wire (n : string) (t : rty) : field rty := Field n [] t.
Definition skip (n : string) (t : rty) : field rty := Field n [FList "bitcoin_code" ["skip"]] t.
(** tx.rs:11-17 *)
Definition outpoint_fields := [wire "tx_hash" RSha256d; wire "vout" Ru32].
Definition outpoint_decl := ItemStruct (crate_attr ++ [SOther; serde_attr]) (Named outpoint_fields).
(** tx.rs:19-38 *)
Definition input_fields := [wire "prev_out" ROutpoint; wire "script" RScript; wire "sequence" Ru32;
  skip "lock_script" ROptScript; skip "value" ROptU64; skip "is_p2sh" ROptBool; skip "sig_hash_flags" ROptFlags].
Definition input_decl := ItemStruct (crate_attr ++ [SOther; serde_attr]) (Named input_fields).
(** tx.rs:40-45 *)
Definition output_fields := [wire "value" Ru64; wire "script" RScript].
Definition output_decl := ItemStruct (crate_attr ++ [SOther]) (Named output_fields).
(** tx.rs:47-55 *)
Definition unhashed_fields := [wire "version" Ri32; wire "inputs" RInputs; wire "outputs" ROutputs; wire "lock_time" Ru32].
Definition unhashed_decl := ItemStruct (crate_attr ++ [SOther; serde_attr]) (Named unhashed_fields).
(** tx.rs:57-68 *)
Definition tx_fields := [skip "unhashed_tx" RUnhashedTx; skip "hash" RSha256d; wire "raw" RByteArray].
Definition tx_decl := ItemStruct (crate_attr ++ [SOther; serde_attr]) (Named tx_fields).
(** tx_preimage.rs:21-34 *)
Definition preimage_fields := [wire "version" Ri32; wire "hash_prevouts" RSha256d; wire "hash_sequence" RSha256d;
  wire "outpoint" ROutpoint; wire "script_code" RScript; wire "value" Ru64; wire "sequence" Ru32;
  wire "hash_outputs" RSha256d; wire "lock_time" Ru32; wire "sig_hash_type" Ru32].
Definition preimage_decl := ItemStruct (crate_attr ++ [SOther]) (Named preimage_fields).

(** Values of those field types, and their codecs and defaults. *)
Inductive rval : Type :=
| VInt (n : Z) | VBytes (b : barray) | VScript (s : script) | VOutpoint (o : tx_outpoint)
| VInputs (l : list tx_input) | VOutputs (l : list tx_output) | VUnhashed (t : unhashed_tx)
| VOptScript (o : option script) | VOptInt (o : option Z) | VOptBool (o : option bool) | VOptFlags (o : option (list Z)).
Definition lift {A} (c : codec A) (inj : A -> rval) (proj : rval -> option A) : codec rval := Codec
  (fun v => match proj v with Some a => c_ser c a | None => Panic end)
  (fun data => do (a, data) <- c_deser_rest c data; Ok (inj a, data)).
Definition r_codec (in_size out_size : Z) (t : rty) : codec rval :=
  let int c := lift c VInt (fun v => match v with VInt n => Some n | _ => None end) in
  let bytes c := lift c VBytes (fun v => match v with VBytes b => Some b | _ => None end) in
  match t with
  | Ri32 => int i32_codec | Ru32 => int u32_codec | Ru64 => int u64_codec
  | RSha256d => bytes sha256d_codec | RByteArray => bytes bytearray_codec
  | RScript => lift script_codec VScript (fun v => match v with VScript s => Some s | _ => None end)
  | ROutpoint => lift outpoint_codec VOutpoint (fun v => match v with VOutpoint o => Some o | _ => None end)
  | RInputs => lift (vec_codec in_size input_codec) VInputs (fun v => match v with VInputs l => Some l | _ => None end)
  | ROutputs => lift (vec_codec out_size output_codec) VOutputs (fun v => match v with VOutputs l => Some l | _ => None end)
  | _ => Codec (fun _ => Panic) (fun _ => Panic)      (* no BitcoinCode: Option<_>; UnhashedTx is never nested unskipped *)
  end.
Definition r_default (t : rty) : rval :=
  match t with
  | Ri32 | Ru32 | Ru64 => VInt 0
  | RSha256d => VBytes sha256d_default | RByteArray => VBytes (ba_unnamed [])
  | RScript => VScript [] | ROutpoint => VOutpoint (TxOutpoint sha256d_default 0)
  | RInputs => VInputs [] | ROutputs => VOutputs [] | RUnhashedTx => VUnhashed unhashed_tx_default
  | ROptScript => VOptScript None | ROptU64 => VOptInt None | ROptBool => VOptBool None | ROptFlags => VOptFlags None
  end.
