(** Model of bitcoin-cash/src/serialize_json.rs: transactions as JSON tables, including all provenance.
    The base64 crate is a parameter.  JSON texts are represented by JSON values (serde_json's parser and
    printer are not modelled); the code that serde's derive macros generate is modelled after serde's
    documented conventions (structs are objects, tuples are arrays, enums are externally tagged). *)
From Verif Require Import Base Model_Integer Model_ByteArray Model_Opcode Model_Script Model_Code.
Local Open Scope string_scope.
Local Open Scope list_scope.
Local Open Scope Z_scope.

(** serialize_json.rs:24-29 *)
Record json_byte_array : Type := JsonByteArray { jb_data : nat; jb_function : func; jb_name : option nat; jb_preimages : option (list nat) }.
(** serialize_json.rs:31-38 *)
Inductive json_byte_array_tuple : Type :=
| TupA (data : nat) (f : func) (name : option nat) (preimages : option (list nat))
| TupB (data : nat) (f : func) (name : option nat)
| TupC (data : nat) (f : func)
| TupD (data : nat).
(** serialize_json.rs:40-47 *)
Inductive json_op : Type :=
| JCode (c : Z) | JInvalid (c : Z) | JPushByteArray (array_idx : nat) (is_minimal : bool) | JPushBoolean (b : bool) | JPushInteger (i : Z).
(** serialize_json.rs:49-58 *)
Record json_tagged_op : Type := JsonTaggedOp {
  jt_op : json_op; jt_src_file : nat; jt_src_line : Z; jt_src_column : Z; jt_src_code : list (Z * nat);
  jt_pushed_names : option (list (option nat)); jt_alt_pushed_names : option (list (option nat))
}.
(** serialize_json.rs:60-70; SigHashFlags as their bits *)
Record json_input : Type := JsonInput {
  ji_prev_out_hash : nat; ji_prev_out_vout : Z; ji_script : list json_tagged_op; ji_sequence : Z;
  ji_lock_script : option (list json_tagged_op); ji_value : option Z; ji_is_p2sh : option bool; ji_sig_hash_flags : option (list Z)
}.
(** serialize_json.rs:72-76 *)
Record json_output : Type := JsonOutput { jo_value : Z; jo_script : list json_tagged_op }.
(** serialize_json.rs:11-22; the two index maps are association lists *)
Record json_data : Type := JsonData {
  jd_data_b64 : list string; jd_byte_arrays : list json_byte_array; jd_strings : list string;
  jd_string_indices : list (string * nat); jd_data_indices : list (list Z * nat)
}.
(** serialize_json.rs:78-85 *)
Record json_tx : Type := JsonTx { jx_data : json_data; jx_version : Z; jx_inputs : list json_input; jx_outputs : list json_output; jx_lock_time : Z }.

Definition empty_data : json_data := JsonData [] [] [] [] [].

Section Base64.
(** base64::encode, base64::decode *)
Variable b64_encode : list Z -> string.
Variable b64_decode : string -> option (list Z).

(** * Writing *)
(** HashMap::get, BiMap::get_by_left, BiMap::get_by_right *)
Fixpoint find_string (s : string) (m : list (string * nat)) : option nat :=
  match m with [] => None | (k, v) :: r => if String.eqb k s then Some v else find_string s r end.
Fixpoint find_left (b : list Z) (m : list (list Z * nat)) : option nat :=
  match m with [] => None | (k, v) :: r => if bytes_eqb k b then Some v else find_left b r end.
Fixpoint find_right (i : nat) (m : list (list Z * nat)) : option (list Z) :=
  match m with [] => None | (k, v) :: r => if Nat.eqb v i then Some k else find_right i r end.
(** BiMap::insert removes pairs sharing either side *)
Definition bimap_insert (b : list Z) (i : nat) (m : list (list Z * nat)) : list (list Z * nat) :=
  (b, i) :: filter (fun p => negb (bytes_eqb (fst p) b) && negb (Nat.eqb (snd p) i)) m.

(** serialize_json.rs:384-395 [insert_string], 397-406 [insert_string_arc] *)
Definition insert_string (s : string) (d : json_data) : nat * json_data :=
  match find_string s (jd_string_indices d) with
  | Some i => (i, d)
  | None =>
    let i := length (jd_strings d) in
    (i, JsonData (jd_data_b64 d) (jd_byte_arrays d) (jd_strings d ++ [s]) ((s, i) :: jd_string_indices d) (jd_data_indices d))
  end.
(** serialize_json.rs:338-347 [ensure_data] *)
Definition ensure_data (b : list Z) (d : json_data) : nat * json_data :=
  match find_left b (jd_data_indices d) with
  | Some i => (i, d)
  | None =>
    let i := length (jd_data_b64 d) in
    (i, JsonData (jd_data_b64 d ++ [b64_encode b]) (jd_byte_arrays d) (jd_strings d) (jd_string_indices d) (bimap_insert b i (jd_data_indices d)))
  end.
(** [.iter().map(..).collect()] with a closure changing the tables *)
Fixpoint smap {A B} (f : A -> json_data -> B * json_data) (l : list A) (d : json_data) : list B * json_data :=
  match l with
  | [] => ([], d)
  | x :: r => let '(y, d) := f x d in let '(ys, d) := smap f r d in (y :: ys, d)
  end.
Definition soption {A B} (f : A -> json_data -> B * json_data) (o : option A) (d : json_data) : option B * json_data :=
  match o with None => (None, d) | Some x => let '(y, d) := f x d in (Some y, d) end.
(** serialize_json.rs:317-336 [insert_byte_array] *)
Definition push_byte_array (j : json_byte_array) (d : json_data) : nat * json_data :=
  (length (jd_byte_arrays d), JsonData (jd_data_b64 d) (jd_byte_arrays d ++ [j]) (jd_strings d) (jd_string_indices d) (jd_data_indices d)).
Fixpoint insert_byte_array (a : barray) (d : json_data) {struct a} : nat * json_data :=
  match a with
  | BA data name f preimage =>
    let '(preimages, d) := match preimage with
      | None => (None, d)
      | Some ps =>
        let '(l, d) := (fix go (ps : list barray) (d : json_data) : list nat * json_data :=
          match ps with
          | [] => ([], d)
          | p :: r => let '(i, d) := insert_byte_array p d in let '(l, d) := go r d in (i :: l, d)
          end) ps d in
        (Some l, d)
      end in
    let '(name_idx, d) := soption insert_string name d in
    let '(data_idx, d) := ensure_data data d in
    push_byte_array (JsonByteArray data_idx f name_idx preimages) d
  end.

(** serialize_json.rs:220-257 [from_tagged_op] *)
Definition from_op (o : op) (d : json_data) : json_op * json_data :=
  match o with
  | OCode c => (JCode (opcode_u8 c), d)
  | OInvalid c => (JInvalid c, d)
  | OPushBool b => (JPushBoolean b, d)
  | OPushInt i => (JPushInteger i, d)
  | OPushArray a is_minimal => let '(i, d) := insert_byte_array a d in (JPushByteArray i is_minimal, d)
  end.
Definition from_tagged_op (t : tagged_op) (d : json_data) : json_tagged_op * json_data :=
  let '(o, d) := from_op (t_op t) d in
  let '(file, d) := insert_string (t_src_file t) d in
  let '(code, d) := smap (fun p d => let '(i, d) := insert_string (snd p) d in ((fst p, i), d)) (t_src_code t) d in
  let '(names, d) := soption (smap (soption insert_string)) (t_pushed_names t) d in
  let '(alt_names, d) := soption (smap (soption insert_string)) (t_alt_pushed_names t) d in
  (JsonTaggedOp o file (t_src_line t) (t_src_column t) code names alt_names, d).
(** serialize_json.rs:213-217 [make_ops] *)
Definition make_ops : script -> json_data -> list json_tagged_op * json_data := smap from_tagged_op.

(** serialize_json.rs:124-142, 143-149 *)
Definition from_input (i : tx_input) (d : json_data) : json_input * json_data :=
  let '(hash, d) := insert_byte_array (op_tx_hash (in_prev_out i)) d in
  let '(sc, d) := make_ops (in_script i) d in
  let '(lock, d) := soption make_ops (in_lock_script i) d in
  (JsonInput hash (op_vout (in_prev_out i)) sc (in_sequence i) lock (in_value i) (in_is_p2sh i) (in_sig_hash_flags i), d).
Definition from_output (o : tx_output) (d : json_data) : json_output * json_data :=
  let '(sc, d) := make_ops (out_script o) d in (JsonOutput (out_value o) sc, d).
(** serialize_json.rs:116-150 [from_tx] *)
Definition json_from_tx (t : unhashed_tx) : json_tx :=
  let '(ins, d) := smap from_input (tx_inputs t) empty_data in
  let '(outs, d) := smap from_output (tx_outputs t) d in
  JsonTx d (tx_version t) ins outs (tx_lock_time t).

(** * Reading.  A reader may change the cache in the tables; [None] means: more than [fuel] nested calls are
    needed (the Rust code has no such limit, it recurses until the stack overflows). *)
Definition reader (A : Type) : Type := json_data -> option (outcome (A * json_data)).
Definition rret {A} (a : A) : reader A := fun d => Some (Ok (a, d)).
Definition rerr {A} (e : err) : reader A := fun _ => Some (Err e).
Definition rbind {A B} (r : reader A) (f : A -> reader B) : reader B := fun d =>
  match r d with
  | None => None
  | Some (Ok (a, d')) => f a d'
  | Some (Err e) => Some (Err e)
  | Some Panic => Some Panic
  end.
Fixpoint rmap {A B} (f : A -> reader B) (l : list A) : reader (list B) :=
  match l with
  | [] => rret []
  | x :: r => rbind (f x) (fun y => rbind (rmap f r) (fun ys => rret (y :: ys)))
  end.
Definition roption {A B} (f : A -> reader B) (o : option A) : reader (option B) :=
  match o with None => rret None | Some x => rbind (f x) (fun y => rret (Some y)) end.
(** a Result without access to the tables *)
Definition rlift {A} (o : outcome A) : reader A := fun d => Some (do a <- o; Ok (a, d)).

(** serialize_json.rs:86-103 [JsonError] *)
Definition EDecode : err := EJson JDecodeError.
Definition EInvalidDataIdx (idx : nat) : err := EJson (JInvalidDataIdx (Z.of_nat idx)).
Definition EInvalidStringIdx (idx : nat) : err := EJson (JInvalidStringIdx (Z.of_nat idx)).
Definition EInvalidHash : err := EJson JInvalidHash.
Definition EInvalidInteger (e : err) : err := EJson (JInvalidInteger e).

(** serialize_json.rs:408-412 [get_string] *)
Definition get_string (i : nat) : reader string := fun d =>
  match nth_error (jd_strings d) i with Some s => Some (Ok (s, d)) | None => Some (Err (EInvalidStringIdx i)) end.
(** serialize_json.rs:360-371: the data of an array, through the cache *)
Definition get_data (i : nat) : reader (list Z) := fun d =>
  match find_right i (jd_data_indices d) with
  | Some b => Some (Ok (b, d))
  | None =>
    match nth_error (jd_data_b64 d) i with
    | None => Some (Err (EInvalidDataIdx i))
    | Some s =>
      match b64_decode s with
      | None => Some (Err EDecode)
      | Some b => Some (Ok (b, JsonData (jd_data_b64 d) (jd_byte_arrays d) (jd_strings d) (jd_string_indices d) (bimap_insert b i (jd_data_indices d))))
      end
    end
  end.
(** serialize_json.rs:349-382 [get_byte_array]; indexing out of range panics *)
Fixpoint get_byte_array (fuel : nat) (idx : nat) : reader barray :=
  match fuel with
  | O => fun _ => None
  | S fuel => fun d =>
    match nth_error (jd_byte_arrays d) idx with
    | None => Some Panic
    | Some j =>
      rbind (roption (rmap (get_byte_array fuel)) (jb_preimages j)) (fun preimage =>
      rbind (get_data (jb_data j)) (fun data =>
      rbind (roption get_string (jb_name j)) (fun name =>
      rret (BA data name (jb_function j) preimage)))) d
    end
  end.

(** serialize_json.rs:259-313 [to_tagged_op] *)
Definition to_op (fuel : nat) (o : json_op) : reader op :=
  match o with
  | JCode c => rret (match opcode_from_u8 c with Some o => OCode o | None => OInvalid c end)
  | JInvalid c => rret (OInvalid c)
  | JPushBoolean b => rret (OPushBool b)
  | JPushInteger i => match integer_new i with Ok v => rret (OPushInt v) | Err e => rerr (EInvalidInteger e) | Panic => fun _ => Some Panic end
  | JPushByteArray i is_minimal => rbind (get_byte_array fuel i) (fun a => rret (OPushArray a is_minimal))
  end.
Definition to_tagged_op (fuel : nat) (t : json_tagged_op) : reader tagged_op :=
  rbind (to_op fuel (jt_op t)) (fun o =>
  rbind (get_string (jt_src_file t)) (fun file =>
  rbind (rmap (fun p => rbind (get_string (snd p)) (fun s => rret (fst p, s))) (jt_src_code t)) (fun code =>
  rbind (roption (rmap (roption get_string)) (jt_pushed_names t)) (fun names =>
  rbind (roption (rmap (roption get_string)) (jt_alt_pushed_names t)) (fun alt_names =>
  rret (TaggedOp o file (jt_src_line t) (jt_src_column t) code names alt_names)))))).
Definition to_script (fuel : nat) : list json_tagged_op -> reader script := rmap (to_tagged_op fuel).
(** serialize_json.rs:165-196 *)
Definition to_input (fuel : nat) (i : json_input) : reader tx_input :=
  rbind (get_byte_array fuel (ji_prev_out_hash i)) (fun a =>
  rbind (match fixed_from_byte_array 32 a with Ok h => rret h | _ => rerr EInvalidHash end) (fun hash =>
  rbind (to_script fuel (ji_script i)) (fun sc =>
  rbind (roption (to_script fuel) (ji_lock_script i)) (fun lock =>
  rret (TxInput (TxOutpoint hash (ji_prev_out_vout i)) sc (ji_sequence i) lock (ji_value i) (ji_is_p2sh i) (ji_sig_hash_flags i)))))).
(** serialize_json.rs:197-209 *)
Definition to_output (fuel : nat) (o : json_output) : reader tx_output :=
  rbind (to_script fuel (jo_script o)) (fun sc => rret (TxOutput (jo_value o) sc)).
(** serialize_json.rs:152-211 [make_tx] *)
Definition json_make_tx (fuel : nat) (j : json_tx) : option (outcome unhashed_tx) :=
  match rbind (rmap (to_input fuel) (jx_inputs j)) (fun ins =>
        rbind (rmap (to_output fuel) (jx_outputs j)) (fun outs =>
        rret (UnhashedTx (jx_version j) ins outs (jx_lock_time j)))) (jx_data j) with
  | None => None
  | Some o => Some (do (t, _) <- o; Ok t)
  end.

(** * JSON values *)
Inductive json : Type :=
| JNull | JBool (b : bool) | JNum (n : Z) | JStr (s : string) | JArr (l : list json) | JObj (l : list (string * json)).

(** [derive(Serialize, Deserialize)] conventions *)
Definition j_nat (n : nat) : json := JNum (Z.of_nat n).
Definition d_int (lo hi : Z) (j : json) : option Z := match j with JNum n => if (lo <=? n) && (n <=? hi) then Some n else None | _ => None end.
Definition d_u8 := d_int 0 (2 ^ 8 - 1).
Definition d_u32 := d_int 0 (2 ^ 32 - 1).
Definition d_u64 := d_int 0 (2 ^ 64 - 1).
Definition d_i32 := d_int (- 2 ^ 31) (2 ^ 31 - 1).
(** usize (64 bits) *)
Definition d_usize (j : json) : option nat := match d_u64 j with Some n => Some (Z.to_nat n) | None => None end.
Definition d_bool (j : json) : option bool := match j with JBool b => Some b | _ => None end.
Definition d_str (j : json) : option string := match j with JStr s => Some s | _ => None end.
Fixpoint d_all {A} (f : json -> option A) (l : list json) : option (list A) :=
  match l with
  | [] => Some []
  | j :: r => match f j, d_all f r with Some x, Some xs => Some (x :: xs) | _, _ => None end
  end.
Definition d_vec {A} (f : json -> option A) (j : json) : option (list A) := match j with JArr l => d_all f l | _ => None end.
Definition j_vec {A} (f : A -> json) (l : list A) : json := JArr (map f l).
Definition j_opt {A} (f : A -> json) (o : option A) : json := match o with None => JNull | Some a => f a end.
Definition d_opt {A} (f : json -> option A) (j : json) : option (option A) :=
  match j with JNull => Some None | _ => match f j with Some a => Some (Some a) | None => None end end.
(** a struct field: a duplicate key is an error, unknown keys are ignored, a missing Option is None *)
Fixpoint keys_named (k : string) (l : list (string * json)) : list json :=
  match l with [] => [] | (k', v) :: r => if String.eqb k' k then v :: keys_named k r else keys_named k r end.
Definition d_field {A} (k : string) (f : json -> option A) (j : json) : option A :=
  match j with JObj l => match keys_named k l with [v] => f v | _ => None end | _ => None end.
Definition d_opt_field {A} (k : string) (f : json -> option A) (j : json) : option (option A) :=
  match j with JObj l => match keys_named k l with [v] => d_opt f v | [] => Some None | _ => None end | _ => None end.

(** serde_json also reads a struct from an array of its fields in declaration order, of exactly that length *)
Definition struct_of (names : list string) (j : json) : json :=
  match j with JArr l => if Nat.eqb (length l) (length names) then JObj (combine names l) else j | _ => j end.

(** byte_array.rs:10-24 [derive(Serialize, Deserialize)]; a unit variant is read from its name or from an object
    that maps the name to null *)
Definition func_names : list (func * string) :=
  [(FPlain, "Plain"); (FSha1, "Sha1"); (FRipemd160, "Ripemd160"); (FSha256, "Sha256"); (FHash256, "Hash256"); (FHash160, "Hash160"); (FNum2Bin, "Num2Bin");
   (FEcdsaSign, "EcdsaSign"); (FSchnorrSign, "SchnorrSign"); (FToDataSig, "ToDataSig"); (FUnexpectedSplit, "UnexpectedSplit"); (FReverse, "Reverse")].
Definition j_func (f : func) : json := JStr (match find (fun p => func_eqb (fst p) f) func_names with Some p => snd p | None => "" end).
Definition d_func (j : json) : option func :=
  match j with JStr s | JObj [(s, JNull)] => match find (fun p => String.eqb (snd p) s) func_names with Some p => Some (fst p) | None => None end | _ => None end.

(** serialize_json.rs:458-481 [Serialize for JsonByteArray] *)
Definition j_byte_array (b : json_byte_array) : json :=
  match jb_function b, jb_name b, jb_preimages b with
  | f, Some n, Some ps => JArr [j_nat (jb_data b); j_func f; j_nat n; j_vec j_nat ps]
  | f, None, Some ps => JArr [j_nat (jb_data b); j_func f; JNull; j_vec j_nat ps]
  | f, Some n, None => JArr [j_nat (jb_data b); j_func f; j_nat n]
  | FPlain, None, None => j_nat (jb_data b)
  | f, None, None => JArr [j_nat (jb_data b); j_func f]
  end.
(** serialize_json.rs:31-38: an untagged enum takes the first variant that fits (tuple variants need an array
    of exactly their length) *)
Definition d_tuple_a (j : json) : option json_byte_array_tuple :=
  match j with
  | JArr [a; b; c; d] =>
    match d_usize a, d_func b, d_opt d_usize c, d_opt (d_vec d_usize) d with Some a, Some b, Some c, Some d => Some (TupA a b c d) | _, _, _, _ => None end
  | _ => None end.
Definition d_tuple_b (j : json) : option json_byte_array_tuple :=
  match j with
  | JArr [a; b; c] => match d_usize a, d_func b, d_opt d_usize c with Some a, Some b, Some c => Some (TupB a b c) | _, _, _ => None end
  | _ => None end.
Definition d_tuple_c (j : json) : option json_byte_array_tuple :=
  match j with
  | JArr [a; b] => match d_usize a, d_func b with Some a, Some b => Some (TupC a b) | _, _ => None end
  | _ => None end.
Definition d_tuple_d (j : json) : option json_byte_array_tuple := match d_usize j with Some a => Some (TupD a) | None => None end.
Definition d_tuple (j : json) : option json_byte_array_tuple :=
  match d_tuple_a j with
  | Some t => Some t
  | None => match d_tuple_b j with
            | Some t => Some t
            | None => match d_tuple_c j with Some t => Some t | None => d_tuple_d j end
            end
  end.
(** serialize_json.rs:415-445 [from_tuple] *)
Definition from_tuple (t : json_byte_array_tuple) : json_byte_array :=
  match t with
  | TupA d f n p => JsonByteArray d f n p
  | TupB d f n => JsonByteArray d f n None
  | TupC d f => JsonByteArray d f None None
  | TupD d => JsonByteArray d FPlain None None
  end.
(** serialize_json.rs:447-456 *)
Definition d_byte_array (j : json) : option json_byte_array := option_map from_tuple (d_tuple j).

(** derived implementations for JsonOp (externally tagged) *)
Definition j_op (o : json_op) : json :=
  match o with
  | JCode c => JObj [("Code", JNum c)]
  | JInvalid c => JObj [("Invalid", JNum c)]
  | JPushByteArray i m => JObj [("PushByteArray", JObj [("array_idx", j_nat i); ("is_minimal", JBool m)])]
  | JPushBoolean b => JObj [("PushBoolean", JBool b)]
  | JPushInteger i => JObj [("PushInteger", JNum i)]
  end.
Definition d_op (j : json) : option json_op :=
  match j with
  | JObj [(k, v)] =>
    if String.eqb k "Code" then option_map JCode (d_u8 v)
    else if String.eqb k "Invalid" then option_map JInvalid (d_u8 v)
    else if String.eqb k "PushByteArray" then
      let v := struct_of ["array_idx"; "is_minimal"] v in
      match d_field "array_idx" d_usize v, d_field "is_minimal" d_bool v with Some i, Some m => Some (JPushByteArray i m) | _, _ => None end
    else if String.eqb k "PushBoolean" then option_map JPushBoolean (d_bool v)
    else if String.eqb k "PushInteger" then option_map JPushInteger (d_i32 v)
    else None
  | _ => None
  end.
Definition j_names : option (list (option nat)) -> json := j_opt (j_vec (j_opt j_nat)).
Definition d_names (k : string) : json -> option (option (list (option nat))) := d_opt_field k (d_vec (d_opt d_usize)).
Definition j_tagged_op (t : json_tagged_op) : json :=
  JObj [("op", j_op (jt_op t)); ("src_file", j_nat (jt_src_file t)); ("src_line", JNum (jt_src_line t)); ("src_column", JNum (jt_src_column t));
        ("src_code", j_vec (fun p => JArr [JNum (fst p); j_nat (snd p)]) (jt_src_code t));
        ("pushed_names", j_names (jt_pushed_names t)); ("alt_pushed_names", j_names (jt_alt_pushed_names t))].
Definition d_code_pair (j : json) : option (Z * nat) :=
  match j with JArr [a; b] => match d_u32 a, d_usize b with Some a, Some b => Some (a, b) | _, _ => None end | _ => None end.
Definition d_tagged_op (j : json) : option json_tagged_op :=
  let j := struct_of ["op"; "src_file"; "src_line"; "src_column"; "src_code"; "pushed_names"; "alt_pushed_names"] j in
  match d_field "op" d_op j, d_field "src_file" d_usize j, d_field "src_line" d_u32 j, d_field "src_column" d_u32 j,
        d_field "src_code" (d_vec d_code_pair) j, d_names "pushed_names" j, d_names "alt_pushed_names" j with
  | Some o, Some f, Some l, Some c, Some sc, Some n, Some an => Some (JsonTaggedOp o f l c sc n an)
  | _, _, _, _, _, _, _ => None
  end.
(** tx_preimage.rs:8-19: bitflags with derived serde *)
Definition j_flags (f : Z) : json := JObj [("bits", JNum f)].
Definition d_flags (j : json) : option Z :=
  let j := struct_of ["bits"] j in d_field "bits" d_u32 j.
Definition j_input (i : json_input) : json :=
  JObj [("prev_out_hash", j_nat (ji_prev_out_hash i)); ("prev_out_vout", JNum (ji_prev_out_vout i)); ("script", j_vec j_tagged_op (ji_script i));
        ("sequence", JNum (ji_sequence i)); ("lock_script", j_opt (j_vec j_tagged_op) (ji_lock_script i)); ("value", j_opt JNum (ji_value i));
        ("is_p2sh", j_opt JBool (ji_is_p2sh i)); ("sig_hash_flags", j_opt (j_vec j_flags) (ji_sig_hash_flags i))].
Definition d_input (j : json) : option json_input :=
  let j := struct_of ["prev_out_hash"; "prev_out_vout"; "script"; "sequence"; "lock_script"; "value"; "is_p2sh"; "sig_hash_flags"] j in
  match d_field "prev_out_hash" d_usize j, d_field "prev_out_vout" d_u32 j, d_field "script" (d_vec d_tagged_op) j, d_field "sequence" d_u32 j,
        d_opt_field "lock_script" (d_vec d_tagged_op) j, d_opt_field "value" d_u64 j, d_opt_field "is_p2sh" d_bool j, d_opt_field "sig_hash_flags" (d_vec d_flags) j with
  | Some h, Some v, Some s, Some q, Some l, Some va, Some p, Some f => Some (JsonInput h v s q l va p f)
  | _, _, _, _, _, _, _, _ => None
  end.
Definition j_output (o : json_output) : json := JObj [("value", JNum (jo_value o)); ("script", j_vec j_tagged_op (jo_script o))].
Definition d_output (j : json) : option json_output :=
  let j := struct_of ["value"; "script"] j in
  match d_field "value" d_u64 j, d_field "script" (d_vec d_tagged_op) j with Some v, Some s => Some (JsonOutput v s) | _, _ => None end.
(** the two index maps are skipped (and empty after reading) *)
Definition j_data (d : json_data) : json :=
  JObj [("data_b64", j_vec JStr (jd_data_b64 d)); ("byte_arrays", j_vec j_byte_array (jd_byte_arrays d)); ("strings", j_vec JStr (jd_strings d))].
Definition d_data (j : json) : option json_data :=
  let j := struct_of ["data_b64"; "byte_arrays"; "strings"] j in
  match d_field "data_b64" (d_vec d_str) j, d_field "byte_arrays" (d_vec d_byte_array) j, d_field "strings" (d_vec d_str) j with
  | Some b, Some a, Some s => Some (JsonData b a s [] [])
  | _, _, _ => None
  end.
Definition j_tx (t : json_tx) : json :=
  JObj [("data", j_data (jx_data t)); ("version", JNum (jx_version t)); ("inputs", j_vec j_input (jx_inputs t)); ("outputs", j_vec j_output (jx_outputs t)); ("lock_time", JNum (jx_lock_time t))].
Definition d_tx (j : json) : option json_tx :=
  let j := struct_of ["data"; "version"; "inputs"; "outputs"; "lock_time"] j in
  match d_field "data" d_data j, d_field "version" d_i32 j, d_field "inputs" (d_vec d_input) j, d_field "outputs" (d_vec d_output) j, d_field "lock_time" d_u32 j with
  | Some d, Some v, Some i, Some o, Some l => Some (JsonTx d v i o l)
  | _, _, _, _, _ => None
  end.

(** serialize_json.rs:105-108 [tx_to_json] *)
Definition tx_to_json (t : unhashed_tx) : json := j_tx (json_from_tx t).
(** serialize_json.rs:110-113 [json_to_tx]; a JSON value of the wrong shape is an error *)
Definition json_to_tx (fuel : nat) (j : json) : option (outcome unhashed_tx) :=
  match d_tx j with
  | None => Some (Err (EJson JShape))
  | Some t => json_make_tx fuel t
  end.
End Base64.
