(* bitcoin-cash-script-macro/tests/test.rs: its thirteen scripts, given to the model of the macro as syn parses them, with the
   ops (and for two of them the whole tags) the tests expect.  Beyond the tests' assertions each script's generated function
   must type-check, since the tests compile.  These are checks of the model's fidelity, not proofs of any property. *)
From Coq Require Import ZArith List Bool String Ascii.
From Verif Require Import Base Model_ByteArray Model_Opcode Model_Script Model_Behavior Model_Mock Model_Macro Model_MacroParse Model_MacroOut.
From Verif Require Model_MacroType.
Import ListNotations.
Open Scope string_scope.
Open Scope list_scope.
Open Scope Z_scope.

Definition str (s : string) : list Z := map (fun c => Z.of_N (Ascii.N_of_ascii c)) (list_ascii_of_string s).
Definition id (x : string) : expr := EPath (One x).
Definition f0 (x : string) : rust_stmt := StSemi (EPath (One x)).
Definition f (x : string) (args : list string) : expr := ECall false (EPath (One x)) (map id args).
Definition call (x : string) (args : list string) : rust_stmt := StSemi (f x args).
Definition push (e : string) : rust_stmt := StSemi (EOther e).
Definition let1 (x : string) (e : expr) : rust_stmt := StLocal (PIdent x true) (Some e).
Definition letn (xs : list string) (e : expr) : rust_stmt := StLocal (PTuple true (map (fun x => PIdent x true) xs)) (Some e).
Definition block (l : list rust_stmt) : rust_stmt := StExpr (EBlock l).
Definition param (x ty : string) : fn_arg := Typed [] (PIdent x true) ty.
Definition vparam (vs : list string) (x ty : string) : fn_arg :=
  Typed [Attribute (One "variant") (Some (MList (One "variant") (map (fun v => NMeta (MPath (One v))) vs)))] (PIdent x true) ty.
Definition dparam (d x ty : string) : fn_arg :=
  Typed [Attribute (One "doc") (Some (MNameValue (One "doc") (LStr (str d))))] (PIdent x true) ty.
Definition wild (ty : string) : fn_arg := Typed [] POther ty.
Definition fn (ins : list fn_arg) (body : list rust_stmt) : item_fn := ItemFn [] "script" false false ins body.
Definition inputs_args : list nested_meta := [NMeta (MPath (One "Inputs"))].
Definition variant_args : list nested_meta :=
  inputs_args ++ [NMeta (MNameValue (One "A") (LStr (str "!p1"))); NMeta (MNameValue (One "B") (LStr (str "p1")))].

(* what the expressions pushed by a test evaluate to *)
Definition alnum (c : Z) : bool := ((48 <=? c) && (c <=? 57)) || ((65 <=? c) && (c <=? 90)) || ((97 <=? c) && (c <=? 122)).
Definition rust_with (vals : list (string * op)) : rust :=
  Rust alnum (fun c => c =? 32) (fun s => match s with c :: _ => negb ((48 <=? c) && (c <=? 57)) | [] => false end)
    (fun e => match e with EOther t => t | ECall _ (EPath (One x)) _ | EPath (One x) => x | _ => "" end) (fun _ => 0)
    (fun e => match e with EOther t => match lookup t vals with Some o => o | None => OPushInt 0 end | _ => OPushInt 0 end).
(* rustfmt answers with one text per statement and width; positions are by statement *)
Definition source_with (fmt : list (list string)) (pos : list (Z * Z)) : source :=
  Source (fun _ => "let") (fun a => match a with Typed _ (PIdent x _) ty => (x ++ ": " ++ ty)%string | _ => "" end)
    (fun _ _ => Some fmt) (fun t => match t with String "&"%char r => Some r | _ => None end) "test.rs"
    (fun n => nth n pos (0, 0)) (fun _ _ => (0, 0)).
Definition plain : source := source_with [] [].

Definition op_is (a b : op) : bool :=
  match a, b with
  | OCode x, OCode y => opcode_eqb x y
  | OPushInt x, OPushInt y => x =? y
  | OPushBool x, OPushBool y => Bool.eqb x y
  | OPushArray x m, OPushArray y n => ba_eqb x y && Bool.eqb m n
  | _, _ => false
  end.
Fixpoint ops_are (a b : list op) : bool :=
  match a, b with [], [] => true | x :: a', y :: b' => op_is x y && ops_are a' b' | _, _ => false end.
Definition script_of (o : outcome generated) : list op := match o with Ok g => map t_op (ge_script g) | _ => [OInvalid 0] end.
Definition input_ops_of (o : outcome generated) (v : string) (vals : list (string * op)) : list op :=
  match o with
  | Ok g => match input_ops g v (fun x => match lookup x vals with Some o => o | None => OInvalid 0 end) with
            | Some l => map t_op l | None => [OInvalid 0] end
  | _ => [OInvalid 0]
  end.
Definition types_ok (R : rust) (args : list nested_meta) (fn : item_fn) (tys : list rty) : bool :=
  match parse_script R args fn with
  | Ok s => match Model_MacroType.trun_script (fun _ => None) (macro_of s) tys with
            | Ok (_, lines) => match Model_MacroType.check_lines [] lines with Some _ => true | None => false end
            | _ => false
            end
  | _ => false
  end.

Definition bytes (s : string) : op := OPushArray (ba_unnamed (str s)) true.

(* 5-64 test_adding *)
Definition adding : item_fn := fn [wild "Params"] [push "6"; push "5"; f0 "OP_ADD"].
Definition adding_rust : rust := rust_with [("6", OPushInt 6); ("5", OPushInt 5)].
Definition adding_source : source := source_with (repeat ["6;"; "5;"; "OP_ADD;"] 4) [(101, 9); (102, 9); (103, 9)].
Definition tag (o : op) (line col : Z) (texts : list string) (names : list (option string)) : tagged_op :=
  TaggedOp o "test.rs" line col (combine [30; 40; 60; 80] texts) (Some names) (Some []).
Example macro_test_adding :
  match expand adding_rust adding_source inputs_args adding with
  | Ok g => Some (ge_script g, match ge_item g with GStruct fs => fs | _ => [Field [] false "" "" ""] end)
  | _ => None
  end = Some ([tag (OPushInt 6) 101 9 (repeat "6;" 4) [None]; tag (OPushInt 5) 102 9 (repeat "5;" 4) [None];
               tag (OCode OP_ADD) 103 9 (repeat "OP_ADD;" 4) [None]], [])
  /\ types_ok adding_rust inputs_args adding [] = true.
Proof. vm_compute. split; reflexivity. Qed.

(* 66-93 test_catting *)
Definition catting : item_fn := fn [wild "Params"] [push "b""A"""; push "b""B"""; f0 "OP_TUCK"; f0 "OP_CAT"; f0 "OP_CAT"].
Definition catting_rust : rust := rust_with [("b""A""", bytes "A"); ("b""B""", bytes "B")].
Example macro_test_catting :
  ops_are (script_of (expand catting_rust plain inputs_args catting)) [bytes "A"; bytes "B"; OCode OP_TUCK; OCode OP_CAT; OCode OP_CAT] = true
  /\ types_ok catting_rust inputs_args catting [] = true.
Proof. vm_compute. split; reflexivity. Qed.

(* 95-121 test_inputs *)
Definition inputs : item_fn := fn [wild "Params"; param "a" "[u8; 1]"; param "b" "[u8; 1]"] [f0 "OP_CAT"].
Example macro_test_inputs :
  ops_are (script_of (expand (rust_with []) plain inputs_args inputs)) [OCode OP_CAT] = true
  /\ ops_are (input_ops_of (expand (rust_with []) plain inputs_args inputs) "Inputs" [("a", bytes "A"); ("b", bytes "B")]) [bytes "A"; bytes "B"] = true
  /\ types_ok (rust_with []) inputs_args inputs [RBytes; RBytes] = true.
Proof. vm_compute. repeat split; reflexivity. Qed.

(* 123-392 test_let *)
Definition test_let : item_fn :=
  fn [param "params" "&Params"; param "alpha" "Integer"; param "beta" "Integer"]
    [let1 "hyperfine_structure" (EOther "params.hyperfine_structure * 1000"); let1 "circumference" (f "OP_ADD" ["beta"; "hyperfine_structure"]);
     let1 "relative_velocity" (f "OP_ADD" ["alpha"; "circumference"]); letn ["relative_velocity1"; "relative_velocity2"] (f "OP_DUP" ["relative_velocity"]);
     let1 "f" (f "OP_DIV" ["relative_velocity1"; "relative_velocity2"]);
     block [letn ["g"; "__"] (f "OP_DUP" ["f"]); call "OP_SUB" ["g"; "__"]]].
Definition let_rust : rust := rust_with [("params.hyperfine_structure * 1000", OPushInt 1337000)].
Definition let_source : source :=
  source_with (map (fun w => map (fun s => (s ++ " @" ++ w)%string) ["s1"; "s2"; "s3"; "s4"; "s5"; "s6"; "s7"]) ["30"; "40"; "60"; "80"])
    [(1, 35); (2, 29); (3, 33); (4, 56); (5, 17); (7, 27); (8, 13)].
Definition at_widths (s : string) : list string := map (fun w => (s ++ " @" ++ w)%string) ["30"; "40"; "60"; "80"].
Example macro_test_let :
  match expand let_rust let_source inputs_args test_let with
  | Ok g => Some (ge_script g, ge_impl_type g, ge_by_ref g) | _ => None end = Some ([
    tag (OPushInt (1337 * 1000)) 1 35 (at_widths "s1") [Some "hyperfine_structure"];
    tag (OCode OP_ADD) 2 29 (at_widths "s2") [Some "circumference"];
    tag (OCode OP_ADD) 3 33 (at_widths "s3") [Some "relative_velocity"];
    tag (OCode OP_DUP) 4 56 (at_widths "s4") [Some "relative_velocity1"; Some "relative_velocity2"];
    tag (OCode OP_DIV) 5 17 (at_widths "s5") [Some "f"];
    tag (OCode OP_DUP) 7 27 (at_widths "s6") [Some "g"; Some "f"];
    tag (OCode OP_SUB) 8 13 (at_widths "s7") [None]], "Params", true)
  /\ ops_are (input_ops_of (expand let_rust plain inputs_args test_let) "Inputs" [("alpha", OPushInt 5); ("beta", OPushInt 6)]) [OPushInt 5; OPushInt 6] = true
  /\ types_ok let_rust inputs_args test_let [RInt; RInt] = true.
Proof. vm_compute. repeat split; reflexivity. Qed.

(* 394-424 test_if *)
Definition test_if : item_fn :=
  fn [wild "Params"; param "a" "i32"; param "b" "bool"]
    [call "OP_IF" ["b"]; let1 "_x" (f "OP_1ADD" ["a"]); f0 "OP_ELSE"; let1 "_x" (f "OP_1SUB" ["a"]); f0 "OP_ENDIF"; let1 "y" (EOther "3"); call "OP_DIV" ["_x"; "y"]].
Definition if_rust : rust := rust_with [("3", OPushInt 3)].
Example macro_test_if :
  ops_are (script_of (expand if_rust plain inputs_args test_if))
    [OCode OP_IF; OCode OP_1ADD; OCode OP_ELSE; OCode OP_1SUB; OCode OP_ENDIF; OPushInt 3; OCode OP_DIV] = true
  /\ ops_are (input_ops_of (expand if_rust plain inputs_args test_if) "Inputs" [("a", OPushInt 5); ("b", OPushBool true)]) [OPushInt 5; OPushBool true] = true
  /\ types_ok if_rust inputs_args test_if [RInt; RBool] = true.
Proof. vm_compute. repeat split; reflexivity. Qed.

(* 426-486 test_params *)
Definition test_params : item_fn :=
  fn [param "params" "&Params"; param "a" "i32"; param "b" "bool"; param "c" "[u8; 32]"]
    [let1 "p2" (EOther "params.p2"); let1 "c" (f "OP_CAT" ["c"; "p2"]); let1 "c" (f "OP_BIN2NUM" ["c"]); let1 "p1" (EOther "params.p1");
     let1 "sum" (f "OP_ADD" ["c"; "p1"]); letn ["sum"; "b"] (f "OP_SWAP" ["b"; "sum"]); call "OP_IF" ["b"];
     block [let1 "sum2" (f "OP_ADD" ["a"; "sum"]); let1 "_n" (EOther "4")]; f0 "OP_ELSE";
     block [let1 "sum2" (f "OP_SUB" ["a"; "sum"]); let1 "n" (EOther "4")]; f0 "OP_ENDIF";
     let1 "sum2" (f "OP_NUM2BIN" ["sum2"; "n"]); let1 "sum2" (f "OP_BIN2NUM" ["sum2"]); let1 "limit" (EOther "params.p3"); call "OP_GREATERTHAN" ["sum2"; "limit"]].
Definition params_rust : rust := rust_with [("params.p1", OPushInt 3); ("params.p2", bytes "A"); ("params.p3", OPushInt 6); ("4", OPushInt 4)].
Example macro_test_params :
  ops_are (script_of (expand params_rust plain inputs_args test_params))
    [bytes "A"; OCode OP_CAT; OCode OP_BIN2NUM; OPushInt 3; OCode OP_ADD; OCode OP_SWAP; OCode OP_IF; OCode OP_ADD; OPushInt 4; OCode OP_ELSE;
     OCode OP_SUB; OPushInt 4; OCode OP_ENDIF; OCode OP_NUM2BIN; OCode OP_BIN2NUM; OPushInt 6; OCode OP_GREATERTHAN] = true
  /\ types_ok params_rust inputs_args test_params [RInt; RBool; RBytes] = true.
Proof. vm_compute. repeat split; reflexivity. Qed.

(* 488-514 test_depth_of *)
Definition test_depth_of : item_fn :=
  fn [wild "Params"] [let1 "_a" (EOther "6"); let1 "_b" (EOther "5"); let1 "_c" (EOther "4"); let1 "_depth" (f "depth_of" ["_a"]); call "OP_PICK" ["_depth"]; call "OP_1ADD" ["_a"]].
Definition depth_rust : rust := rust_with [("6", OPushInt 6); ("5", OPushInt 5); ("4", OPushInt 4)].
Example macro_test_depth_of :
  ops_are (script_of (expand depth_rust plain inputs_args test_depth_of)) [OPushInt 6; OPushInt 5; OPushInt 4; OPushInt 2; OCode OP_PICK; OCode OP_1ADD] = true
  /\ types_ok depth_rust inputs_args test_depth_of [] = true.
Proof. vm_compute. repeat split; reflexivity. Qed.

(* 516-541 test_attributes: the two variants have exactly the fields the test gives them *)
Definition test_attributes : item_fn :=
  fn [wild "Params"; vparam ["A"] "a" "i32"; vparam ["A"; "B"] "b" "i32"; param "c" "i32"]
    [let1 "p1" (f "OP_0NOTEQUAL" ["c"]); call "OP_IF" ["p1"]; block [let1 "c" (f "OP_1ADD" ["b"])]; f0 "OP_ELSE"; block [let1 "c" (f "OP_SUB" ["a"; "b"])]; f0 "OP_ENDIF";
     let1 "d" (f "OP_1SUB" ["c"]); let1 "p2" (f "OP_0NOTEQUAL" ["d"]); call "OP_VERIFY" ["p2"]].
Definition enum_of (o : outcome generated) : list (string * list string) :=
  match o with Ok g => match ge_item g with GEnum vs => map (fun '(v, _, fs) => (v, map fi_name fs)) vs | _ => [] end | _ => [] end.
Example macro_test_attributes :
  enum_of (expand (rust_with []) plain variant_args test_attributes) = [("A", ["a"; "b"; "c"]); ("B", ["b"; "c"])]
  /\ types_ok (rust_with []) variant_args test_attributes [RInt; RInt; RInt] = true.
Proof. vm_compute. repeat split; reflexivity. Qed.

(* 543-566 test_generics *)
Definition test_generics : item_fn :=
  fn [wild "Params"; param "a" "ByteArray"] [let1 "_4" (EOther "4"); letn ["b"; "c"] (f "OP_SPLIT" ["a"; "_4"])].
Example macro_test_generics :
  ops_are (script_of (expand depth_rust plain inputs_args test_generics)) [OPushInt 4; OCode OP_SPLIT] = true
  /\ ops_are (input_ops_of (expand depth_rust plain inputs_args test_generics) "Inputs" [("a", OPushArray (ba_new "a" []) true)]) [op_from_array (ba_new "a" [])] = true
  /\ types_ok depth_rust inputs_args test_generics [RBytes] = true.
Proof. vm_compute. repeat split; reflexivity. Qed.

(* 568-601 test_variants *)
Definition test_variants : item_fn :=
  fn [wild "Params"; vparam ["A"] "a" "ByteArray"; vparam ["A"; "B"] "b" "ByteArray"; param "c" "ByteArray"]
    [let1 "empty_str" (EOther "b"""""); let1 "p1" (f "OP_EQUAL" ["c"; "empty_str"]); call "OP_IF" ["p1"];
     block [let1 "suffix" (EOther "b""bla"""); let1 "c" (f "OP_CAT" ["b"; "suffix"])]; f0 "OP_ELSE"; block [let1 "c" (f "OP_CAT" ["a"; "b"])]; f0 "OP_ENDIF";
     let1 "_4" (EOther "4"); letn ["_x"; "_y"] (f "OP_SPLIT" ["c"; "_4"])].
Definition variants_rust : rust := rust_with [("b""""", bytes ""); ("b""bla""", bytes "bla"); ("4", OPushInt 4)].
Example macro_test_variants :
  enum_of (expand variants_rust plain variant_args test_variants) = [("A", ["a"; "b"; "c"]); ("B", ["b"; "c"])]
  /\ types_ok variants_rust variant_args test_variants [RBytes; RBytes; RBytes] = true.
Proof. vm_compute. repeat split; reflexivity. Qed.

(* 603-613 test_placeholder, 615-631 test_doctest *)
Definition placeholder (param : string -> string -> fn_arg) : item_fn :=
  fn [wild "Params"; param "a" "i32"; param "b" "i32"; param "c" "i32"]
    [letn ["__"; "__"; "beer"] (f "OP_ROT" ["a"; "__"; "__"]); call "OP_DROP" ["beer"]; call "OP_DROP" ["c"]; call "OP_DROP" ["b"]].
Example macro_test_placeholder :
  ops_are (script_of (expand (rust_with []) plain inputs_args (placeholder param))) [OCode OP_ROT; OCode OP_DROP; OCode OP_DROP; OCode OP_DROP] = true
  /\ types_ok (rust_with []) inputs_args (placeholder param) [RInt; RInt; RInt] = true
  /\ ops_are (script_of (expand (rust_with []) plain inputs_args (placeholder (dparam "Doctest")))) [OCode OP_ROT; OCode OP_DROP; OCode OP_DROP; OCode OP_DROP] = true
  /\ types_ok (rust_with []) inputs_args (placeholder (dparam "Doctest")) [RInt; RInt; RInt] = true.
Proof. vm_compute. repeat split; reflexivity. Qed.

(* 633-643 test_lifetime *)
Definition lifetime : item_fn := fn [param "params" "Params<'_>"] [let1 "x" (EOther "params.x"); let1 "y" (EOther "8"); call "OP_ADD" ["x"; "y"]].
Definition lifetime_rust : rust := rust_with [("params.x", OPushInt 5); ("8", OPushInt 8)].
Example macro_test_lifetime :
  ops_are (script_of (expand lifetime_rust plain inputs_args lifetime)) [OPushInt 5; OPushInt 8; OCode OP_ADD] = true
  /\ types_ok lifetime_rust inputs_args lifetime [] = true.
Proof. vm_compute. repeat split; reflexivity. Qed.
