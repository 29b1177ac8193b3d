(** The network's side, written from the Bitcoin Cash specification (May 2020 rules) and not from /repo: transactions
    as bytes, the message a signature check hashes, the script interpreter and when a coin is validly spent.
    Uses only [le_value]/[le_bytes]/[zlen] of Base, [script_num] of Spec_Encoding and the instruction syntax [chunk] of Spec_Script.

    Deliberate simplifications: OP_CHECKMULTISIG(VERIFY), OP_CHECKLOCKTIMEVERIFY and OP_CHECKSEQUENCEVERIFY are arbitrary
    (fields of [env]); signature and public key encoding rules are part of the arbitrary [verify] function; the limit on
    signature checks and the segwit-recovery exemption (coins sent to a P2SH-wrapped witness program) are left out. *)
From Verif Require Import Base Spec_Encoding Spec_Script.
Local Open Scope list_scope.
Local Open Scope Z_scope.

(** ** Transactions as the network sees them *)
Record net_input : Type := NetInput { ni_txid : list Z; ni_vout : Z; ni_script : list Z; ni_sequence : Z }.
Record net_output : Type := NetOutput { no_value : Z; no_script : list Z }.
Record net_tx : Type := NetTx { nt_version : Z; nt_inputs : list net_input; nt_outputs : list net_output; nt_lock_time : Z }.

Definition compact (n : Z) : list Z :=
  if n <? 253 then [n] else if n <? 65536 then 253 :: le_bytes 2 n else if n <? 4294967296 then 254 :: le_bytes 4 n else 255 :: le_bytes 8 n.
Definition outpoint_bytes (i : net_input) : list Z := ni_txid i ++ le_bytes 4 (ni_vout i).
Definition input_bytes (i : net_input) : list Z := outpoint_bytes i ++ compact (zlen (ni_script i)) ++ ni_script i ++ le_bytes 4 (ni_sequence i).
Definition output_bytes (o : net_output) : list Z := le_bytes 8 (no_value o) ++ compact (zlen (no_script o)) ++ no_script o.
Definition net_bytes (t : net_tx) : list Z :=
  le_bytes 4 (nt_version t) ++ compact (zlen (nt_inputs t)) ++ concat (map input_bytes (nt_inputs t)) ++
  compact (zlen (nt_outputs t)) ++ concat (map output_bytes (nt_outputs t)) ++ le_bytes 4 (nt_lock_time t).
(** Fields are in range (version as an unsigned 32-bit number). *)
Definition net_ok (t : net_tx) : Prop :=
  u32_ok (nt_version t) /\ u32_ok (nt_lock_time t) /\ zlen (nt_inputs t) < 2 ^ 64 /\ zlen (nt_outputs t) < 2 ^ 64 /\
  Forall (fun i => length (ni_txid i) = 32%nat /\ u32_ok (ni_vout i) /\ zlen (ni_script i) < 2 ^ 64 /\ u32_ok (ni_sequence i)) (nt_inputs t) /\
  Forall (fun o => u64_ok (no_value o) /\ zlen (no_script o) < 2 ^ 64) (nt_outputs t).

(** ** The signed message (replay-protected signature hash) *)
Section Message.
Variable sha256 : list Z -> list Z.
Definition hash256 (m : list Z) : list Z := sha256 (sha256 m).
Definition net_message (t : net_tx) (idx : nat) (amount : Z) (code : list Z) (hashtype : Z) : option (list Z) :=
  match nth_error (nt_inputs t) idx with
  | None => None
  | Some i =>
    let acp := 128 <=? hashtype in
    let base := hashtype mod 32 in
    let hp := if acp then repeat 0 32 else hash256 (concat (map outpoint_bytes (nt_inputs t))) in
    let hs := if acp || (base =? 2) || (base =? 3) then repeat 0 32
              else hash256 (concat (map (fun i => le_bytes 4 (ni_sequence i)) (nt_inputs t))) in
    let ho := if base =? 2 then repeat 0 32
              else if base =? 3 then match nth_error (nt_outputs t) idx with Some o => hash256 (output_bytes o) | None => repeat 0 32 end
              else hash256 (concat (map output_bytes (nt_outputs t))) in
    Some (le_bytes 4 (nt_version t) ++ hp ++ hs ++ outpoint_bytes i ++ compact (zlen code) ++ code ++ le_bytes 8 amount ++
          le_bytes 4 (ni_sequence i) ++ ho ++ le_bytes 4 (nt_lock_time t) ++ le_bytes 4 hashtype)
  end.
End Message.
(** Signature hash types the network accepts: ALL, NONE or SINGLE, always with FORKID, optionally ANYONECANPAY. *)
Definition hashtype_ok (f : Z) : bool := existsb (Z.eqb f) [0x41; 0x42; 0x43; 0xc1; 0xc2; 0xc3].

(** ** Script *)
(** Numbers: at most 4 bytes, minimally encoded. *)
Definition minimalb (v : list Z) : bool :=
  match rev v with
  | [] => true
  | last :: r => negb (last mod 128 =? 0) || match r with [] => false | p :: _ => 128 <=? p end
  end.
Definition num (v : list Z) : option Z := if (zlen v <=? 4) && minimalb v then Some (script_num v) else None.
(** The minimal encoding of a number. *)
Fixpoint digits (fuel : nat) (n : Z) : list Z :=
  match fuel with O => [] | S f => if n =? 0 then [] else n mod 256 :: digits f (n / 256) end.
Definition enc (z : Z) : list Z :=
  match rev (digits (S (Z.to_nat (Z.log2 (Z.abs z)))) (Z.abs z)) with
  | [] => []
  | top :: r => if 128 <=? top then rev r ++ [top; if z <? 0 then 128 else 0] else rev r ++ [if z <? 0 then top + 128 else top]
  end.
Definition bool_item (b : bool) : list Z := if b then [1] else [].
Fixpoint truth (v : list Z) : bool :=
  match v with [] => false | [b] => negb (b =? 0) && negb (b =? 128) | b :: r => negb (b =? 0) || truth r end.
Fixpoint same (a b : list Z) : bool :=
  match a, b with [], [] => true | x :: a', y :: b' => (x =? y) && same a' b' | _, _ => false end.
Fixpoint zip_with (f : Z -> Z -> Z) (a b : list Z) : list Z :=
  match a, b with x :: a', y :: b' => f x y :: zip_with f a' b' | _, _ => [] end.

Record env : Type := Env {
  e_ripemd160 : list Z -> list Z; e_sha1 : list Z -> list Z; e_sha256 : list Z -> list Z;
  e_checksig : list Z -> list Z -> list Z -> bool;            (* script code, signature with hash type, public key *)
  e_checkdatasig : list Z -> list Z -> list Z -> bool;        (* signature, message, public key *)
  e_locktime : list Z -> bool; e_sequence : list Z -> bool;
  e_multisig : list Z -> list (list Z) -> option (list (list Z) * bool)
}.
(** Main and alt stack (heads are tops), open conditionals (innermost first), script code. *)
Record machine : Type := Machine { m_main : list (list Z); m_alt : list (list Z); m_exec : list bool; m_code : list Z }.

Definition MAX_ELEMENT : Z := 520.
Definition MAX_SCRIPT : Z := 10000.
Definition MAX_OPS : Z := 201.
Definition MAX_STACK : Z := 1000.

Section Interp.
Variable E : env.
Definition unary (f : Z -> option (list Z)) (s : list (list Z)) : option (list (list Z)) :=
  match s with a :: r => match num a with Some x => option_map (fun v => v :: r) (f x) | None => None end | _ => None end.
(** [binary f]: second item from the top is the first operand *)
Definition binary (f : Z -> Z -> option (list Z)) (s : list (list Z)) : option (list (list Z)) :=
  match s with
  | b :: a :: r => match num a, num b with Some x, Some y => option_map (fun v => v :: r) (f x y) | _, _ => None end
  | _ => None
  end.
Definition verify_top (o : option (list (list Z))) : option (list (list Z)) :=
  match o with Some (v :: r) => if truth v then Some r else None | _ => None end.
Definition bitwise (f : Z -> Z -> Z) (s : list (list Z)) : option (list (list Z)) :=
  match s with b :: a :: r => if zlen a =? zlen b then Some (zip_with f a b :: r) else None | _ => None end.
(** A failed check is only tolerated for an empty signature. *)
Definition check (ok : bool) (sig : list Z) : option (list Z) :=
  if ok then Some [1] else match sig with [] => Some [] | _ => None end.
Definition nums (f : Z -> Z) := unary (fun x => Some (enc (f x))).
Definition nums2 (f : Z -> Z -> Z) := binary (fun x y => Some (enc (f x y))).
Definition test2 (f : Z -> Z -> bool) := binary (fun x y => Some (bool_item (f x y))).

(** Opcodes that work on the main stack alone. *)
Definition main_op (code : list Z) (b : Z) (s : list (list Z)) : option (list (list Z)) :=
  match b with
  | 0x61 | 0xb0 | 0xb3 | 0xb4 | 0xb5 | 0xb6 | 0xb7 | 0xb8 | 0xb9 | 0xab => Some s                (* NOP, NOP1, NOP4-10, CODESEPARATOR *)
  | 0x69 => verify_top (Some s)                                                                (* VERIFY *)
  | 0xb1 => match s with x :: _ => if e_locktime E x then Some s else None | _ => None end       (* CHECKLOCKTIMEVERIFY *)
  | 0xb2 => match s with x :: _ => if e_sequence E x then Some s else None | _ => None end       (* CHECKSEQUENCEVERIFY *)
  | 0x6d => match s with _ :: _ :: r => Some r | _ => None end                                 (* 2DROP *)
  | 0x6e => match s with b :: a :: r => Some (b :: a :: b :: a :: r) | _ => None end           (* 2DUP *)
  | 0x6f => match s with c :: b :: a :: r => Some (c :: b :: a :: c :: b :: a :: r) | _ => None end (* 3DUP *)
  | 0x70 => match s with d :: c :: b :: a :: r => Some (b :: a :: d :: c :: b :: a :: r) | _ => None end (* 2OVER *)
  | 0x71 => match s with f :: e :: d :: c :: b :: a :: r => Some (b :: a :: f :: e :: d :: c :: r) | _ => None end (* 2ROT *)
  | 0x72 => match s with d :: c :: b :: a :: r => Some (b :: a :: d :: c :: r) | _ => None end (* 2SWAP *)
  | 0x73 => match s with a :: r => Some (if truth a then a :: a :: r else a :: r) | _ => None end (* IFDUP *)
  | 0x74 => Some (enc (zlen s) :: s)                                                           (* DEPTH *)
  | 0x75 => match s with _ :: r => Some r | _ => None end                                      (* DROP *)
  | 0x76 => match s with a :: r => Some (a :: a :: r) | _ => None end                          (* DUP *)
  | 0x77 => match s with b :: _ :: r => Some (b :: r) | _ => None end                          (* NIP *)
  | 0x78 => match s with b :: a :: r => Some (a :: b :: a :: r) | _ => None end                (* OVER *)
  | 0x79 => match s with n :: r => match num n with Some k => if 0 <=? k then option_map (fun x => x :: r) (nth_error r (Z.to_nat k)) else None | None => None end | _ => None end (* PICK *)
  | 0x7a => match s with n :: r => match num n with Some k => if 0 <=? k then option_map (fun x => x :: firstn (Z.to_nat k) r ++ skipn (S (Z.to_nat k)) r) (nth_error r (Z.to_nat k)) else None | None => None end | _ => None end (* ROLL *)
  | 0x7b => match s with c :: b :: a :: r => Some (a :: c :: b :: r) | _ => None end           (* ROT *)
  | 0x7c => match s with b :: a :: r => Some (a :: b :: r) | _ => None end                     (* SWAP *)
  | 0x7d => match s with b :: a :: r => Some (b :: a :: b :: r) | _ => None end                (* TUCK *)
  | 0x7e => match s with b :: a :: r => if zlen a + zlen b <=? MAX_ELEMENT then Some ((a ++ b) :: r) else None | _ => None end (* CAT *)
  | 0x7f => match s with n :: a :: r => match num n with Some k => if (0 <=? k) && (k <=? zlen a) then Some (skipn (Z.to_nat k) a :: firstn (Z.to_nat k) a :: r) else None | None => None end | _ => None end (* SPLIT *)
  | 0x80 => match s with n :: a :: r => match num n with                                       (* NUM2BIN *)
            | Some k => let m := enc (script_num a) in
                        if (0 <=? k) && (k <=? MAX_ELEMENT) && (zlen m <=? k) then
                          Some (match rev m with
                                | [] => repeat 0 (Z.to_nat k)
                                | top :: t => if zlen m =? k then m else rev t ++ [top mod 128] ++ repeat 0 (Z.to_nat (k - zlen m - 1)) ++ [top - top mod 128]
                                end :: r) else None
            | None => None end | _ => None end
  | 0x81 => match s with a :: r => let m := enc (script_num a) in if zlen m <=? 4 then Some (m :: r) else None | _ => None end (* BIN2NUM *)
  | 0x82 => match s with a :: r => Some (enc (zlen a) :: a :: r) | _ => None end               (* SIZE *)
  | 0x84 => bitwise Z.land s | 0x85 => bitwise Z.lor s | 0x86 => bitwise Z.lxor s              (* AND OR XOR *)
  | 0x87 => match s with b :: a :: r => Some (bool_item (same a b) :: r) | _ => None end       (* EQUAL *)
  | 0x88 => verify_top (match s with b :: a :: r => Some (bool_item (same a b) :: r) | _ => None end) (* EQUALVERIFY *)
  | 0x8b => nums (fun x => x + 1) s | 0x8c => nums (fun x => x - 1) s                          (* 1ADD 1SUB *)
  | 0x8f => nums Z.opp s | 0x90 => nums Z.abs s                                                (* NEGATE ABS *)
  | 0x91 => unary (fun x => Some (bool_item (x =? 0))) s                                       (* NOT *)
  | 0x92 => unary (fun x => Some (bool_item (negb (x =? 0)))) s                                (* 0NOTEQUAL *)
  | 0x93 => nums2 Z.add s | 0x94 => nums2 Z.sub s                                              (* ADD SUB *)
  | 0x96 => binary (fun x y => if y =? 0 then None else Some (enc (Z.quot x y))) s             (* DIV *)
  | 0x97 => binary (fun x y => if y =? 0 then None else Some (enc (Z.rem x y))) s              (* MOD *)
  | 0x9a => test2 (fun x y => negb (x =? 0) && negb (y =? 0)) s                                (* BOOLAND *)
  | 0x9b => test2 (fun x y => negb (x =? 0) || negb (y =? 0)) s                                (* BOOLOR *)
  | 0x9c => test2 Z.eqb s | 0x9d => verify_top (test2 Z.eqb s)                                 (* NUMEQUAL(VERIFY) *)
  | 0x9e => test2 (fun x y => negb (x =? y)) s                                                 (* NUMNOTEQUAL *)
  | 0x9f => test2 Z.ltb s | 0xa0 => test2 Z.gtb s | 0xa1 => test2 Z.leb s | 0xa2 => test2 Z.geb s (* LESSTHAN .. GREATERTHANOREQUAL *)
  | 0xa3 => nums2 Z.min s | 0xa4 => nums2 Z.max s                                              (* MIN MAX *)
  | 0xa5 => match s with u :: l :: a :: r => match num a, num l, num u with Some x, Some lo, Some up => Some (bool_item ((lo <=? x) && (x <? up)) :: r) | _, _, _ => None end | _ => None end (* WITHIN *)
  | 0xa6 => match s with a :: r => Some (e_ripemd160 E a :: r) | _ => None end                 (* RIPEMD160 *)
  | 0xa7 => match s with a :: r => Some (e_sha1 E a :: r) | _ => None end                      (* SHA1 *)
  | 0xa8 => match s with a :: r => Some (e_sha256 E a :: r) | _ => None end                    (* SHA256 *)
  | 0xa9 => match s with a :: r => Some (e_ripemd160 E (e_sha256 E a) :: r) | _ => None end    (* HASH160 *)
  | 0xaa => match s with a :: r => Some (hash256 (e_sha256 E) a :: r) | _ => None end          (* HASH256 *)
  | 0xac => match s with k :: g :: r => option_map (fun v => v :: r) (check (e_checksig E code g k) g) | _ => None end (* CHECKSIG *)
  | 0xad => verify_top (match s with k :: g :: r => option_map (fun v => v :: r) (check (e_checksig E code g k) g) | _ => None end) (* CHECKSIGVERIFY *)
  | 0xae => match e_multisig E code s with Some (r, ok) => Some (bool_item ok :: r) | None => None end (* CHECKMULTISIG *)
  | 0xaf => verify_top (match e_multisig E code s with Some (r, ok) => Some (bool_item ok :: r) | None => None end) (* CHECKMULTISIGVERIFY *)
  | 0xba => match s with k :: m :: g :: r => option_map (fun v => v :: r) (check (e_checkdatasig E g m k) g) | _ => None end (* CHECKDATASIG *)
  | 0xbb => verify_top (match s with k :: m :: g :: r => option_map (fun v => v :: r) (check (e_checkdatasig E g m k) g) | _ => None end) (* CHECKDATASIGVERIFY *)
  | 0xbc => match s with a :: r => Some (rev a :: r) | _ => None end                           (* REVERSEBYTES *)
  | _ => None                                                                                  (* RETURN, reserved, disabled and unknown opcodes *)
  end.

Definition active (m : machine) : bool := forallb (fun b => b) (m_exec m).
(** Opcodes that fail even in a branch that is not taken. *)
Definition never (b : Z) : bool := existsb (Z.eqb b) [0x65; 0x66; 0x83; 0x8d; 0x8e; 0x95; 0x98; 0x99].
(** One instruction, written as the bytes [bs]; [rest] are the bytes of the script after it.  An executed push must be written in
    the shortest way ([push_head]). *)
Definition step (bs : list Z) (i : instr) (rest : list Z) (m : machine) : option machine :=
  let '(Machine s a x c) := m in
  match i with
  | Push d =>
    if MAX_ELEMENT <? zlen d then None
    else if negb (active m) then Some m
    else if hd 0 bs =? push_head d then Some (Machine (d :: s) a x c) else None
  | Exec b =>
    if never b then None
    else match b with
    | 0x63 => if active m then match s with v :: r => Some (Machine r a (truth v :: x) c) | _ => None end else Some (Machine s a (false :: x) c)        (* IF *)
    | 0x64 => if active m then match s with v :: r => Some (Machine r a (negb (truth v) :: x) c) | _ => None end else Some (Machine s a (false :: x) c) (* NOTIF *)
    | 0x67 => match x with v :: r => Some (Machine s a (negb v :: r) c) | _ => None end          (* ELSE *)
    | 0x68 => match x with _ :: r => Some (Machine s a r c) | _ => None end                      (* ENDIF *)
    | _ =>
      if negb (active m) then Some m
      else match b with
      | 0x6b => match s with v :: r => Some (Machine r (v :: a) x c) | _ => None end             (* TOALTSTACK *)
      | 0x6c => match a with v :: r => Some (Machine (v :: s) r x c) | _ => None end             (* FROMALTSTACK *)
      | 0xab => Some (Machine s a x rest)                                                      (* CODESEPARATOR *)
      | _ => option_map (fun s' => Machine s' a x c) (main_op c b s)
      end
    end
  end.
Definition stack_fits (m : machine) : bool := zlen (m_main m) + zlen (m_alt m) <=? MAX_STACK.
Fixpoint steps (l : list (list Z * instr)) (m : machine) : option machine :=
  match l with
  | [] => Some m
  | (bs, i) :: r => match step bs i (concat (map fst r)) m with Some m' => if stack_fits m' then steps r m' else None | None => None end
  end.

(** The bytes [bs] consist of these instructions. *)
Definition decodes (bs : list Z) (l : list (list Z * instr)) : Prop :=
  bs = concat (map fst l) /\ Forall (fun c => chunk (fst c) (snd c)) l.
Definition op_count (l : list (list Z * instr)) : Z := zlen (filter (fun c => match snd c with Exec b => 0x60 <? b | Push _ => false end) l).
(** Executing script [bs] on stack [s] succeeds and leaves [s']. *)
Definition executes (bs : list Z) (s s' : list (list Z)) : Prop :=
  exists l m, decodes bs l /\ zlen bs <= MAX_SCRIPT /\ op_count l <= MAX_OPS /\ steps l (Machine s [] [] bs) = Some m /\ m_exec m = [] /\ m_main m = s'.
Definition push_only (bs : list Z) : Prop := exists l, decodes bs l /\ Forall (fun c => exists d, snd c = Push d) l.
(** Exactly one item is left, and it is true. *)
Definition success (s : list (list Z)) : Prop := exists v, s = [v] /\ truth v = true.
Definition is_p2sh_lock (lock h : list Z) : Prop := length h = 20%nat /\ lock = [0xa9; 0x14] ++ h ++ [0x87].
(** The input script [unlock] spends a coin locked with [lock]. *)
Definition spends_coin (unlock lock : list Z) : Prop :=
  push_only unlock /\ exists s s', executes unlock [] s /\ executes lock s s' /\
  (((forall h, ~ is_p2sh_lock lock h) /\ success s') \/
   (exists h redeem r s'', is_p2sh_lock lock h /\ (exists v r', s' = v :: r' /\ truth v = true) /\ s = redeem :: r /\ executes redeem r s'' /\ success s'')).
End Interp.

(** ** Validity of one input of a transaction *)
Section Valid.
Variables (ripemd160 sha1 sha256 : list Z -> list Z) (verify : list Z -> list Z -> list Z -> bool)
  (checkdatasig : list Z -> list Z -> list Z -> bool)
  (locktime sequence : net_tx -> nat -> list Z -> bool)
  (multisig : net_tx -> nat -> Z -> list Z -> list (list Z) -> option (list (list Z) * bool)).
(** [verify pubkey digest signature]; the last byte of the pushed signature is the hash type. *)
Definition checksig_of (t : net_tx) (idx : nat) (amount : Z) (code sig pubkey : list Z) : bool :=
  match rev sig with
  | [] => false
  | f :: r => match net_message sha256 t idx amount code f with
              | Some msg => hashtype_ok f && verify pubkey (hash256 sha256 msg) (rev r)
              | None => false
              end
  end.
Definition env_of (t : net_tx) (idx : nat) (amount : Z) : env :=
  Env ripemd160 sha1 sha256 (checksig_of t idx amount) checkdatasig (locktime t idx) (sequence t idx) (multisig t idx amount).
(** Input [idx] of [t] validly spends a coin of [amount] locked by [lock]. *)
Definition valid_input (t : net_tx) (idx : nat) (amount : Z) (lock : list Z) : Prop :=
  exists i, nth_error (nt_inputs t) idx = Some i /\ spends_coin (env_of t idx amount) (ni_script i) lock.
End Valid.
