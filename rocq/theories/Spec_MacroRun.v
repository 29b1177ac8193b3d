(** C53: what the network does when it executes the script the macro generates, next to the names the author gave the stack items. *)
From Verif Require Import Base Spec_Encoding Model_ByteArray Model_Opcode Model_Script Model_Behavior Model_Macro Spec_Script Spec_Macro Spec_Network.
Local Open Scope list_scope.
Local Open Scope Z_scope.

(** The op of the generated [TaggedOp]. *)
Definition op_of (e : emitted) : op := match em_op e with EmCode c => OCode c | EmPush o => o | EmNumber n => OPushInt n end.
(** [to_pushop] makes pushes of well-formed data. *)
Definition pushes (e : emitted) : Prop :=
  match em_op e with
  | EmPush o => op_ok o /\ match o with OCode _ | OInvalid _ => False | _ => True end
  | EmNumber n => op_ok (OPushInt n)
  | EmCode _ => True
  end.
(** The states a script goes through on the network: instructions left, and the machine. *)
Inductive visits (E : env) : list (list Z * instr) * machine -> list (list Z * instr) * machine -> Prop :=
| ViHere x : visits E x x
| ViStep bs i r m m' y : Spec_Network.step E bs i (concat (map fst r)) m = Some m' -> stack_fits m' = true -> visits E (r, m') y -> visits E ((bs, i) :: r, m) y.
(** The labelled configuration [c] is the network's machine [m] plus names. *)
Definition shows (c : config) (m : machine) : Prop := map r_value (c_main c) = m_main m /\ map r_value (c_alt c) = m_alt m /\ c_exec c = m_exec m.
(** The instructions are those of the ops. *)
Definition codes (code : list emitted) (l : list (list Z * instr)) : Prop := Forall2 (fun e c => chunk (fst c) (snd c) /\ means (op_of e) (snd c)) code l.
(** The next op is an executed OP_IF on an item whose name stands for the other truth value. *)
Definition against (sigma : valuation) (e : emitted) (c : config) : Prop :=
  em_op e = EmCode OP_IF /\ Spec_Macro.active c = true /\ exists i s n, c_main c = i :: s /\ r_label i = Some n /\ sigma n <> truth (r_value i).
(** Some state on the way is about to take a conditional against the valuation: a state [z] of the network's machine, shown with names. *)
Definition diverted (E : env) (sigma : valuation) (code : list emitted) (main : list ritem) (l : list (list Z * instr)) (m : machine) : Prop :=
  exists e rest c z, reaches sigma (code, Config main [] []) (e :: rest, c) /\ visits E (l, m) z /\ codes (e :: rest) (fst z) /\ shows c (snd z) /\ against sigma e c.
(** What the macro promises about a labelled configuration from which [rest] is still to be executed. *)
Definition promised (s : state) (rest : list emitted) (c : config) : Prop :=
  match rest with
  | e :: _ => good e c
  | [] => c_exec c = [] /\ map r_label (c_main c) = map label_of (st_stack s) /\ map r_label (c_alt c) = map label_of (st_alt s)
  end.
(** Pushes of well-formed data, as [to_pushop] makes them. *)
Definition push_op (o : op) : Prop := op_ok o /\ match o with OCode _ | OInvalid _ => False | _ => True end.
(** The data an op pushes. *)
Definition pushes_data (o : op) (d : list Z) : Prop := means o (Push d).
