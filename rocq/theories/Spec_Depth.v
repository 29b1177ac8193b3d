(** Specification for C39: what "the topmost item of a name" is. *)
From Verif Require Import Base Model_Macro.
Local Open Scope string_scope.
Local Open Scope list_scope.
Local Open Scope Z_scope.

(** At depth d (counted from the top of the tracked stack, starting at 0) is the topmost item of that name. *)
Definition topmost (ident : string) (s : state) (d : nat) : Prop :=
  (exists i, nth_error (st_stack s) d = Some i /\ it_name i = ident) /\
  forall j i, (j < d)%nat -> nth_error (st_stack s) j = Some i -> it_name i <> ident.
