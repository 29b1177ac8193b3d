(** Specification of byte arrays: a history of operations on a pool of arrays must behave like the
    same history on a pool of plain byte strings; provenance must be truthful. *)
From Verif Require Import Base Model_ByteArray.
Local Open Scope Z_scope.
Local Open Scope list_scope.

(** Operations a user can perform; numbers refer to positions in the pool of arrays made so far. *)
Inductive ba_op : Type :=
| ONew (name : option string) (data : list Z)
| OConcat (i j : nat) (name : option string)
| OParts (is : list nat)
| OSplit (i : nat) (at_ : Z)
| OName (i : nat) (name : string)
| OApply (i : nat) (f : func).        (* hash, reverse or sign array i *)

Section Histories.
  (** [h f d]: result bytes of applying function [f] (hash, reversal, signature) to data [d]. *)
  Variable h : func -> list Z -> list Z.

  (** The history on plain byte strings. An operation that refers to a missing array, or splits
      out of bounds, adds nothing. *)
  Definition spec_step (pool : list (list Z)) (o : ba_op) : list (list Z) :=
    match o with
    | ONew _ d => pool ++ [d]
    | OConcat i j _ =>
        match nth_error pool i, nth_error pool j with
        | Some a, Some b => pool ++ [a ++ b]
        | _, _ => pool
        end
    | OParts is => pool ++ [concat (map (fun i => nth i pool []) is)]
    | OSplit i at_ =>
        match nth_error pool i with
        | Some a => if (at_ <=? zlen a) then pool ++ [firstn (Z.to_nat at_) a; skipn (Z.to_nat at_) a] else pool
        | None => pool
        end
    | OName i _ => match nth_error pool i with Some a => pool ++ [a] | None => pool end
    | OApply i f => match nth_error pool i with Some a => pool ++ [h f a] | None => pool end
    end.

  (** The same history with the library's byte arrays. *)
  Definition impl_step (pool : list barray) (o : ba_op) : list barray :=
    match o with
    | ONew n d => pool ++ [BA d n FPlain None]
    | OConcat i j n =>
        match nth_error pool i, nth_error pool j with
        | Some a, Some b => pool ++ [ba_concat_named a b n]
        | _, _ => pool
        end
    | OParts is => pool ++ [ba_from_parts (map (fun i => nth i pool (ba_unnamed [])) is)]
    | OSplit i at_ =>
        match nth_error pool i with
        | Some a => match ba_split a at_ with Ok (l, r) => pool ++ [l; r] | _ => pool end
        | None => pool
        end
    | OName i n => match nth_error pool i with Some a => pool ++ [ba_named a n] | None => pool end
    | OApply i f =>
        match nth_error pool i with
        | Some a => pool ++ [ba_apply_function a (h f (ba_data a)) f]
        | None => pool
        end
    end.

  (** Truthful provenance: a Plain node's data is the concatenation of its preimages' data;
      a hash (or reversal) node has one preimage, whose hash it is. Signature and
      UnexpectedSplit nodes claim nothing. *)
  Definition node_truthful (f : func) (d : list Z) (ps : list barray) : Prop :=
    match f with
    | FPlain => d = concat (map ba_data ps)
    | FSha1 | FRipemd160 | FSha256 | FHash256 | FHash160 | FReverse =>
        exists p, ps = [p] /\ d = h f (ba_data p)
    | _ => True
    end.
  Inductive truthful : barray -> Prop :=
  | TLeaf d n f : truthful (BA d n f None)
  | TNode d n f ps : node_truthful f d ps -> Forall truthful ps -> truthful (BA d n f (Some ps)).

  (** Functions whose results keep their provenance when split: everything except signing. *)
  Definition is_hash (f : func) : bool :=
    match f with FSha1 | FRipemd160 | FSha256 | FHash256 | FHash160 | FReverse => true | _ => false end.
  Definition no_signing (o : ba_op) : Prop :=
    match o with OApply _ f => is_hash f = true | _ => True end.
  Definition split_ok (o : ba_op) : Prop := match o with OSplit _ at_ => 0 <= at_ | _ => True end.
End Histories.
