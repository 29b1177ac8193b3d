(** Base64 after RFC 4648 (standard alphabet, padding), as a function the assumption [base64_ok] about the
    base64 crate can be checked against. *)
From Verif Require Import Base BaseLemmas Spec_Json.
From Coq Require Import Ascii.
Local Open Scope string_scope.
Local Open Scope list_scope.
Local Open Scope Z_scope.

(** the digit for a 6-bit value, and the value of a digit *)
Definition b64_digit (v : Z) : ascii :=
  ascii_of_nat (Z.to_nat (if v <? 26 then 65 + v else if v <? 52 then 97 + (v - 26) else if v <? 62 then 48 + (v - 52) else if v =? 62 then 43 else 47)).
Definition b64_value (c : ascii) : option Z :=
  let n := Z.of_nat (nat_of_ascii c) in
  if (65 <=? n) && (n <=? 90) then Some (n - 65)
  else if (97 <=? n) && (n <=? 122) then Some (n - 97 + 26)
  else if (48 <=? n) && (n <=? 57) then Some (n - 48 + 52)
  else if n =? 43 then Some 62 else if n =? 47 then Some 63 else None.
Definition pad : ascii := "="%char.
Fixpoint rfc_encode (l : list Z) : string :=
  match l with
  | [] => EmptyString
  | [a] => String (b64_digit (a / 4)) (String (b64_digit (a mod 4 * 16)) (String pad (String pad EmptyString)))
  | [a; b] => String (b64_digit (a / 4)) (String (b64_digit (a mod 4 * 16 + b / 16)) (String (b64_digit (b mod 16 * 4)) (String pad EmptyString)))
  | a :: b :: c :: r => String (b64_digit (a / 4)) (String (b64_digit (a mod 4 * 16 + b / 16)) (String (b64_digit (b mod 16 * 4 + c / 64)) (String (b64_digit (c mod 64)) (rfc_encode r))))
  end.
Fixpoint rfc_decode (s : string) : option (list Z) :=
  match s with
  | EmptyString => Some []
  | String a (String b (String c (String d r))) =>
    match b64_value a, b64_value b with
    | Some x, Some y =>
      match b64_value c, b64_value d with
      | Some z, Some w =>
        match rfc_decode r with Some l => Some (x * 4 + y / 16 :: y mod 16 * 16 + z / 4 :: z mod 4 * 64 + w :: l) | None => None end
      | Some z, None => if Ascii.eqb d pad && String.eqb r EmptyString && (z mod 4 =? 0) then Some [x * 4 + y / 16; y mod 16 * 16 + z / 4] else None
      | None, None => if Ascii.eqb c pad && Ascii.eqb d pad && String.eqb r EmptyString && (y mod 16 =? 0) then Some [x * 4 + y / 16] else None
      | _, _ => None
      end
    | _, _ => None
    end
  | _ => None
  end.

Lemma b64_digit_value v : 0 <= v < 64 -> b64_value (b64_digit v) = Some v.
Proof.
  intros H. assert (forallb (fun n => match b64_value (b64_digit (Z.of_nat n)) with Some w => w =? Z.of_nat n | None => false end) (seq 0 64) = true) as K by (vm_compute; reflexivity).
  rewrite forallb_forall in K. specialize (K (Z.to_nat v)). rewrite Z2Nat.id in K by lia. destruct (b64_value (b64_digit v)) as [w|]; [|discriminate K; apply in_seq; lia].
  f_equal. apply Z.eqb_eq. apply K, in_seq. lia.
Qed.
Lemma b64_arith : forall x y z, 0 <= x < 256 -> 0 <= y < 256 -> 0 <= z < 256 -> 
  0 <= x / 4 < 64 /\ 0 <= x mod 4 * 16 < 64 /\ 0 <= x mod 4 * 16 + y / 16 < 64 /\ 0 <= y mod 16 * 4 < 64 /\ 0 <= y mod 16 * 4 + z / 64 < 64 /\ 0 <= z mod 64 < 64 /\
  x / 4 * 4 + x mod 4 * 16 / 16 = x /\ (x mod 4 * 16) mod 16 = 0 /\ x / 4 * 4 + (x mod 4 * 16 + y / 16) / 16 = x /\
  (x mod 4 * 16 + y / 16) mod 16 * 16 + y mod 16 * 4 / 4 = y /\ (y mod 16 * 4) mod 4 = 0 /\ 
  (x mod 4 * 16 + y / 16) mod 16 * 16 + (y mod 16 * 4 + z / 64) / 4 = y /\ (y mod 16 * 4 + z / 64) mod 4 * 64 + z mod 64 = z.
Proof. intros x y z Hx Hy Hz. repeat split; Z.to_euclidean_division_equations; lia. Qed.
Lemma rfc_base64_ok : base64_ok rfc_encode rfc_decode.
Proof.
  assert (H : forall n l, (length l <= n)%nat -> bytes_ok l -> rfc_decode (rfc_encode l) = Some l).
  { induction n as [|n IH]; intros l Hn Hl; [destruct l; [reflexivity|cbn in Hn; lia]|].
    assert (Hp : b64_value pad = None) by reflexivity.
    destruct l as [|a [|b [|c r]]]; [reflexivity| | |].
    - inversion Hl; subst. unfold byte_ok in *. destruct (b64_arith a 0 0) as (A1 & A2 & A3 & A4 & A5 & A6 & A7 & A8 & A9 & A10 & A11 & A12 & A13); try lia.
      cbn [rfc_encode rfc_decode]. rewrite !b64_digit_value, Hp by assumption. rewrite A8, A7. reflexivity.
    - inversion Hl as [|? ? Ha Hl']; subst. inversion Hl' as [|? ? Hb _]; subst. unfold byte_ok in *. destruct (b64_arith a b 0) as (A1 & A2 & A3 & A4 & A5 & A6 & A7 & A8 & A9 & A10 & A11 & A12 & A13); try lia.
      cbn [rfc_encode rfc_decode]. rewrite !b64_digit_value, Hp by assumption. rewrite A9, A10, A11. reflexivity.
    - inversion Hl as [|? ? Ha Hl']; subst. inversion Hl' as [|? ? Hb Hl'']; subst. inversion Hl'' as [|? ? Hc Hr]; subst. unfold byte_ok in *. destruct (b64_arith a b c) as (A1 & A2 & A3 & A4 & A5 & A6 & A7 & A8 & A9 & A10 & A11 & A12 & A13); try lia.
      cbn [rfc_encode rfc_decode]. rewrite !b64_digit_value by assumption. rewrite IH; [|cbn [length] in Hn; lia|exact Hr]. rewrite A9, A12, A13. reflexivity. }
  intros b Hb. exact (H (length b) b (Nat.le_refl _) Hb).
Qed.
