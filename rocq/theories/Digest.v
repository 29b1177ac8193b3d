(* The three digest functions the crates sha2, sha-1 and ripemd160 provide, written from the published standards
   (FIPS 180-4; RIPEMD-160 by Dobbertin, Bosselaers and Preneel).  They are not part of /repo: every model takes its
   digest as a parameter and every theorem holds for any digest.  They are here so that the model can be run on the
   repository's own test vectors (Conform_*.v). *)
From Coq Require Import ZArith List Lia Bool.
From Verif Require Import Base.
Import ListNotations.
Open Scope Z_scope.

Definition w32 (x : Z) : Z := Z.land x 0xffffffff.
Definition rotl (n x : Z) : Z := Z.lor (w32 (Z.shiftl x n)) (Z.shiftr x (32 - n)).
Definition rotr (n x : Z) : Z := rotl (32 - n) x.
Definition not32 (x : Z) : Z := Z.lxor x 0xffffffff.
Definition add32 (x y : Z) : Z := w32 (x + y).

(* padding: 0x80, zeros up to 56 mod 64, the length in bits in eight bytes *)
Definition pad_zeros (n : Z) : nat := Z.to_nat ((55 - n) mod 64).
Definition padded (len8 : Z -> list Z) (m : list Z) : list Z :=
  m ++ [0x80] ++ repeat 0 (pad_zeros (zlen m)) ++ len8 (8 * zlen m).

Fixpoint blocks (n : nat) (m : list Z) : list (list Z) :=
  match n with O => [] | S k => firstn 64 m :: blocks k (skipn 64 m) end.
Fixpoint words_of (value : list Z -> Z) (n : nat) (b : list Z) : list Z :=
  match n with O => [] | S k => value (firstn 4 b) :: words_of value k (skipn 4 b) end.
Definition nblocks (m : list Z) : nat := Z.to_nat (zlen m / 64).
Definition wd (l : list Z) (i : nat) : Z := nth i l 0.

(* SHA-256 *)
Definition sha256_k : list Z := [
    0x428a2f98; 0x71374491; 0xb5c0fbcf; 0xe9b5dba5; 0x3956c25b; 0x59f111f1; 0x923f82a4; 0xab1c5ed5;
    0xd807aa98; 0x12835b01; 0x243185be; 0x550c7dc3; 0x72be5d74; 0x80deb1fe; 0x9bdc06a7; 0xc19bf174;
    0xe49b69c1; 0xefbe4786; 0x0fc19dc6; 0x240ca1cc; 0x2de92c6f; 0x4a7484aa; 0x5cb0a9dc; 0x76f988da;
    0x983e5152; 0xa831c66d; 0xb00327c8; 0xbf597fc7; 0xc6e00bf3; 0xd5a79147; 0x06ca6351; 0x14292967;
    0x27b70a85; 0x2e1b2138; 0x4d2c6dfc; 0x53380d13; 0x650a7354; 0x766a0abb; 0x81c2c92e; 0x92722c85;
    0xa2bfe8a1; 0xa81a664b; 0xc24b8b70; 0xc76c51a3; 0xd192e819; 0xd6990624; 0xf40e3585; 0x106aa070;
    0x19a4c116; 0x1e376c08; 0x2748774c; 0x34b0bcb5; 0x391c0cb3; 0x4ed8aa4a; 0x5b9cca4f; 0x682e6ff3;
    0x748f82ee; 0x78a5636f; 0x84c87814; 0x8cc70208; 0x90befffa; 0xa4506ceb; 0xbef9a3f7; 0xc67178f2 ].
Definition sha256_init : list Z :=
  [0x6a09e667; 0xbb67ae85; 0x3c6ef372; 0xa54ff53a; 0x510e527f; 0x9b05688c; 0x1f83d9ab; 0x5be0cd19].
(* the schedule is kept newest word first *)
Fixpoint sha256_extend (n : nat) (w : list Z) : list Z :=
  match n with
  | O => w
  | S k =>
      let x := wd w 14 in let y := wd w 1 in
      let s0 := Z.lxor (Z.lxor (rotr 7 x) (rotr 18 x)) (Z.shiftr x 3) in
      let s1 := Z.lxor (Z.lxor (rotr 17 y) (rotr 19 y)) (Z.shiftr y 10) in
      sha256_extend k (w32 (wd w 15 + s0 + wd w 6 + s1) :: w)
  end.
Definition sha256_round (s : list Z) (kw : Z * Z) : list Z :=
  match s with
  | [a; b; c; d; e; f; g; h] =>
      let S1 := Z.lxor (Z.lxor (rotr 6 e) (rotr 11 e)) (rotr 25 e) in
      let ch := Z.lxor (Z.land e f) (Z.land (not32 e) g) in
      let t1 := w32 (h + S1 + ch + fst kw + snd kw) in
      let S0 := Z.lxor (Z.lxor (rotr 2 a) (rotr 13 a)) (rotr 22 a) in
      let maj := Z.lxor (Z.lxor (Z.land a b) (Z.land a c)) (Z.land b c) in
      [add32 t1 (add32 S0 maj); a; b; c; add32 d t1; e; f; g]
  | _ => s
  end.
Definition sum_words (a b : list Z) : list Z := map (fun p => add32 (fst p) (snd p)) (combine a b).
Definition sha256_block (s b : list Z) : list Z :=
  let w := rev (sha256_extend 48 (rev (words_of be_value 16 b))) in
  sum_words s (fold_left sha256_round (combine sha256_k w) s).
Definition sha256 (m : list Z) : list Z :=
  let p := padded (be_bytes 8) m in
  flat_map (be_bytes 4) (fold_left sha256_block (blocks (nblocks p) p) sha256_init).

(* SHA-1 *)
Fixpoint sha1_extend (n : nat) (w : list Z) : list Z :=
  match n with
  | O => w
  | S k => sha1_extend k (rotl 1 (Z.lxor (Z.lxor (wd w 2) (wd w 7)) (Z.lxor (wd w 13) (wd w 15))) :: w)
  end.
Definition sha1_f (t : nat) (b c d : Z) : Z * Z :=
  if (t <? 20)%nat then (Z.lor (Z.land b c) (Z.land (not32 b) d), 0x5a827999)
  else if (t <? 40)%nat then (Z.lxor (Z.lxor b c) d, 0x6ed9eba1)
  else if (t <? 60)%nat then (Z.lor (Z.lor (Z.land b c) (Z.land b d)) (Z.land c d), 0x8f1bbcdc)
  else (Z.lxor (Z.lxor b c) d, 0xca62c1d6).
Definition sha1_round (s : list Z) (tw : nat * Z) : list Z :=
  match s with
  | [a; b; c; d; e] =>
      let '(f, k) := sha1_f (fst tw) b c d in
      [w32 (rotl 5 a + f + e + k + snd tw); a; rotl 30 b; c; d]
  | _ => s
  end.
Definition sha1_init : list Z := [0x67452301; 0xefcdab89; 0x98badcfe; 0x10325476; 0xc3d2e1f0].
Definition sha1_block (s b : list Z) : list Z :=
  let w := rev (sha1_extend 64 (rev (words_of be_value 16 b))) in
  sum_words s (fold_left sha1_round (combine (seq 0 80) w) s).
Definition sha1 (m : list Z) : list Z :=
  let p := padded (be_bytes 8) m in
  flat_map (be_bytes 4) (fold_left sha1_block (blocks (nblocks p) p) sha1_init).

(* RIPEMD-160 *)
Definition rmd_r1 : list Z := [
    0; 1; 2; 3; 4; 5; 6; 7; 8; 9; 10; 11; 12; 13; 14; 15;
    7; 4; 13; 1; 10; 6; 15; 3; 12; 0; 9; 5; 2; 14; 11; 8;
    3; 10; 14; 4; 9; 15; 8; 1; 2; 7; 0; 6; 13; 11; 5; 12;
    1; 9; 11; 10; 0; 8; 12; 4; 13; 3; 7; 15; 14; 5; 6; 2;
    4; 0; 5; 9; 7; 12; 2; 10; 14; 1; 3; 8; 11; 6; 15; 13 ].
Definition rmd_r2 : list Z := [
    5; 14; 7; 0; 9; 2; 11; 4; 13; 6; 15; 8; 1; 10; 3; 12;
    6; 11; 3; 7; 0; 13; 5; 10; 14; 15; 8; 12; 4; 9; 1; 2;
    15; 5; 1; 3; 7; 14; 6; 9; 11; 8; 12; 2; 10; 0; 4; 13;
    8; 6; 4; 1; 3; 11; 15; 0; 5; 12; 2; 13; 9; 7; 10; 14;
    12; 15; 10; 4; 1; 5; 8; 7; 6; 2; 13; 14; 0; 3; 9; 11 ].
Definition rmd_s1 : list Z := [
    11; 14; 15; 12; 5; 8; 7; 9; 11; 13; 14; 15; 6; 7; 9; 8;
    7; 6; 8; 13; 11; 9; 7; 15; 7; 12; 15; 9; 11; 7; 13; 12;
    11; 13; 6; 7; 14; 9; 13; 15; 14; 8; 13; 6; 5; 12; 7; 5;
    11; 12; 14; 15; 14; 15; 9; 8; 9; 14; 5; 6; 8; 6; 5; 12;
    9; 15; 5; 11; 6; 8; 13; 12; 5; 12; 13; 14; 11; 8; 5; 6 ].
Definition rmd_s2 : list Z := [
    8; 9; 9; 11; 13; 15; 15; 5; 7; 7; 8; 11; 14; 14; 12; 6;
    9; 13; 15; 7; 12; 8; 9; 11; 7; 7; 12; 7; 6; 15; 13; 11;
    9; 7; 15; 11; 8; 6; 6; 14; 12; 13; 5; 14; 13; 13; 7; 5;
    15; 5; 8; 11; 14; 14; 6; 14; 6; 9; 12; 9; 12; 5; 15; 8;
    8; 5; 12; 9; 12; 5; 14; 6; 8; 13; 6; 5; 15; 13; 11; 11 ].
Definition rmd_k1 : list Z := [0; 0x5a827999; 0x6ed9eba1; 0x8f1bbcdc; 0xa953fd4e].
Definition rmd_k2 : list Z := [0x50a28be6; 0x5c4dd124; 0x6d703ef3; 0x7a6d76e9; 0].
Definition rmd_f (j : nat) (x y z : Z) : Z :=
  match j with
  | 0%nat => Z.lxor (Z.lxor x y) z
  | 1%nat => Z.lor (Z.land x y) (Z.land (not32 x) z)
  | 2%nat => Z.lxor (Z.lor x (not32 y)) z
  | 3%nat => Z.lor (Z.land x z) (Z.land y (not32 z))
  | _ => Z.lxor x (Z.lor y (not32 z))
  end.
Definition rmd_step (f : nat -> nat) (ks : list Z) (x : list Z) (s : list Z) (i : nat * (Z * Z)) : list Z :=
  match s with
  | [a; b; c; d; e] =>
      let '(j, (r, sh)) := i in
      let g := (j / 16)%nat in
      let t := add32 (rotl sh (w32 (a + rmd_f (f g) b c d + wd x (Z.to_nat r) + wd ks g))) e in
      [e; t; b; rotl 10 c; d]
  | _ => s
  end.
Definition rmd_line (f : nat -> nat) (ks rs ss x s : list Z) : list Z :=
  fold_left (rmd_step f ks x) (combine (seq 0 80) (combine rs ss)) s.
Definition rmd_block (s b : list Z) : list Z :=
  let x := words_of le_value 16 b in
  let l := rmd_line (fun g => g) rmd_k1 rmd_r1 rmd_s1 x s in
  let r := rmd_line (fun g => (4 - g)%nat) rmd_k2 rmd_r2 rmd_s2 x s in
  match s, l, r with
  | [h0; h1; h2; h3; h4], [a; b; c; d; e], [a'; b'; c'; d'; e'] =>
      [w32 (h1 + c + d'); w32 (h2 + d + e'); w32 (h3 + e + a'); w32 (h4 + a + b'); w32 (h0 + b + c')]
  | _, _, _ => s
  end.
Definition ripemd160 (m : list Z) : list Z :=
  let p := padded (le_bytes 8) m in
  flat_map (le_bytes 4) (fold_left rmd_block (blocks (nblocks p) p) sha1_init).

(* sha256d and hash160: hash.rs 329-338 and 371-380 compute them by composition *)
Definition sha256d (m : list Z) : list Z := sha256 (sha256 m).
Definition hash160 (m : list Z) : list Z := ripemd160 (sha256 m).
