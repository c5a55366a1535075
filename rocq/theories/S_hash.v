(** The hash functions of the standards: MD5 (RFC 1321), SHA-1 and SHA-2 (FIPS 180-4) and SHA-3
    (FIPS 202), written without reference to the program. *)
From Verif Require Import Bytes.
From Coq Require Import Init.Byte List ZArith Bool.
Import ListNotations.
Open Scope Z_scope.

(** ** Words of w bits are integers from 0 to 2^w - 1. *)
Definition add (w x y : Z) : Z := (x + y) mod 2 ^ w.
Definition rotl (w n x : Z) : Z := (x * 2 ^ n) mod 2 ^ w + x / 2 ^ (w - n).
Definition rotr (w n x : Z) : Z := x / 2 ^ n + (x mod 2 ^ n) * 2 ^ (w - n).
Definition shr (n x : Z) : Z := x / 2 ^ n.
Definition wnot (w x : Z) : Z := 2 ^ w - 1 - x.
(** Bytes and words, high byte first or low byte first *)
Definition from_be (l : bytes) : Z := fold_left (fun a b => 256 * a + bv b) l 0.
Definition from_le (l : bytes) : Z := from_be (rev l).
Definition to_le (n : nat) (x : Z) : bytes := map (fun i => zb (x / 256 ^ Z.of_nat i)) (seq 0 n).
Definition to_be (n : nat) (x : Z) : bytes := rev (to_le n x).
(** A text cut into pieces of [k] bytes *)
Fixpoint cut_ (fuel k : nat) (l : bytes) : list bytes :=
  match fuel, l with O, _ | _, [] => [] | S f, _ => firstn k l :: cut_ f k (skipn k l) end.
Definition cut (k : nat) (l : bytes) : list bytes := cut_ (length l) k l.
(** Padding: a bit 1, as few bits 0 as possible, and the length, to whole blocks *)
Definition pad (block : nat) (m len : bytes) : bytes :=
  m ++ [x80] ++ repeat x00 (Z.to_nat ((Z.of_nat block - zlen len - 1 - zlen m) mod Z.of_nat block)) ++ len.
(** The words of a message schedule, the newest one first *)
Fixpoint grow (f : list Z -> Z) (n : nat) (w : list Z) : list Z :=
  match n with O => w | S n => grow f n (f w :: w) end.
Definition at_ (l : list Z) (i : nat) : Z := nth i l 0.

(** ** MD5, RFC 1321 *)
(** 2^32 times the absolute value of the sine of i, rounded down: the sine as the sum of its
    series, in units of 2^-150 *)
Fixpoint sine (terms : nat) (i k t : Z) : Z :=
  match terms with O => 0 | S n => t + sine n i (k + 2) (- (t * i * i) / ((k + 1) * (k + 2))) end.
Definition md5_T (i : Z) : Z := Z.abs (sine 100 i 1 (i * 2 ^ 150)) / 2 ^ 118.
Definition md5_F (i : nat) (x y z : Z) : Z :=
  match (i / 16)%nat with
  | 0%nat => Z.lor (Z.land x y) (Z.land (wnot 32 x) z)
  | 1%nat => Z.lor (Z.land x z) (Z.land y (wnot 32 z))
  | 2%nat => Z.lxor (Z.lxor x y) z
  | _ => Z.lxor y (Z.lor x (wnot 32 z))
  end.
Definition md5_k (i : nat) : nat :=
  match (i / 16)%nat with
  | 0%nat => i
  | 1%nat => ((1 + 5 * i) mod 16)%nat
  | 2%nat => ((5 + 3 * i) mod 16)%nat
  | _ => ((7 * i) mod 16)%nat
  end.
Definition md5_s (i : nat) : Z :=
  nth (i mod 4) (nth (i / 16) [[7; 12; 17; 22]; [5; 9; 14; 20]; [4; 11; 16; 23]; [6; 10; 15; 21]] []) 0.
Definition md5_step (X : list Z) (r : Z * Z * Z * Z) (i : nat) : Z * Z * Z * Z :=
  let '(a, b, c, d) := r in
  (d, add 32 b (rotl 32 (md5_s i) (add 32 (add 32 (add 32 a (md5_F i b c d)) (at_ X (md5_k i))) (md5_T (Z.of_nat i + 1)))), b, c).
Definition md5_block (r : Z * Z * Z * Z) (b : bytes) : Z * Z * Z * Z :=
  let '(a, b', c, d) := r in
  let '(a1, b1, c1, d1) := fold_left (md5_step (map from_le (cut 4 b))) (seq 0 64) r in
  (add 32 a a1, add 32 b' b1, add 32 c c1, add 32 d d1).
Definition md5_start : Z * Z * Z * Z :=
  (from_le [x01; x23; x45; x67], from_le [x89; xab; xcd; xef], from_le [xfe; xdc; xba; x98], from_le [x76; x54; x32; x10]).
Definition MD5 (m : bytes) : bytes :=
  let '(a, b, c, d) := fold_left md5_block (cut 64 (pad 64 m (to_le 8 (8 * zlen m)))) md5_start in
  to_le 4 a ++ to_le 4 b ++ to_le 4 c ++ to_le 4 d.

(** ** SHA-1, FIPS 180-4 *)
Definition Choose (w x y z : Z) : Z := Z.lxor (Z.land x y) (Z.land (wnot w x) z).
Definition Majority (x y z : Z) : Z := Z.lxor (Z.lxor (Z.land x y) (Z.land x z)) (Z.land y z).
Definition Parity (x y z : Z) : Z := Z.lxor (Z.lxor x y) z.
(** 2^30 times the square root of 2, 3, 5 and 10 *)
Definition sha1_k (n : Z) : Z := Z.sqrt (n * 2 ^ 60).
Definition sha1_f (t : nat) : (Z -> Z -> Z -> Z) * Z :=
  match (t / 20)%nat with
  | 0%nat => (Choose 32, sha1_k 2)
  | 1%nat => (Parity, sha1_k 3)
  | 2%nat => (Majority, sha1_k 5)
  | _ => (Parity, sha1_k 10)
  end.
Definition sha1_next (w : list Z) : Z := rotl 32 1 (Z.lxor (Z.lxor (Z.lxor (at_ w 2) (at_ w 7)) (at_ w 13)) (at_ w 15)).
Definition sha1_schedule (M : list Z) : list Z := rev (grow sha1_next 64 (rev M)).
Definition sha1_round (W : list Z) (r : Z * Z * Z * Z * Z) (t : nat) : Z * Z * Z * Z * Z :=
  let '(a, b, c, d, e) := r in let '(f, k) := sha1_f t in
  (add 32 (add 32 (add 32 (add 32 (rotl 32 5 a) (f b c d)) e) k) (at_ W t), a, rotl 32 30 b, c, d).
Definition sha1_block (r : Z * Z * Z * Z * Z) (b : bytes) : Z * Z * Z * Z * Z :=
  let '(a, b', c, d, e) := r in
  let '(a1, b1, c1, d1, e1) := fold_left (sha1_round (sha1_schedule (map from_be (cut 4 b)))) (seq 0 80) r in
  (add 32 a a1, add 32 b' b1, add 32 c c1, add 32 d d1, add 32 e e1).
Definition sha1_start : Z * Z * Z * Z * Z := (0x67452301, 0xefcdab89, 0x98badcfe, 0x10325476, 0xc3d2e1f0).
Definition SHA1 (m : bytes) : bytes :=
  let '(a, b, c, d, e) := fold_left sha1_block (cut 64 (pad 64 m (to_be 8 (8 * zlen m)))) sha1_start in
  to_be 4 a ++ to_be 4 b ++ to_be 4 c ++ to_be 4 d ++ to_be 4 e.

(** ** SHA-256, SHA-384, SHA-512, FIPS 180-4 *)
(** The first prime numbers *)
Definition prime_b (n : Z) : bool := forallb (fun d => negb (n mod d =? 0)) (map Z.of_nat (seq 2 (Z.to_nat (Z.sqrt n) - 1))).
Definition primes : list Z := filter prime_b (map Z.of_nat (seq 2 408)).
(** The first w bits behind the point of the square root and of the cube root of n *)
Definition root2 (w n : Z) : Z := Z.sqrt (n * 2 ^ (2 * w)) mod 2 ^ w.
Fixpoint cbrt (bits : nat) (r n : Z) : Z :=
  match bits with
  | O => r
  | S b => let r' := r + 2 ^ Z.of_nat b in cbrt b (if r' * r' * r' <=? n then r' else r) n
  end.
Definition root3 (w n : Z) : Z := cbrt (Z.to_nat w + 3) 0 (n * 2 ^ (3 * w)) mod 2 ^ w.
(** The differences between the functions: width, rounds, rotations *)
Record sha2 := mkSha2 { p_w : Z; p_rounds : nat; p_S0 : Z -> Z; p_S1 : Z -> Z; p_s0 : Z -> Z; p_s1 : Z -> Z }.
Definition x3 (a b c : Z) : Z := Z.lxor (Z.lxor a b) c.
Definition sha2_32 : sha2 := mkSha2 32 64
  (fun x => x3 (rotr 32 2 x) (rotr 32 13 x) (rotr 32 22 x)) (fun x => x3 (rotr 32 6 x) (rotr 32 11 x) (rotr 32 25 x))
  (fun x => x3 (rotr 32 7 x) (rotr 32 18 x) (shr 3 x)) (fun x => x3 (rotr 32 17 x) (rotr 32 19 x) (shr 10 x)).
Definition sha2_64 : sha2 := mkSha2 64 80
  (fun x => x3 (rotr 64 28 x) (rotr 64 34 x) (rotr 64 39 x)) (fun x => x3 (rotr 64 14 x) (rotr 64 18 x) (rotr 64 41 x))
  (fun x => x3 (rotr 64 1 x) (rotr 64 8 x) (shr 7 x)) (fun x => x3 (rotr 64 19 x) (rotr 64 61 x) (shr 6 x)).
Definition sha2_next (p : sha2) (w : list Z) : Z :=
  add (p_w p) (add (p_w p) (add (p_w p) (p_s1 p (at_ w 1)) (at_ w 6)) (p_s0 p (at_ w 14))) (at_ w 15).
Definition sha2_schedule (p : sha2) (M : list Z) : list Z := rev (grow (sha2_next p) (p_rounds p - 16) (rev M)).
Definition sha2_step (p : sha2) (W : list Z) (r : list Z) (t : nat) : list Z :=
  let w := p_w p in
  let a := at_ r 0 in let b := at_ r 1 in let c := at_ r 2 in let d := at_ r 3 in
  let e := at_ r 4 in let f := at_ r 5 in let g := at_ r 6 in let h := at_ r 7 in
  let T1 := add w (add w (add w (add w h (p_S1 p e)) (Choose w e f g)) (root3 w (at_ primes t))) (at_ W t) in
  let T2 := add w (p_S0 p a) (Majority a b c) in
  [add w T1 T2; a; b; c; add w d T1; e; f; g].
Definition word_size (p : sha2) : nat := Z.to_nat (p_w p / 8).
Definition sha2_block (p : sha2) (r : list Z) (b : bytes) : list Z :=
  let r1 := fold_left (sha2_step p (sha2_schedule p (map from_be (cut (word_size p) b)))) (seq 0 (p_rounds p)) r in
  map (fun i => add (p_w p) (at_ r i) (at_ r1 i)) (seq 0 8).
Definition sha2_digest (p : sha2) (start : list Z) (n : nat) (m : bytes) : bytes :=
  let block := (16 * word_size p)%nat in
  firstn n (concat (map (to_be (word_size p)) (fold_left (sha2_block p) (cut block (pad block m (to_be (2 * word_size p) (8 * zlen m)))) start))).
Definition SHA256 : bytes -> bytes := sha2_digest sha2_32 (map (root2 32) (firstn 8 primes)) 32.
Definition SHA384 : bytes -> bytes := sha2_digest sha2_64 (map (root2 64) (firstn 8 (skipn 8 primes))) 48.
Definition SHA512 : bytes -> bytes := sha2_digest sha2_64 (map (root2 64) (firstn 8 primes)) 64.

(** ** SHA-3, FIPS 202 *)
(** A state is an array of 5 times 5 lanes of 64 bits. *)
Definition array : Type := nat -> nat -> Z.
Definition prev (x : nat) : nat := ((x + 4) mod 5)%nat.
Definition next (x : nat) : nat := ((x + 1) mod 5)%nat.
Definition k_theta (A : array) : array :=
  let C x := Z.lxor (A x 0%nat) (Z.lxor (A x 1%nat) (Z.lxor (A x 2%nat) (Z.lxor (A x 3%nat) (A x 4%nat)))) in
  fun x y => Z.lxor (A x y) (Z.lxor (C (prev x)) (rotl 64 1 (C (next x)))).
(** The offsets of the rotations, FIPS 202 table 2, reduced modulo 64: a row for each y *)
Definition offsets : list (list Z) :=
  [[0; 1; 62; 28; 27]; [36; 44; 6; 55; 20]; [3; 10; 43; 25; 39]; [41; 45; 15; 21; 8]; [18; 2; 61; 56; 14]].
Definition k_rho (A : array) : array := fun x y => rotl 64 (nth x (nth y offsets []) 0) (A x y).
Definition k_pi (A : array) : array := fun x y => A ((x + 3 * y) mod 5)%nat x.
Definition k_chi (A : array) : array :=
  fun x y => Z.lxor (A x y) (Z.land (wnot 64 (A (next x) y)) (A (next (next x)) y)).
(** The bits of the round constants, algorithm 5: a register of 8 bits *)
Definition rc_step (R : list bool) : list bool :=
  match R with
  | [r0; r1; r2; r3; r4; r5; r6; r7] => [r7; r0; r1; r2; xorb r3 r7; xorb r4 r7; xorb r5 r7; r6]
  | _ => R
  end.
Definition rc (t : nat) : bool := hd false (Nat.iter t rc_step [true; false; false; false; false; false; false; false]).
Definition RC (i : nat) : Z :=
  fold_left (fun z j => if rc (j + 7 * i) then Z.lor z (2 ^ (2 ^ Z.of_nat j - 1)) else z) (seq 0 7) 0.
Definition k_iota (i : nat) (A : array) : array :=
  fun x y => if ((x =? 0) && (y =? 0))%nat then Z.lxor (A x y) (RC i) else A x y.
Definition k_round (A : array) (i : nat) : array := k_iota i (k_chi (k_pi (k_rho (k_theta A)))).
Definition array_of (s : bytes) : array := fun x y => from_le (firstn 8 (skipn (8 * (5 * y + x)) s)).
Definition bytes_of (A : array) : bytes := concat (map (fun i => to_le 8 (A (i mod 5)%nat (i / 5)%nat)) (seq 0 25)).
Definition keccak_p (s : bytes) : bytes := bytes_of (fold_left k_round (seq 0 24) (array_of s)).
(** The sponge with a rate of [rate] bytes; the message is followed by the bits 01 and the
    padding 10*1 (FIPS 202, B.2) *)
Definition pad3 (rate : nat) (m : bytes) : bytes :=
  match (rate - length m mod rate)%nat with
  | 1%nat => m ++ [x86]
  | q => m ++ [x06] ++ repeat x00 (q - 2) ++ [x80]
  end.
Definition xor_bytes (a b : bytes) : bytes := map (fun p => zb (Z.lxor (bv (fst p)) (bv (snd p)))) (combine a b).
Definition sponge (rate n : nat) (m : bytes) : bytes :=
  firstn n (fold_left (fun s p => keccak_p (xor_bytes s (p ++ repeat x00 (200 - rate)))) (cut rate (pad3 rate m)) (repeat x00 200)).
Definition SHA3_256 : bytes -> bytes := sponge 136 32.
Definition SHA3_512 : bytes -> bytes := sponge 72 64.

(** ** The hash functions by their number in the library *)
Inductive standard : Z -> (bytes -> bytes) -> Prop :=
| std_md5 : standard 1 MD5
| std_sha1 : standard 2 SHA1
| std_sha256 : standard 3 SHA256
| std_sha384 : standard 4 SHA384
| std_sha512 : standard 5 SHA512
| std_sha3_256 : standard 6 SHA3_256
| std_sha3_512 : standard 7 SHA3_512.
(** The size of the digest in bytes *)
Definition digest_size (t : Z) : Z :=
  if t =? 1 then 16 else if t =? 2 then 20 else if t =? 4 then 48 else if (t =? 5) || (t =? 7) then 64 else 32.
