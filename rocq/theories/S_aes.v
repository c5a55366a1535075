(** AES as in FIPS 197, over octets (integers 0..255), written without reference to the
    code.  A column is four octets, a state or round key four columns. *)
From Coq Require Import List ZArith Bool.
Import ListNotations.
Open Scope Z_scope.

Definition col : Type := Z * Z * Z * Z.
Definition state : Type := col * col * col * col.

(** Arithmetic in GF(2^8) modulo x^8 + x^4 + x^3 + x + 1 (FIPS 197, 4.1-4.2). *)
Definition gx (a : Z) : Z := if 2 * a <? 256 then 2 * a else Z.lxor (2 * a) 0x11b.
Fixpoint gmul_bits (n : nat) (a b : Z) : Z :=
  match n with
  | O => 0
  | S k => Z.lxor (if Z.odd a then b else 0) (gmul_bits k (a / 2) (gx b))
  end.
Definition gmul (a b : Z) : Z := gmul_bits 8 a b.
(** The multiplicative inverse (0 for 0), as the 254th power. *)
Definition ginv (x : Z) : Z :=
  let x2 := gmul x x in let x4 := gmul x2 x2 in let x8 := gmul x4 x4 in
  let x16 := gmul x8 x8 in let x32 := gmul x16 x16 in let x64 := gmul x32 x32 in
  let x128 := gmul x64 x64 in
  gmul x2 (gmul x4 (gmul x8 (gmul x16 (gmul x32 (gmul x64 x128))))).
(** The S-box: inverse followed by an affine map (5.1.1). *)
Definition rot8 (x k : Z) : Z := (x * 2 ^ k) mod 256 + x / 2 ^ (8 - k).
Definition S_box (x : Z) : Z :=
  let b := ginv x in
  Z.lxor (Z.lxor (Z.lxor (Z.lxor (Z.lxor b (rot8 b 1)) (rot8 b 2)) (rot8 b 3)) (rot8 b 4)) 0x63.

Definition map_col (f : Z -> Z) (c : col) : col := let '(a, b, c, d) := c in (f a, f b, f c, f d).
Definition map_state (f : col -> col) (s : state) : state := let '(a, b, c, d) := s in (f a, f b, f c, f d).
Definition xor_col (x y : col) : col :=
  let '(a, b, c, d) := x in let '(a', b', c', d') := y in (Z.lxor a a', Z.lxor b b', Z.lxor c c', Z.lxor d d').

Definition SubBytes : state -> state := map_state (map_col S_box).
Definition ShiftRows (s : state) : state :=
  let '((a0,b0,c0,d0), (a1,b1,c1,d1), (a2,b2,c2,d2), (a3,b3,c3,d3)) := s in
  ((a0,b1,c2,d3), (a1,b2,c3,d0), (a2,b3,c0,d1), (a3,b0,c1,d2)).
Definition mix (c : col) : col :=
  let '(a, b, c, d) := c in
  let x4 p q r s := Z.lxor (Z.lxor (Z.lxor p q) r) s in
  (x4 (gmul 2 a) (gmul 3 b) c d, x4 a (gmul 2 b) (gmul 3 c) d,
   x4 a b (gmul 2 c) (gmul 3 d), x4 (gmul 3 a) b c (gmul 2 d)).
Definition MixColumns : state -> state := map_state mix.
Definition AddRoundKey (s k : state) : state :=
  let '(a, b, c, d) := s in let '(a', b', c', d') := k in
  (xor_col a a', xor_col b b', xor_col c c', xor_col d d').

(** Key expansion (5.2). *)
Definition zero_col : col := (0, 0, 0, 0).
Definition RotWord (c : col) : col := let '(a, b, c, d) := c in (b, c, d, a).
Fixpoint rcon (n : nat) : Z := match n with O => 1 | S k => gx (rcon k) end.
Fixpoint KeyExpansion (more nk : nat) (w : list col) : list col :=
  match more with
  | O => w
  | S m =>
      let i := length w in
      let temp := nth (i - 1) w zero_col in
      let temp := if (i mod nk =? 0)%nat
                  then xor_col (map_col S_box (RotWord temp)) (rcon (i / nk - 1), 0, 0, 0)
                  else if (6 <? nk)%nat && (i mod nk =? 4)%nat then map_col S_box temp
                  else temp in
      KeyExpansion m nk (w ++ [xor_col (nth (i - nk) w zero_col) temp])
  end.

Definition round_key_of (w : list col) (r : nat) : state :=
  (nth (4 * r) w zero_col, nth (4 * r + 1) w zero_col, nth (4 * r + 2) w zero_col, nth (4 * r + 3) w zero_col).

(** The cipher (5.1). *)
Definition Cipher (nr : nat) (w : list col) (input : state) : state :=
  let s := AddRoundKey input (round_key_of w 0) in
  let s := fold_left (fun s r => AddRoundKey (MixColumns (ShiftRows (SubBytes s))) (round_key_of w r))
             (seq 1 (nr - 1)) s in
  AddRoundKey (ShiftRows (SubBytes s)) (round_key_of w nr).

(** Octets to columns, in reading order. *)
Fixpoint columns (l : list Z) : list col :=
  match l with
  | a :: b :: c :: d :: r => (a, b, c, d) :: columns r
  | _ => []
  end.
Definition state_of (l : list Z) : state :=
  match columns l with
  | [a; b; c; d] => (a, b, c, d)
  | _ => (zero_col, zero_col, zero_col, zero_col)
  end.
Definition octets_of (s : state) : list Z :=
  let '((a0,b0,c0,d0), (a1,b1,c1,d1), (a2,b2,c2,d2), (a3,b3,c3,d3)) := s in
  [a0;b0;c0;d0; a1;b1;c1;d1; a2;b2;c2;d2; a3;b3;c3;d3].

(** AES with a key of 4*nk octets, nk in {4, 6, 8}. *)
Definition AES (key block : list Z) : list Z :=
  let nk := Nat.div (length key) 4 in
  let nr := (nk + 6)%nat in
  octets_of (Cipher nr (KeyExpansion (4 * (nr + 1) - nk) nk (columns key)) (state_of block)).
