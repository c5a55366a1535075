(** Model of the hash functions: lib/md5.c, lib/sha1.c, lib/sha2.c, lib/sha3.c and the
    functions of lib/digest.c that call them.  Machine with little-endian words; the loops are
    not unrolled (SHA2_UNROLL_TRANSFORM, UNRAVEL and UNROLL_LOOPS are not defined) and sha3.c
    uses its functions load64, store64 and xor64.
    Not modelled: the wiping of the contexts at the end. *)
From Verif Require Import Bytes M_codec.
From Coq Require Import Init.Byte List ZArith Bool.
Import ListNotations.
Open Scope Z_scope.

(** ** Memory *)
Definition u64 (z : Z) : Z := z mod 18446744073709551616.
(** The word of [length l] bytes stored at [l] *)
Fixpoint le (l : bytes) : Z := match l with [] => 0 | b :: r => bv b + 256 * le r end.
(** [memcpy] of a word of [n] bytes to memory *)
Fixpoint le_bytes (n : nat) (x : Z) : bytes := match n with O => [] | S n => zb x :: le_bytes n (Z.shiftr x 8) end.
(** The words of [k] bytes of a buffer: reading through a pointer to words *)
Fixpoint words (n k : nat) (l : bytes) : list Z :=
  match n with O => [] | S n => le (firstn k l) :: words n k (skipn k l) end.
(** [memcpy(buf + off, d, length d)] *)
Definition put (buf : bytes) (off : nat) (d : bytes) : bytes := firstn off buf ++ d ++ skipn (off + length d) buf.
Definition zeros (n : nat) : bytes := repeat x00 n.
Definition wnth (l : list Z) (i : nat) : Z := nth i l 0.
Fixpoint upd {A} (l : list A) (i : nat) (x : A) : list A :=
  match l, i with [], _ => [] | _ :: r, O => x :: r | a :: r, S i => a :: upd r i x end.

(** ** MD5: lib/md5.c *)
(** MD5Context, md5.h:46-50 *)
Record md5_ctx := mkMd5 { m_buf : Z * Z * Z * Z; m_bits0 : Z; m_bits1 : Z; m_in : bytes }.
(** md5.c:58-69 *)
Definition MD5Init (junk : bytes) : md5_ctx := mkMd5 (0x67452301, 0xefcdab89, 0x98badcfe, 0x10325476) 0 0 junk.
(** The core functions, md5.c:178-181; ~z is a complement of 32 bits *)
Definition F1 (x y z : Z) : Z := Z.lxor z (Z.land x (Z.lxor y z)).
Definition F2 (x y z : Z) : Z := F1 z x y.
Definition F3 (x y z : Z) : Z := Z.lxor (Z.lxor x y) z.
Definition F4 (x y z : Z) : Z := Z.lxor y (Z.lor x (u32 (Z.lnot z))).
(** MD5STEP, md5.c:185-186 *)
Definition MD5STEP (f : Z -> Z -> Z -> Z) (w x y z data s : Z) : Z :=
  let w := u32 (w + u32 (f x y z + data)) in
  let w := Z.lor (u32 (Z.shiftl w s)) (Z.shiftr w (32 - s)) in
  u32 (w + x).
(** The calls of MD5STEP in md5.c:202-268: function, register that is changed (the others follow
    in the order a, b, c, d after it), index of the word, constant, shift *)
Inductive reg := Wa | Wb | Wc | Wd.
Definition md5_steps : list ((Z -> Z -> Z -> Z) * reg * nat * Z * Z) :=
  [ (F1, Wa, 0%nat, 0xd76aa478, 7); (F1, Wd, 1%nat, 0xe8c7b756, 12);
    (F1, Wc, 2%nat, 0x242070db, 17); (F1, Wb, 3%nat, 0xc1bdceee, 22);
    (F1, Wa, 4%nat, 0xf57c0faf, 7); (F1, Wd, 5%nat, 0x4787c62a, 12);
    (F1, Wc, 6%nat, 0xa8304613, 17); (F1, Wb, 7%nat, 0xfd469501, 22);
    (F1, Wa, 8%nat, 0x698098d8, 7); (F1, Wd, 9%nat, 0x8b44f7af, 12);
    (F1, Wc, 10%nat, 0xffff5bb1, 17); (F1, Wb, 11%nat, 0x895cd7be, 22);
    (F1, Wa, 12%nat, 0x6b901122, 7); (F1, Wd, 13%nat, 0xfd987193, 12);
    (F1, Wc, 14%nat, 0xa679438e, 17); (F1, Wb, 15%nat, 0x49b40821, 22);
    (F2, Wa, 1%nat, 0xf61e2562, 5); (F2, Wd, 6%nat, 0xc040b340, 9);
    (F2, Wc, 11%nat, 0x265e5a51, 14); (F2, Wb, 0%nat, 0xe9b6c7aa, 20);
    (F2, Wa, 5%nat, 0xd62f105d, 5); (F2, Wd, 10%nat, 0x02441453, 9);
    (F2, Wc, 15%nat, 0xd8a1e681, 14); (F2, Wb, 4%nat, 0xe7d3fbc8, 20);
    (F2, Wa, 9%nat, 0x21e1cde6, 5); (F2, Wd, 14%nat, 0xc33707d6, 9);
    (F2, Wc, 3%nat, 0xf4d50d87, 14); (F2, Wb, 8%nat, 0x455a14ed, 20);
    (F2, Wa, 13%nat, 0xa9e3e905, 5); (F2, Wd, 2%nat, 0xfcefa3f8, 9);
    (F2, Wc, 7%nat, 0x676f02d9, 14); (F2, Wb, 12%nat, 0x8d2a4c8a, 20);
    (F3, Wa, 5%nat, 0xfffa3942, 4); (F3, Wd, 8%nat, 0x8771f681, 11);
    (F3, Wc, 11%nat, 0x6d9d6122, 16); (F3, Wb, 14%nat, 0xfde5380c, 23);
    (F3, Wa, 1%nat, 0xa4beea44, 4); (F3, Wd, 4%nat, 0x4bdecfa9, 11);
    (F3, Wc, 7%nat, 0xf6bb4b60, 16); (F3, Wb, 10%nat, 0xbebfbc70, 23);
    (F3, Wa, 13%nat, 0x289b7ec6, 4); (F3, Wd, 0%nat, 0xeaa127fa, 11);
    (F3, Wc, 3%nat, 0xd4ef3085, 16); (F3, Wb, 6%nat, 0x04881d05, 23);
    (F3, Wa, 9%nat, 0xd9d4d039, 4); (F3, Wd, 12%nat, 0xe6db99e5, 11);
    (F3, Wc, 15%nat, 0x1fa27cf8, 16); (F3, Wb, 2%nat, 0xc4ac5665, 23);
    (F4, Wa, 0%nat, 0xf4292244, 6); (F4, Wd, 7%nat, 0x432aff97, 10);
    (F4, Wc, 14%nat, 0xab9423a7, 15); (F4, Wb, 5%nat, 0xfc93a039, 21);
    (F4, Wa, 12%nat, 0x655b59c3, 6); (F4, Wd, 3%nat, 0x8f0ccc92, 10);
    (F4, Wc, 10%nat, 0xffeff47d, 15); (F4, Wb, 1%nat, 0x85845dd1, 21);
    (F4, Wa, 8%nat, 0x6fa87e4f, 6); (F4, Wd, 15%nat, 0xfe2ce6e0, 10);
    (F4, Wc, 6%nat, 0xa3014314, 15); (F4, Wb, 13%nat, 0x4e0811a1, 21);
    (F4, Wa, 4%nat, 0xf7537e82, 6); (F4, Wd, 11%nat, 0xbd3af235, 10);
    (F4, Wc, 2%nat, 0x2ad7d2bb, 15); (F4, Wb, 9%nat, 0xeb86d391, 21) ].
Definition md5_do (X : list Z) (r : Z * Z * Z * Z) (i : (Z -> Z -> Z -> Z) * reg * nat * Z * Z) : Z * Z * Z * Z :=
  let '(f, w, k, c, s) := i in let '(a, b, c4, d) := r in
  let data := u32 (wnth X k + c) in
  match w with
  | Wa => (MD5STEP f a b c4 d data s, b, c4, d)
  | Wb => (a, MD5STEP f b c4 d a data s, c4, d)
  | Wc => (a, b, MD5STEP f c4 d a b data s, d)
  | Wd => (a, b, c4, MD5STEP f d a b c4 data s)
  end.
(** md5.c:193-274 *)
Definition MD5Transform (buf : Z * Z * Z * Z) (inb : bytes) : Z * Z * Z * Z :=
  let '(a0, b0, c0, d0) := buf in
  let '(a, b, c, d) := fold_left (md5_do (words 16 4 inb)) md5_steps buf in
  (u32 (a0 + a), u32 (b0 + b), u32 (c0 + c), u32 (d0 + d)).
(** md5.c:105-117: the loop over whole blocks and the rest *)
Fixpoint md5_loop (fuel : nat) (buf : Z * Z * Z * Z) (inb data : bytes) : (Z * Z * Z * Z) * bytes :=
  match fuel with
  | O => (buf, inb)
  | S fuel =>
      if 64 <=? zlen data then
        let inb := put inb 0 (firstn 64 data) in
        md5_loop fuel (MD5Transform buf inb) inb (skipn 64 data)
      else (buf, put inb 0 data)
  end.
(** md5.c:74-118 *)
Definition MD5Update (c : md5_ctx) (data : bytes) : md5_ctx :=
  let len := zlen data in
  let t := m_bits0 c in
  let bits0 := u32 (t + u32 (Z.shiftl len 3)) in
  let bits1 := if bits0 <? t then u32 (m_bits1 c + 1) else m_bits1 c in
  let bits1 := u32 (bits1 + Z.shiftr len 29) in
  let t := Z.to_nat (Z.land (Z.shiftr t 3) 0x3f) in
  match t with
  | O => let '(b, i) := md5_loop (S (length data)) (m_buf c) (m_in c) data in mkMd5 b bits0 bits1 i
  | _ =>
      let r := (64 - t)%nat in
      if (length data <? r)%nat then mkMd5 (m_buf c) bits0 bits1 (put (m_in c) t data)
      else
        let i := put (m_in c) t (firstn r data) in
        let '(b, i) := md5_loop (S (length data)) (MD5Transform (m_buf c) i) i (skipn r data) in
        mkMd5 b bits0 bits1 i
  end.
(** md5.c:123-172 *)
Definition MD5Final (c : md5_ctx) : bytes :=
  let count := Z.to_nat (Z.land (Z.shiftr (m_bits0 c) 3) 0x3f) in
  let i := put (m_in c) count [x80] in
  let p := S count in
  let count := (64 - 1 - count)%nat in
  let '(b, i) :=
    if (count <? 8)%nat then
      let i := put i p (zeros count) in
      (MD5Transform (m_buf c) i, put i 0 (zeros 56))
    else (m_buf c, put i p (zeros (count - 8))) in
  let i := put i 56 (le_bytes 4 (m_bits0 c)) in
  let i := put i 60 (le_bytes 4 (m_bits1 c)) in
  let '(a, b, c, d) := MD5Transform b i in
  le_bytes 4 a ++ le_bytes 4 b ++ le_bytes 4 c ++ le_bytes 4 d.

(** ** SHA-1: lib/sha1.c *)
(** SHA1_INFO, sha1.h:51-56 *)
Record sha1_ctx := mkSha1 { s_digest : Z * Z * Z * Z * Z; s_lo : Z; s_hi : Z; s_data : bytes; s_local : nat }.
Definition f1 (x y z : Z) : Z := Z.lor (Z.land x y) (Z.land (u32 (Z.lnot x)) z).
Definition f2 (x y z : Z) : Z := Z.lxor (Z.lxor x y) z.
Definition f3 (x y z : Z) : Z := Z.lor (Z.lor (Z.land x y) (Z.land x z)) (Z.land y z).
Definition f4 (x y z : Z) : Z := Z.lxor (Z.lxor x y) z.
(** sha1.c:33, 36 *)
Definition T32 (x : Z) : Z := Z.land x 0xffffffff.
Definition R32 (x n : Z) : Z := T32 (Z.lor (u32 (Z.shiftl x n)) (Z.shiftr x (32 - n))).
(** FG, sha1.c:39-41 *)
Definition FG (f : Z -> Z -> Z -> Z) (const : Z) (r : Z * Z * Z * Z * Z) (w : Z) : Z * Z * Z * Z * Z :=
  let '(A, B, C, D, E) := r in
  let T := T32 (R32 A 5 + f B C D + E + w + const) in
  (T, A, R32 B 30, C, D).
(** sha1.c:75-83 *)
Definition swap32 (T : Z) : Z :=
  Z.lor (Z.lor (Z.lor (Z.land (u32 (Z.shiftl T 24)) 0xff000000) (Z.land (u32 (Z.shiftl T 8)) 0x00ff0000))
    (Z.land (Z.shiftr T 8) 0x0000ff00)) (Z.land (Z.shiftr T 24) 0x000000ff).
(** sha1.c:129-132: the words 16 to 79, appended one by one *)
Fixpoint sha1_expand (k : nat) (W : list Z) : list Z :=
  match k with
  | O => W
  | S k =>
      let i := length W in
      let x := Z.lxor (Z.lxor (Z.lxor (wnth W (i - 3)) (wnth W (i - 8))) (wnth W (i - 14))) (wnth W (i - 16)) in
      sha1_expand k (W ++ [R32 x 1])
  end.
(** sha1.c:63-176 *)
Definition sha1_transform (digest : Z * Z * Z * Z * Z) (data : bytes) : Z * Z * Z * Z * Z :=
  let W := sha1_expand 64 (map swap32 (words 16 4 data)) in
  let r := fold_left (FG f1 0x5a827999) (firstn 20 W) digest in
  let r := fold_left (FG f2 0x6ed9eba1) (firstn 20 (skipn 20 W)) r in
  let r := fold_left (FG f3 0x8f1bbcdc) (firstn 20 (skipn 40 W)) r in
  let '(A, B, C, D, E) := fold_left (FG f4 0xca62c1d6) (firstn 20 (skipn 60 W)) r in
  let '(d0, d1, d2, d3, d4) := digest in
  (T32 (d0 + A), T32 (d1 + B), T32 (d2 + C), T32 (d3 + D), T32 (d4 + E)).
(** sha1.c:180-191 *)
Definition sha1_init (junk : bytes) : sha1_ctx :=
  mkSha1 (0x67452301, 0xefcdab89, 0x98badcfe, 0x10325476, 0xc3d2e1f0) 0 0 junk 0.
(** sha1.c:222-229 *)
Fixpoint sha1_loop (fuel : nat) (digest : Z * Z * Z * Z * Z) (blk buffer : bytes) : (Z * Z * Z * Z * Z) * bytes * nat :=
  match fuel with
  | O => (digest, blk, O)
  | S fuel =>
      if 64 <=? zlen buffer then
        let blk := put blk 0 (firstn 64 buffer) in
        sha1_loop fuel (sha1_transform digest blk) blk (skipn 64 buffer)
      else (digest, put blk 0 buffer, length buffer)
  end.
(** sha1.c:195-230 *)
Definition sha1_update (c : sha1_ctx) (buffer : bytes) : sha1_ctx :=
  let count := zlen buffer in
  let clo := T32 (s_lo c + u32 (Z.shiftl count 3)) in
  let hi := if clo <? s_lo c then u32 (s_hi c + 1) else s_hi c in
  let hi := u32 (hi + Z.shiftr count 29) in
  match s_local c with
  | O => let '(d, b, l) := sha1_loop (S (length buffer)) (s_digest c) (s_data c) buffer in mkSha1 d clo hi b l
  | _ =>
      let i := Nat.min (64 - s_local c) (length buffer) in
      let b := put (s_data c) (s_local c) (firstn i buffer) in
      let local := (s_local c + i)%nat in
      if (local =? 64)%nat then
        let '(d, b, l) := sha1_loop (S (length buffer)) (sha1_transform (s_digest c) b) b (skipn i buffer) in mkSha1 d clo hi b l
      else mkSha1 (s_digest c) clo hi b local
  end.
(** sha1.c:237-256 and 279-286: a word stored with its high byte first *)
Definition be4 (x : Z) : bytes :=
  [zb (Z.land (Z.shiftr x 24) 0xff); zb (Z.land (Z.shiftr x 16) 0xff); zb (Z.land (Z.shiftr x 8) 0xff); zb (Z.land x 0xff)].
(** sha1.c:233-288 *)
Definition sha1_final (c : sha1_ctx) : bytes :=
  let count := Z.to_nat (Z.land (Z.shiftr (s_lo c) 3) 0x3f) in
  let b := put (s_data c) count [x80] in
  let count := S count in
  let '(d, b) :=
    if (64 - 8 <? count)%nat then
      let b := put b count (zeros (64 - count)) in
      (sha1_transform (s_digest c) b, put b 0 (zeros (64 - 8)))
    else (s_digest c, put b count (zeros (64 - 8 - count))) in
  let b := put b 56 (be4 (s_hi c)) in
  let b := put b 60 (be4 (s_lo c)) in
  let '(a0, a1, a2, a3, a4) := sha1_transform d b in
  be4 a0 ++ be4 a1 ++ be4 a2 ++ be4 a3 ++ be4 a4.

(** ** SHA-256, SHA-384, SHA-512: lib/sha2.c *)
(** Rotations and logical functions, sha2.c:206-232 *)
Definition S32 (b x : Z) : Z := Z.lor (Z.shiftr x b) (u32 (Z.shiftl x (32 - b))).
Definition S64 (b x : Z) : Z := Z.lor (Z.shiftr x b) (u64 (Z.shiftl x (64 - b))).
Definition Sigma0_256 (x : Z) : Z := Z.lxor (Z.lxor (S32 2 x) (S32 13 x)) (S32 22 x).
Definition Sigma1_256 (x : Z) : Z := Z.lxor (Z.lxor (S32 6 x) (S32 11 x)) (S32 25 x).
Definition sigma0_256 (x : Z) : Z := Z.lxor (Z.lxor (S32 7 x) (S32 18 x)) (Z.shiftr x 3).
Definition sigma1_256 (x : Z) : Z := Z.lxor (Z.lxor (S32 17 x) (S32 19 x)) (Z.shiftr x 10).
Definition Sigma0_512 (x : Z) : Z := Z.lxor (Z.lxor (S64 28 x) (S64 34 x)) (S64 39 x).
Definition Sigma1_512 (x : Z) : Z := Z.lxor (Z.lxor (S64 14 x) (S64 18 x)) (S64 41 x).
Definition sigma0_512 (x : Z) : Z := Z.lxor (Z.lxor (S64 1 x) (S64 8 x)) (Z.shiftr x 7).
Definition sigma1_512 (x : Z) : Z := Z.lxor (Z.lxor (S64 19 x) (S64 61 x)) (Z.shiftr x 6).
(** sha2.c:247-336, the constants *)
Definition K256 : list Z :=
  [ 0x428a2f98; 0x71374491; 0xb5c0fbcf; 0xe9b5dba5; 0x3956c25b; 0x59f111f1;
    0x923f82a4; 0xab1c5ed5; 0xd807aa98; 0x12835b01; 0x243185be; 0x550c7dc3;
    0x72be5d74; 0x80deb1fe; 0x9bdc06a7; 0xc19bf174; 0xe49b69c1; 0xefbe4786;
    0x0fc19dc6; 0x240ca1cc; 0x2de92c6f; 0x4a7484aa; 0x5cb0a9dc; 0x76f988da;
    0x983e5152; 0xa831c66d; 0xb00327c8; 0xbf597fc7; 0xc6e00bf3; 0xd5a79147;
    0x06ca6351; 0x14292967; 0x27b70a85; 0x2e1b2138; 0x4d2c6dfc; 0x53380d13;
    0x650a7354; 0x766a0abb; 0x81c2c92e; 0x92722c85; 0xa2bfe8a1; 0xa81a664b;
    0xc24b8b70; 0xc76c51a3; 0xd192e819; 0xd6990624; 0xf40e3585; 0x106aa070;
    0x19a4c116; 0x1e376c08; 0x2748774c; 0x34b0bcb5; 0x391c0cb3; 0x4ed8aa4a;
    0x5b9cca4f; 0x682e6ff3; 0x748f82ee; 0x78a5636f; 0x84c87814; 0x8cc70208;
    0x90befffa; 0xa4506ceb; 0xbef9a3f7; 0xc67178f2 ].
Definition sha256_initial_hash_value : list Z :=
  [ 0x6a09e667; 0xbb67ae85; 0x3c6ef372; 0xa54ff53a; 0x510e527f; 0x9b05688c; 0x1f83d9ab; 0x5be0cd19 ].
Definition K512 : list Z :=
  [ 0x428a2f98d728ae22; 0x7137449123ef65cd; 0xb5c0fbcfec4d3b2f; 0xe9b5dba58189dbbc;
    0x3956c25bf348b538; 0x59f111f1b605d019; 0x923f82a4af194f9b; 0xab1c5ed5da6d8118;
    0xd807aa98a3030242; 0x12835b0145706fbe; 0x243185be4ee4b28c; 0x550c7dc3d5ffb4e2;
    0x72be5d74f27b896f; 0x80deb1fe3b1696b1; 0x9bdc06a725c71235; 0xc19bf174cf692694;
    0xe49b69c19ef14ad2; 0xefbe4786384f25e3; 0x0fc19dc68b8cd5b5; 0x240ca1cc77ac9c65;
    0x2de92c6f592b0275; 0x4a7484aa6ea6e483; 0x5cb0a9dcbd41fbd4; 0x76f988da831153b5;
    0x983e5152ee66dfab; 0xa831c66d2db43210; 0xb00327c898fb213f; 0xbf597fc7beef0ee4;
    0xc6e00bf33da88fc2; 0xd5a79147930aa725; 0x06ca6351e003826f; 0x142929670a0e6e70;
    0x27b70a8546d22ffc; 0x2e1b21385c26c926; 0x4d2c6dfc5ac42aed; 0x53380d139d95b3df;
    0x650a73548baf63de; 0x766a0abb3c77b2a8; 0x81c2c92e47edaee6; 0x92722c851482353b;
    0xa2bfe8a14cf10364; 0xa81a664bbc423001; 0xc24b8b70d0f89791; 0xc76c51a30654be30;
    0xd192e819d6ef5218; 0xd69906245565a910; 0xf40e35855771202a; 0x106aa07032bbd1b8;
    0x19a4c116b8d2d0c8; 0x1e376c085141ab53; 0x2748774cdf8eeb99; 0x34b0bcb5e19b48a8;
    0x391c0cb3c5c95a63; 0x4ed8aa4ae3418acb; 0x5b9cca4f7763e373; 0x682e6ff3d6b2b8a3;
    0x748f82ee5defb2fc; 0x78a5636f43172f60; 0x84c87814a1f0ab72; 0x8cc702081a6439ec;
    0x90befffa23631e28; 0xa4506cebde82bde9; 0xbef9a3f7b2c67915; 0xc67178f2e372532b;
    0xca273eceea26619c; 0xd186b8c721c0c207; 0xeada7dd6cde0eb1e; 0xf57d4f7fee6ed178;
    0x06f067aa72176fba; 0x0a637dc5a2c898a6; 0x113f9804bef90dae; 0x1b710b35131c471b;
    0x28db77f523047d84; 0x32caab7b40c72493; 0x3c9ebe0a15c9bebc; 0x431d67c49c100d4c;
    0x4cc5d4becb3e42b6; 0x597f299cfc657e2a; 0x5fcb6fab3ad6faec; 0x6c44198c4a475817 ].
Definition sha384_initial_hash_value : list Z :=
  [ 0xcbbb9d5dc1059ed8; 0x629a292a367cd507; 0x9159015a3070dd17; 0x152fecd8f70e5939;
    0x67332667ffc00b31; 0x8eb44a8768581511; 0xdb0c2e0d64f98fa7; 0x47b5481dbefa4fa4 ].
Definition sha512_initial_hash_value : list Z :=
  [ 0x6a09e667f3bcc908; 0xbb67ae8584caa73b; 0x3c6ef372fe94f82b; 0xa54ff53a5f1d36f1;
    0x510e527fade682d1; 0x9b05688c2b3e6c1f; 0x1f83d9abfb41bd6b; 0x5be0cd19137e2179 ].
(** REVERSE32 and REVERSE64, sha2.c:148-162 *)
Definition REVERSE32 (w : Z) : Z :=
  let tmp := Z.lor (Z.shiftr w 16) (u32 (Z.shiftl w 16)) in
  Z.lor (Z.shiftr (Z.land tmp 0xff00ff00) 8) (u32 (Z.shiftl (Z.land tmp 0x00ff00ff) 8)).
Definition REVERSE64 (w : Z) : Z :=
  let tmp := Z.lor (Z.shiftr w 32) (u64 (Z.shiftl w 32)) in
  let tmp := Z.lor (Z.shiftr (Z.land tmp 0xff00ff00ff00ff00) 8) (u64 (Z.shiftl (Z.land tmp 0x00ff00ff00ff00ff) 8)) in
  Z.lor (Z.shiftr (Z.land tmp 0xffff0000ffff0000) 16) (u64 (Z.shiftl (Z.land tmp 0x0000ffff0000ffff) 16)).

(** The C functions for SHA-256 and those for SHA-512 have the same text except for what is
    collected here: the reduction to the width of a word, the bytes of a word, the size of a
    block, the last block up to the length, the number of rounds, the constants, the functions
    above, the count of bits (one word of 64 bits, or two), and how much of the buffer is cleared
    before the last of two blocks. *)
Record variant := mkVariant {
  v_word : Z -> Z; v_size : nat; v_block : nat; v_short : nat; v_rounds : nat; v_K : list Z;
  v_S0 : Z -> Z; v_S1 : Z -> Z; v_s0 : Z -> Z; v_s1 : Z -> Z; v_rev : Z -> Z;
  v_add : Z * Z -> Z -> Z * Z; v_count : Z * Z -> bytes; v_clear : nat }.
Definition Ch (W : Z -> Z) (x y z : Z) : Z := Z.lxor (Z.land x y) (Z.land (W (Z.lnot x)) z).
Definition Maj (x y z : Z) : Z := Z.lxor (Z.lxor (Z.land x y) (Z.land x z)) (Z.land y z).
Definition regs : Type := (Z * Z * Z * Z) * (Z * Z * Z * Z).
(** One round with word [w], sha2.c:478-491 and 772-785 *)
Definition sha2_round (v : variant) (r : regs) (k w : Z) : regs :=
  let '((a, b, c, d), (e, f, g, h)) := r in
  let T1 := v_word v (h + v_S1 v e + Ch (v_word v) e f g + k + w) in
  let T2 := v_word v (v_S0 v a + Maj a b c) in
  ((v_word v (T1 + T2), a, b, c), (v_word v (d + T1), e, f, g)).
(** The first 16 rounds, sha2.c:471-494 and 763-788 *)
Fixpoint sha2_first (v : variant) (n j : nat) (W : list Z) (r : regs) : regs :=
  match n with
  | O => r
  | S n => sha2_first v n (S j) W (sha2_round v r (wnth (v_K v) j) (wnth W j))
  end.
(** The other rounds, sha2.c:496-519 and 790-813; [W] is the buffer of 16 words *)
Fixpoint sha2_rest (v : variant) (n j : nat) (W : list Z) (r : regs) : list Z * regs :=
  match n with
  | O => (W, r)
  | S n =>
      let s0 := v_s0 v (wnth W ((j + 1) mod 16)) in
      let s1 := v_s1 v (wnth W ((j + 14) mod 16)) in
      let x := v_word v (wnth W (j mod 16) + (s1 + wnth W ((j + 9) mod 16) + s0)) in
      sha2_rest v n (S j) (upd W (j mod 16) x) (sha2_round v r (wnth (v_K v) j) x)
  end.
Definition load (l : list Z) : regs :=
  ((wnth l 0, wnth l 1, wnth l 2, wnth l 3), (wnth l 4, wnth l 5, wnth l 6, wnth l 7)).
(** SHA256_Transform, SHA512_Transform, sha2.c:453-531 and 745-821: the new state, and the
    buffer of the context, which has been used for the words *)
Definition sha2_transform (v : variant) (state : list Z) (data : bytes) : list Z * bytes :=
  let W := map (v_rev v) (words 16 (v_size v) data) in
  let r := sha2_first v 16 0 W (load state) in
  let '(W, ((a, b, c, d), (e, f, g, h))) := sha2_rest v (v_rounds v - 16) 16 W r in
  (map (fun x => v_word v (fst x + snd x)) (combine state [a; b; c; d; e; f; g; h]),
   concat (map (le_bytes (v_size v)) W)).
(** SHA256_CTX, SHA512_CTX *)
Record sha2_ctx := mkSha2 { c_state : list Z; c_count : Z * Z; c_buffer : bytes }.
(** SHA256_Init, SHA512_Init, SHA384_Init, sha2.c:348-355, 644-651, 943-950 *)
Definition sha2_init (v : variant) (iv : list Z) : sha2_ctx := mkSha2 iv (0, 0) (zeros (v_block v)).
Definition usedspace (v : variant) (c : sha2_ctx) : nat := Z.to_nat (Z.shiftr (fst (c_count c)) 3 mod Z.of_nat (v_block v)).
(** sha2.c:566-576 and 856-866 *)
Fixpoint sha2_loop (v : variant) (fuel : nat) (c : sha2_ctx) (data : bytes) : sha2_ctx :=
  match fuel with
  | O => c
  | S fuel =>
      if (v_block v <=? length data)%nat then
        let '(st, buf) := sha2_transform v (c_state c) (firstn (v_block v) data) in
        sha2_loop v fuel (mkSha2 st (v_add v (c_count c) (Z.shiftl (Z.of_nat (v_block v)) 3)) buf) (skipn (v_block v) data)
      else match data with
        | [] => c
        | _ => mkSha2 (c_state c) (v_add v (c_count c) (Z.shiftl (zlen data) 3)) (put (c_buffer c) 0 data)
        end
  end.
(** SHA256_Update, SHA512_Update, sha2.c:533-579 and 823-869 *)
Definition sha2_update (v : variant) (c : sha2_ctx) (data : bytes) : sha2_ctx :=
  match data with
  | [] => c
  | _ =>
      let used := usedspace v c in
      if (0 <? used)%nat then
        let free := (v_block v - used)%nat in
        if (free <=? length data)%nat then
          let b := put (c_buffer c) used (firstn free data) in
          let n := v_add v (c_count c) (Z.shiftl (Z.of_nat free) 3) in
          let '(st, buf) := sha2_transform v (c_state c) b in
          sha2_loop v (S (length data)) (mkSha2 st n buf) (skipn free data)
        else mkSha2 (c_state c) (v_add v (c_count c) (Z.shiftl (zlen data) 3)) (put (c_buffer c) used data)
      else sha2_loop v (S (length data)) c data
  end.
(** SHA256_Final up to the last transform, SHA512_Last, sha2.c:589-623 and 871-910 *)
Definition sha2_last (v : variant) (c : sha2_ctx) : list Z :=
  let used := usedspace v c in
  let '(st, b) :=
    if (0 <? used)%nat then
      let b := put (c_buffer c) used [x80] in
      let used := S used in
      if (used <=? v_short v)%nat then (c_state c, put b used (zeros (v_short v - used)))
      else
        let b := if (used <? v_block v)%nat then put b used (zeros (v_block v - used)) else b in
        let '(st, b) := sha2_transform v (c_state c) b in
        (st, put b 0 (zeros (v_clear v)))
    else (c_state c, put (put (c_buffer c) 0 (zeros (v_short v))) 0 [x80]) in
  let b := put b (v_short v) (v_count v (c_count c)) in
  fst (sha2_transform v st b).
(** SHA256_Final, SHA512_Final, SHA384_Final, sha2.c:625-636, 912-937, 956-981: [n] words are
    reversed and stored *)
Definition sha2_final (v : variant) (n : nat) (c : sha2_ctx) : bytes :=
  concat (map (fun x => le_bytes (v_size v) (v_rev v x)) (firstn n (sha2_last v c))).
(** [context->bitcount += n] and ADDINC128, sha2.c:168-173 *)
Definition add64 (w : Z * Z) (n : Z) : Z * Z := (u64 (fst w + n), snd w).
Definition ADDINC128 (w : Z * Z) (n : Z) : Z * Z :=
  let lo := u64 (fst w + n) in (lo, if lo <? n then u64 (snd w + 1) else snd w).
Definition v256 : variant :=
  mkVariant u32 4 64 56 64 K256 Sigma0_256 Sigma1_256 sigma0_256 sigma1_256 REVERSE32 add64
    (fun w => le_bytes 8 (REVERSE64 (fst w))) 56.
Definition v512 : variant :=
  mkVariant u64 8 128 112 80 K512 Sigma0_512 Sigma1_512 sigma0_512 sigma1_512 REVERSE64 ADDINC128
    (fun w => le_bytes 8 (REVERSE64 (snd w)) ++ le_bytes 8 (REVERSE64 (fst w))) 126.

(** ** SHA-3: lib/sha3.c *)
(** load64, store64, xor64, sha3.c:148-185; [i] is the number of the lane *)
Definition load64 (state : bytes) (i : nat) : Z :=
  fold_left (fun u k => Z.lor (u64 (Z.shiftl u 8)) (bv (nth (8 * i + k) state x00))) [7; 6; 5; 4; 3; 2; 1; 0]%nat 0.
Definition store64 (state : bytes) (i : nat) (u : Z) : bytes := put state (8 * i) (le_bytes 8 u).
Definition xor64 (state : bytes) (i : nat) (u : Z) : bytes :=
  put state (8 * i) (map (fun p => zb (Z.lxor (bv (fst p)) (bv (snd p)))) (combine (firstn 8 (skipn (8 * i) state)) (le_bytes 8 u))).
(** sha3.c:193-204 *)
Definition ROL64 (a offset : Z) : Z := Z.lxor (u64 (Z.shiftl a offset)) (Z.shiftr a (64 - offset)).
Definition lane (x y : nat) : nat := (x + 5 * y)%nat.
Definition readLane (s : bytes) (x y : nat) : Z := load64 s (lane x y).
Definition writeLane (s : bytes) (x y : nat) (u : Z) : bytes := store64 s (lane x y) u.
Definition XORLane (s : bytes) (x y : nat) (u : Z) : bytes := xor64 s (lane x y) u.
(** sha3.c:210-219 *)
Definition LFSR86540 (l : Z) : bool * Z :=
  (negb (Z.land l 1 =? 0), if negb (Z.land l 0x80 =? 0) then Z.lxor (Z.shiftl l 1) 0x71 mod 256 else Z.shiftl l 1 mod 256).
Definition five : list nat := [0; 1; 2; 3; 4]%nat.
(** sha3.c:230-244 *)
Definition theta (s : bytes) : bytes :=
  let C := map (fun x => Z.lxor (Z.lxor (Z.lxor (Z.lxor (readLane s x 0) (readLane s x 1)) (readLane s x 2)) (readLane s x 3)) (readLane s x 4)) five in
  fold_left (fun s x =>
    let D := Z.lxor (wnth C ((x + 4) mod 5)) (ROL64 (wnth C ((x + 1) mod 5)) 1) in
    fold_left (fun s y => XORLane s x y D) five s) five s.
(** sha3.c:246-262 *)
Fixpoint rho_pi (n t x y : nat) (current : Z) (s : bytes) : bytes :=
  match n with
  | O => s
  | S n =>
      let r := (((t + 1) * (t + 2) / 2) mod 64)%nat in
      let Y := ((2 * x + 3 * y) mod 5)%nat in
      let x := y in let y := Y in
      let temp := readLane s x y in
      rho_pi n (S t) x y temp (writeLane s x y (ROL64 current (Z.of_nat r)))
  end.
(** sha3.c:264-274 *)
Definition chi (s : bytes) : bytes :=
  fold_left (fun s y =>
    let temp := map (fun x => readLane s x y) five in
    fold_left (fun s x =>
      writeLane s x y (Z.lxor (wnth temp x) (Z.land (u64 (Z.lnot (wnth temp ((x + 1) mod 5)))) (wnth temp ((x + 2) mod 5))))) five s) five s.
(** sha3.c:276-282 *)
Definition iota (s : bytes) (l : Z) : bytes * Z :=
  fold_left (fun p j => let '(s, l) := p in let '(b, l) := LFSR86540 l in
    (if b : bool then XORLane s 0 0 (Z.shiftl 1 (Z.shiftl 1 j - 1)) else s, l)) [0; 1; 2; 3; 4; 5; 6] (s, l).
(** sha3.c:224-284 *)
Fixpoint keccak_rounds (n : nat) (s : bytes) (l : Z) : bytes :=
  match n with
  | O => s
  | S n =>
      let s := theta s in
      let s := rho_pi 24 0 1 0 (readLane s 1 0) s in
      let s := chi s in
      let '(s, l) := iota s l in
      keccak_rounds n s l
  end.
Definition KeccakF1600_StatePermute (s : bytes) : bytes := keccak_rounds 24 s 1.
(** [state[i] ^= input[i]] for all [i] below the length of the input *)
Definition xor_in (s d : bytes) : bytes :=
  map (fun p => zb (Z.lxor (bv (fst p)) (bv (snd p)))) (combine (firstn (length d) s) d) ++ skipn (length d) s.
(** sha3.c:309-321 *)
Fixpoint absorb (fuel rate : nat) (s input : bytes) (blockSize : nat) : bytes * nat :=
  match fuel with
  | O => (s, blockSize)
  | S fuel =>
      if (0 <? length input)%nat then
        let n := Nat.min (length input) rate in
        let s := xor_in s (firstn n input) in
        if (n =? rate)%nat then absorb fuel rate (KeccakF1600_StatePermute s) (skipn n input) 0
        else absorb fuel rate s (skipn n input) n
      else (s, blockSize)
  end.
Definition xor_at (s : bytes) (i : nat) (b : byte) : bytes := put s i [zb (Z.lxor (bv (nth i s x00)) (bv b))].
(** sha3.c:333-342 *)
Fixpoint squeeze (fuel rate : nat) (s : bytes) (n : nat) : bytes :=
  match fuel with
  | O => []
  | S fuel =>
      if (0 <? n)%nat then
        let k := Nat.min n rate in
        firstn k s ++ (if (0 <? n - k)%nat then squeeze fuel rate (KeccakF1600_StatePermute s) (n - k) else [])
      else []
  end.
(** sha3.c:295-343; the rate and the suffix are constants of the callers and meet the test of
    lines 302-303 *)
Definition Keccak (rate : nat) (input : bytes) (suffix : byte) (n : nat) : bytes :=
  let '(s, bs) := absorb (S (length input)) rate (zeros 200) input 0 in
  let s := xor_at s bs suffix in
  let s := if negb (Z.land (bv suffix) 0x80 =? 0) && (bs =? rate - 1)%nat then KeccakF1600_StatePermute s else s in
  let s := xor_at s (rate - 1) x80 in
  squeeze (S n) rate (KeccakF1600_StatePermute s) n.

(** ** lib/digest.c:37-47, 62-72, 87-97, 112-122, 137-147, 162-166, 179-183 *)
(** [junk]: what is in the buffer of the context, which MD5Init and sha1_init do not set *)
Definition junk64 (junk : bytes) : bytes := firstn 64 (junk ++ zeros 64).
(** MD5Update takes the size as an unsigned, sha1_update as an int: a size of 2^31 or more makes the
    latter negative, which the model leaves out (it then hashes no byte) *)
Definition md5 (junk data : bytes) : bytes := MD5Final (MD5Update (MD5Init (junk64 junk)) (ztake (u32 (zlen data)) data)).
Definition sha1 (junk data : bytes) : bytes := sha1_final (sha1_update (sha1_init (junk64 junk)) (ztake (i32 (zlen data)) data)).
Definition sha256 (data : bytes) : bytes := sha2_final v256 8 (sha2_update v256 (sha2_init v256 sha256_initial_hash_value) data).
Definition sha384 (data : bytes) : bytes := sha2_final v512 6 (sha2_update v512 (sha2_init v512 sha384_initial_hash_value) data).
Definition sha512 (data : bytes) : bytes := sha2_final v512 8 (sha2_update v512 (sha2_init v512 sha512_initial_hash_value) data).
(** FIPS202_SHA3_256 and FIPS202_SHA3_512, sha3.c:113-132; they take the size as an unsigned int *)
Definition sha3_256 (data : bytes) : bytes := Keccak (1088 / 8) (ztake (u32 (zlen data)) data) x06 32.
Definition sha3_512 (data : bytes) : bytes := Keccak (576 / 8) (ztake (u32 (zlen data)) data) x06 64.
(** The hash functions of the library *)
Definition lib_hashes (junk : bytes) : hashes := mkHashes (md5 junk) (sha1 junk) sha256 sha384 sha512 sha3_256 sha3_512.
