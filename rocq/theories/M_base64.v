(** Model of lib/base64.c. *)
From Verif Require Import Bytes.
From Coq Require Import Init.Byte List ZArith Bool.
Import ListNotations.
Open Scope Z_scope.

(** lib/base64.c:39-51, the decoding table [map2], indexed by character - 43. *)
Definition map2 : list Z :=
  [ 0x3e; 0xff; 0xff; 0xff; 0x3f; 0x34; 0x35; 0x36;
    0x37; 0x38; 0x39; 0x3a; 0x3b; 0x3c; 0x3d; 0xff;
    0xff; 0xff; 0xff; 0xff; 0xff; 0xff; 0x00; 0x01;
    0x02; 0x03; 0x04; 0x05; 0x06; 0x07; 0x08; 0x09;
    0x0a; 0x0b; 0x0c; 0x0d; 0x0e; 0x0f; 0x10; 0x11;
    0x12; 0x13; 0x14; 0x15; 0x16; 0x17; 0x18; 0x19;
    0xff; 0xff; 0xff; 0xff; 0xff; 0xff; 0x1a; 0x1b;
    0x1c; 0x1d; 0x1e; 0x1f; 0x20; 0x21; 0x22; 0x23;
    0x24; 0x25; 0x26; 0x27; 0x28; 0x29; 0x2a; 0x2b;
    0x2c; 0x2d; 0x2e; 0x2f; 0x30; 0x31; 0x32; 0x33 ].

(** lib/base64.c:77-82: [unsigned int index = in[i]-43] with [in] a (signed) [char];
    the lookup fails if the index is outside the table or the entry is 0xff.  (A read
    past the table would yield the value 0, which passes for a valid sextet.) *)
Definition map2_lookup (c : byte) : option Z :=
  let index := u32 (bsv c - 43) in
  if index >=? zlen map2 then None
  else let m := nth (Z.to_nat index) map2 0 in
       if m =? 0xff then None else Some m.

(** lib/base64.c:75-86, the loop from position [i] with accumulator [v].
    The result is the list of bytes stored through [dst], and [false] if the loop was
    left by the early [return(-1)].  [v] is an [int] that overflows on long input; the
    model uses the two's complement wrap every supported compiler produces (strictly
    it is UB). *)
Fixpoint b64_decode_go (i : Z) (v : Z) (s : bytes) : bytes * bool :=
  match s with
  | [] => ([], true)
  | c :: r =>
      if beq c x00 || beq c "="%byte then ([], true)
      else match map2_lookup c with
           | None => ([], false)
           | Some m =>
               let v' := i32 (i32 (Z.shiftl v 6) + m) in
               let '(out, ok) := b64_decode_go (i + 1) v' r in
               if Z.land i 3 =? 0 then (out, ok)
               else (zb (Z.shiftr v' (6 - 2 * Z.land i 3)) :: out, ok)
           end
  end.

(** lib/base64.c:59-92, [b64_decode].  The end of the list stands for the
    terminating NUL.  The return value is the length of the result, -1 is [None]. *)
Definition b64_decode (s : bytes) : option bytes :=
  let '(out, ok) := b64_decode_go 0 0 s in if ok then Some out else None.

(** All bytes the call stores into its output buffer, in order, including those stored
    before an error return and the terminating NUL (line 89). *)
Definition b64_decode_stores (s : bytes) : bytes :=
  let '(out, ok) := b64_decode_go 0 0 s in if ok then out ++ [x00] else out.

(** lib/base64.c:103-104. *)
Definition b64_alphabet : bytes :=
  $ "ABCDEFGHIJKLMNOPQRSTUVWXYZabcdefghijklmnopqrstuvwxyz0123456789+/".

(** lib/base64.c:117-120, the inner do/while; [last] is [bytes_remaining == 0].
    Returns the characters emitted and the final [i_shift]. The fuel is never
    exhausted because [i_shift] decreases by 6 each round. *)
Fixpoint b64_emit (fuel : nat) (i_bits i_shift : Z) (last : bool) : bytes * Z :=
  match fuel with
  | O => ([], i_shift)
  | S f =>
      let c := nth (Z.to_nat (Z.land (Z.shiftr (u32 (Z.shiftl i_bits 6)) i_shift) 0x3f))
                   b64_alphabet x00 in
      let i_shift' := i_shift - 6 in
      if (i_shift' >? 6) || (last && (i_shift' >? 0))
      then let '(cs, sh) := b64_emit f i_bits i_shift' last in (c :: cs, sh)
      else ([c], i_shift')
  end.

(** lib/base64.c:112-121, the outer loop. *)
Fixpoint b64_encode_go (i_bits i_shift : Z) (l : bytes) : bytes :=
  match l with
  | [] => []
  | b :: r =>
      let i_bits' := u32 (u32 (Z.shiftl i_bits 8) + bv b) in
      let last := match r with [] => true | _ => false end in
      let '(cs, sh) := b64_emit 8 i_bits' (i_shift + 8) last in
      cs ++ b64_encode_go i_bits' sh r
  end.

(** lib/base64.c:122-123: pad with '=' to a multiple of four. *)
Definition b64_pad (s : bytes) : bytes :=
  s ++ repeat "="%byte (Z.to_nat ((4 - zlen s mod 4) mod 4)).

(** lib/base64.c:100-129, [b64_encode]. *)
Definition b64_encode (l : bytes) : bytes := b64_pad (b64_encode_go 0 0 l).

(** lib/base64.c:134-141, [strip_b64_eq]: cut at the first '='. *)
Fixpoint strip_b64_eq (s : bytes) : bytes :=
  match s with
  | [] => []
  | c :: r => if beq c "="%byte then [] else c :: strip_b64_eq r
  end.
