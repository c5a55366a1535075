(** Bytes, C strings and machine-integer helpers shared by the whole model.
    Nothing here is specific to fwknop. *)
From Coq Require Import Init.Byte List ZArith NArith Lia Bool String Ascii.
From Coq Require Export ZifyBool ZifyNat ZifyN.
Export String.StringSyntax.
Export Coq.Strings.Byte.ByteNotations.
Import ListNotations.
Open Scope Z_scope.

Notation byte := Init.Byte.byte.
Notation bytes := (list byte).

(** Numeric value of a byte, as C's [unsigned char]. *)
Definition bv (b : byte) : Z := Z.of_N (Byte.to_N b).

(** Conversion of an integer to [unsigned char] (reduction modulo 256). *)
Definition zb (z : Z) : byte :=
  match Byte.of_N (Z.to_N (z mod 256)) with
  | Some b => b
  | None => x00
  end.

(** Numeric value of a byte as C's [signed char] (x86: [char] is signed). *)
Definition bsv (b : byte) : Z := if bv b <? 128 then bv b else bv b - 256.

(** Readable string constants: [$ "abc"]. *)
Definition str (s : string) : bytes := list_byte_of_string s.
Notation "$ s" := (str s%string) (at level 0, s at level 0, only parsing).

Definition beq (a b : byte) : bool := Byte.eqb a b.

Fixpoint bseq (a b : bytes) : bool :=
  match a, b with
  | [], [] => true
  | x :: a', y :: b' => beq x y && bseq a' b'
  | _, _ => false
  end.

(** Length as an integer. *)
Definition zlen {A} (l : list A) : Z := Z.of_nat (List.length l).

(** The C string stored at the front of a buffer: everything before the first NUL. *)
Fixpoint cstr (l : bytes) : bytes :=
  match l with
  | [] => []
  | b :: r => if beq b x00 then [] else b :: cstr r
  end.

Definition no_nul (l : bytes) : Prop := ~ In x00 l.
Definition no_nulb (l : bytes) : bool := forallb (fun b => negb (beq b x00)) l.

(** [strchr]: index of the first occurrence. *)
Fixpoint index_of (c : byte) (l : bytes) : option nat :=
  match l with
  | [] => None
  | b :: r => if beq b c then Some O
              else match index_of c r with Some i => Some (S i) | None => None end
  end.

Definition memb (c : byte) (l : bytes) : bool := existsb (beq c) l.

(** C's [ctype.h] classes in the "C" locale. *)
Definition isdigit (b : byte) : bool := (48 <=? bv b) && (bv b <=? 57).
Definition isupper (b : byte) : bool := (65 <=? bv b) && (bv b <=? 90).
Definition islower (b : byte) : bool := (97 <=? bv b) && (bv b <=? 122).
Definition isalpha (b : byte) : bool := isupper b || islower b.
Definition isalnum (b : byte) : bool := isalpha b || isdigit b.
Definition isspace (b : byte) : bool := (bv b =? 32) || ((9 <=? bv b) && (bv b <=? 13)).
Definition isprint (b : byte) : bool := (32 <=? bv b) && (bv b <=? 126).
Definition tolower (b : byte) : byte := if isupper b then zb (bv b + 32) else b.

(** Fixed-width integers: [int] (32 bit two's complement), [unsigned],
    [unsigned short], [long] (64 bit). *)
Definition i32 (z : Z) : Z := (z + 2147483648) mod 4294967296 - 2147483648.
Definition u32 (z : Z) : Z := z mod 4294967296.
Definition u16 (z : Z) : Z := z mod 65536.
Definition i64 (z : Z) : Z :=
  (z + 9223372036854775808) mod 18446744073709551616 - 9223372036854775808.

(** [firstn]/[skipn] with an integer count. *)
Definition ztake {A} (n : Z) (l : list A) : list A := firstn (Z.to_nat n) l.
Definition zdrop {A} (n : Z) (l : list A) : list A := skipn (Z.to_nat n) l.

Fixpoint is_prefix (p l : bytes) : bool :=
  match p, l with
  | [], _ => true
  | x :: p', y :: l' => beq x y && is_prefix p' l'
  | _ :: _, [] => false
  end.

Arguments zlen : simpl never.
Arguments bv : simpl never.
Arguments zb : simpl never.
Arguments ztake : simpl never.
Arguments zdrop : simpl never.
Arguments beq : simpl never.
Arguments i32 : simpl never.
Arguments u32 : simpl never.
Arguments u16 : simpl never.
Arguments i64 : simpl never.
