(** Base: integers, byte strings and bounds-checked memory ranges.
    All C scalars are modelled by [Z]; every place where the C code can wrap is
    written with one of the explicit wraps below. *)
From Coq Require Export ZArith List Bool Lia.
From Coq Require Export ZifyBool.
Export ListNotations.
Open Scope Z_scope.
Open Scope list_scope.
Open Scope bool_scope.

(** size_t on the LP64 targets the library is built for. *)
Definition w64 (x : Z) : Z := x mod 2 ^ 64.
(** uint32_t *)
Definition w32 (x : Z) : Z := x mod 2 ^ 32.
(** uint16_t *)
Definition w16 (x : Z) : Z := x mod 2 ^ 16.
(** uint8_t *)
Definition w8 (x : Z) : Z := x mod 2 ^ 8.

(** errno values (asm-generic/errno-base.h, errno.h on Linux); the code returns
    their negations. *)
Definition EIO : Z := 5.
Definition ENXIO : Z := 6.
Definition ENOMEM : Z := 12.
Definition EBUSY : Z := 16.
Definition EINVAL : Z := 22.
Definition EMSGSIZE : Z := 90.
Definition EHOSTDOWN : Z := 112.

(** Contents of memory that was allocated but never written. It is not a byte,
    so a theorem that says a delivered byte string consists of bytes also says
    that no uninitialised memory was delivered. *)
Definition poison : Z := -1.

Definition zlen {A} (l : list A) : Z := Z.of_nat (length l).

(** [rd l off len]: the [len] bytes at [off], or [None] if any of them lies
    outside the object. *)
Definition rd (l : list Z) (off len : Z) : option (list Z) :=
  if (0 <=? off) && (0 <=? len) && (off + len <=? zlen l)
  then Some (firstn (Z.to_nat len) (skipn (Z.to_nat off) l))
  else None.

(** [wr l off bs]: overwrite the bytes at [off] by [bs], or [None] if that
    leaves the object. *)
Definition wr (l : list Z) (off : Z) (bs : list Z) : option (list Z) :=
  if (0 <=? off) && (off + zlen bs <=? zlen l)
  then Some (firstn (Z.to_nat off) l ++ bs
             ++ skipn (Z.to_nat off + length bs) l)
  else None.

Definition is_byte (b : Z) : Prop := 0 <= b < 256.

(** Big-endian encodings, as produced by htobe32/htobe16 and stored in memory. *)
Definition be32 (v : Z) : list Z :=
  [ (v / 2 ^ 24) mod 256; (v / 2 ^ 16) mod 256; (v / 2 ^ 8) mod 256; v mod 256 ].
Definition be16 (v : Z) : list Z := [ (v / 2 ^ 8) mod 256; v mod 256 ].
(** be32toh/be16toh of the bytes found in memory. *)
Definition unbe32 (l : list Z) : Z :=
  match l with
  | [a; b; c; d] => a * 2 ^ 24 + b * 2 ^ 16 + c * 2 ^ 8 + d
  | _ => 0
  end.
Definition unbe16 (l : list Z) : Z :=
  match l with
  | [a; b] => a * 2 ^ 8 + b
  | _ => 0
  end.
