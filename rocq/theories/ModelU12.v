(** Model of src/cpu/chip8/u12.rs: the 12-bit unsigned integer.

    A [u12] value is modelled by its private [u16] field (u12.rs:4), as a [Z].
    The formatting traits (u12.rs:48-82) are in ModelText.v. *)
From Verif Require Import Base.

(** src/cpu/chip8/u12.rs:8, 10 and 12: [MAX], [MIN] and [BITS]. *)
Definition u12_max : Z := 0xFFF.
(** src/cpu/chip8/u12.rs:10, [MIN]. *)
Definition u12_min : Z := 0x000.
(** src/cpu/chip8/u12.rs:12, [BITS]. *)
Definition u12_bits : Z := 12.

(** src/cpu/chip8/u12.rs:198-202, [mask] of a [u16]. *)
Definition u16_mask (v : Z) : Z := Z.land v u12_max.

(** src/cpu/chip8/u12.rs:27-33, [u12::new]. *)
Definition u12_new (value : Z) : res Z := if u12_max <? value then Panic else Ok value.

(** src/cpu/chip8/u12.rs:192-196, [mask] of a [u12]. *)
Definition u12_mask (v : Z) : res Z := u12_new (u16_mask v).

(** src/cpu/chip8/u12.rs:178-186, [From<[u8; 3]>]. The shift [<< 4] of a
    masked byte cannot lose bits; [from_be_bytes([msb, lsb])] is
    [256 * msb + lsb]. *)
Definition u12_from_array (a b c : Z) : res Z :=
  let msb := Z.land a 0x0f in
  let lsb := Z.lor (shl_u8 (Z.land b 0x0f) 4) (Z.land c 0x0f) in
  u12_new (u16_from_le_bytes lsb msb).

(** src/cpu/chip8/u12.rs:19-22, [from_be_nibbles]. *)
Definition u12_from_be_nibbles (a b c : Z) : res Z :=
  u12_from_array (Z.land a 0x0f) (Z.land b 0x0f) (Z.land c 0x0f).

(** src/cpu/chip8/u12.rs:35-39, [wrapping_add]. *)
Definition u12_wrapping_add (a b : Z) : res Z := u12_new (u16_mask (wrapping_add_u16 a b)).

(** src/cpu/chip8/u12.rs:41-45, [wrapping_sub]. *)
Definition u12_wrapping_sub (a b : Z) : res Z := u12_new (u16_mask (wrapping_sub_u16 a b)).

(** src/cpu/chip8/u12.rs:84-88, [PartialEq::eq]. *)
Definition u12_eq (a b : Z) : bool := u16_mask a =? u16_mask b.

(** src/cpu/chip8/u12.rs:92-102, [Ord::cmp] and [PartialOrd::partial_cmp]
    (which is always [Some] of it). *)
Definition u12_cmp (a b : Z) : comparison := Z.compare (u16_mask a) (u16_mask b).

(** src/cpu/chip8/u12.rs:104-117, [Add::add]; [lhs + rhs] is unchecked. *)
Definition u12_add (p : profile) (a b : Z) : res Z :=
  do! sum <- add_u16 p a b ;
  if u12_max <? sum then Panic else u12_new sum.

(** src/cpu/chip8/u12.rs:119-126, [Sub::sub]; [lhs - rhs] is unchecked. *)
Definition u12_sub (p : profile) (a b : Z) : res Z :=
  do! d <- sub_u16 p a b ; u12_mask d.

(** src/cpu/chip8/u12.rs:128-135, [BitAnd]. *)
Definition u12_and (a b : Z) : res Z := u12_mask (Z.land a b).

(** src/cpu/chip8/u12.rs:137-144, [BitOr]. *)
Definition u12_or (a b : Z) : res Z := u12_mask (Z.lor a b).

(** Shift amount of [u16 << u16] / [u16 >> u16]: an amount of 16 or more
    panics with overflow checks and is reduced modulo 16 without.
    src/cpu/chip8/u12.rs:151, 160. *)
Definition shift_amount_u16 (p : profile) (n : Z) : res Z :=
  if n <? 16 then Ok n else match p with Debug => Panic | Release => Ok (n mod 16) end.

(** src/cpu/chip8/u12.rs:146-153, [Shl]. *)
Definition u12_shl (p : profile) (a b : Z) : res Z :=
  do! n <- shift_amount_u16 p b ; u12_mask ((Z.shiftl a n) mod 65536).

(** src/cpu/chip8/u12.rs:155-162, [Shr]. *)
Definition u12_shr (p : profile) (a b : Z) : res Z :=
  do! n <- shift_amount_u16 p b ; u12_mask (Z.shiftr a n).

(** src/cpu/chip8/u12.rs:164-176, [From<u12>] for [u16], [u32], [u64] and
    [u128]: widening casts of the field. *)
Definition u12_into (a : Z) : Z := a.
