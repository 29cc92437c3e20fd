(** Shared vocabulary of the model: outcomes, build profiles and the
    fixed-width integer operations of Rust.

    No file of /repo corresponds to this one: it models the Rust language
    features that /repo relies on (panics, overflow checks, [as] casts). *)
From Coq Require Export ZArith List Bool.
Export ListNotations.
Open Scope Z_scope.

(** An operation either returns normally or panics. Rust [Result]/[Option]
    values that the caller can inspect stay ordinary data ([option],
    [wresult] below); [Panic] is only for unwinding. *)
Inductive res (A : Type) : Type :=
| Ok (a : A)
| Panic.
Arguments Ok {A} a.
Arguments Panic {A}.

Definition bind {A B} (r : res A) (k : A -> res B) : res B :=
  match r with Ok a => k a | Panic => Panic end.

Notation "'do!' x <- e ; k" := (bind e (fun x => k))
  (at level 200, x name, e at level 100, k at level 200, right associativity).
Notation "'do!' ' x <- e ; k" := (bind e (fun x => k))
  (at level 200, x pattern, e at level 100, k at level 200, right associativity).

(** Left-to-right monadic fold. *)
Fixpoint foldM {A B} (f : A -> B -> res A) (l : list B) (a : A) : res A :=
  match l with
  | [] => Ok a
  | b :: l' => do! a' <- f a b ; foldM f l' a'
  end.

(** Unchecked Rust arithmetic ([a + b], [a - b], [a * b] on integers) panics
    on overflow when the crate is built with overflow checks (the default of
    [cargo build]/[cargo test]) and wraps when built without (the default of
    [cargo build --release]). Every model function that uses such an
    operation takes the build profile. *)
Inductive profile := Debug | Release.

Definition checked (p : profile) (modulus v : Z) : res Z :=
  if (0 <=? v) && (v <? modulus) then Ok v
  else match p with Debug => Panic | Release => Ok (v mod modulus) end.

Definition add_u8 (p : profile) (a b : Z) : res Z := checked p 256 (a + b).
Definition sub_u8 (p : profile) (a b : Z) : res Z := checked p 256 (a - b).
Definition mul_u8 (p : profile) (a b : Z) : res Z := checked p 256 (a * b).
Definition add_u16 (p : profile) (a b : Z) : res Z := checked p 65536 (a + b).
Definition sub_u16 (p : profile) (a b : Z) : res Z := checked p 65536 (a - b).

(** [wrapping_add]/[overflowing_add(..).0] and friends, any profile. *)
Definition wrapping_add_u8 (a b : Z) : Z := (a + b) mod 256.
Definition wrapping_sub_u8 (a b : Z) : Z := (a - b) mod 256.
Definition wrapping_add_u16 (a b : Z) : Z := (a + b) mod 65536.
Definition wrapping_sub_u16 (a b : Z) : Z := (a - b) mod 65536.

(** [overflowing_add]/[overflowing_sub] on [u8]. *)
Definition overflowing_add_u8 (a b : Z) : Z * bool := ((a + b) mod 256, 256 <=? a + b).
Definition overflowing_sub_u8 (a b : Z) : Z * bool := ((a - b) mod 256, a - b <? 0).

(** [u16::from_le_bytes] and [u16::to_le_bytes]. *)
Definition u16_from_le_bytes (lo hi : Z) : Z := lo + 256 * hi.
Definition u16_to_le_bytes (v : Z) : Z * Z := (v mod 256, v / 256).

(** [b as u8] for a boolean. *)
Definition bool_as_u8 (b : bool) : Z := if b then 1 else 0.

(** [b as i8] of a byte, and [o as u16] of an [i8] (sign extension). *)
Definition u8_as_i8 (b : Z) : Z := if b <? 128 then b else b - 256.
Definition i8_as_u16 (o : Z) : Z := o mod 65536.

(** Shifts of a [u8] by an amount below 8 (the only amounts used). *)
Definition shl_u8 (v n : Z) : Z := (Z.shiftl v n) mod 256.
Definition shr_u8 (v n : Z) : Z := Z.shiftr v n.

(** Value ranges of the integer types. *)
Definition u8 (v : Z) : Prop := 0 <= v < 256.
Definition u16 (v : Z) : Prop := 0 <= v < 65536.

(** [Result<V, String>] of a write; the message text is not modelled. *)
Inductive wresult := WOk (v : Z) | WErr.

(** Vectors ([Vec<u8>], arrays) are lists; indexing outside panics. *)
Definition vec_get {A} (l : list A) (i : Z) : res A :=
  if i <? 0 then Panic
  else match nth_error l (Z.to_nat i) with Some v => Ok v | None => Panic end.

Fixpoint list_upd {A} (l : list A) (n : nat) (v : A) : list A :=
  match l, n with
  | [], _ => []
  | _ :: l', O => v :: l'
  | x :: l', S n' => x :: list_upd l' n' v
  end.

Definition vec_set {A} (l : list A) (i : Z) (v : A) : res (list A) :=
  if (0 <=? i) && (i <? Z.of_nat (length l)) then Ok (list_upd l (Z.to_nat i) v)
  else Panic.
