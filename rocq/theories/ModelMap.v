(** Model of src/address_map: devices, memories, the address map, pages. *)
From Verif Require Import Base.

(** src/address_map/mod.rs:34-42, trait [Addressable<u16, u8>].
    [dev_read] may panic; [dev_write] returns the changed device together
    with the [Result] handed to the caller, or panics.
    Simplification: a read takes [&self], so a device is modelled as having no
    interior mutability (reading does not change it). [clone_box]
    (mod.rs:44-66) is the identity because model values are immutable. *)
Class Device (D : Type) := {
  dev_read : profile -> D -> Z -> res Z;
  dev_write : profile -> D -> Z -> Z -> res (D * wresult)
}.

(** src/address_map/memory.rs:18-26, the phantom type of a [Memory]. *)
Inductive mem_type := ReadWrite | ReadOnly.

(** src/address_map/memory.rs:28-36, struct [Memory<T, u16, u8>]. *)
Record memory := mkMemory {
  mem_kind : mem_type;
  start_address : Z;
  stop_address : Z;
  mem_inner : list Z
}.

(** src/address_map/memory.rs:45-57, [Memory::new].
    The length [stop - start + 1] is computed in [usize]. If [stop < start]
    a debug build panics; a release build wraps: the length is 0 when
    [start = stop + 1] and otherwise at least 2^64 - 65535, for which
    [Vec::resize] panics with a capacity overflow (64-bit targets). *)
Definition memory_new (p : profile) (k : mem_type) (start stop : Z) : res memory :=
  if start <=? stop then
    Ok (mkMemory k start stop (repeat 0 (Z.to_nat (stop - start + 1))))
  else match p with
       | Debug => Panic
       | Release => if start =? stop + 1 then Ok (mkMemory k start stop []) else Panic
       end.

(** src/address_map/memory.rs:60-62, [Memory::dump]. *)
Definition memory_dump (m : memory) : list Z := mem_inner m.

(** src/address_map/memory.rs:66-73, [Memory::load]. *)
Definition memory_load (m : memory) (data : list Z) : memory :=
  mkMemory (mem_kind m) (start_address m) (stop_address m) data.

(** src/address_map/memory.rs:79-82 and 95-98, [read] (identical bodies). *)
Definition memory_read (p : profile) (m : memory) (addr : Z) : res Z :=
  do! addr_offset <- sub_u16 p addr (start_address m) ;
  vec_get (mem_inner m) addr_offset.

(** src/address_map/memory.rs:86-90 (read-write) and 102-104 (read-only). *)
Definition memory_write (p : profile) (m : memory) (addr value : Z) : res (memory * wresult) :=
  match mem_kind m with
  | ReadWrite =>
      do! addr_offset <- sub_u16 p addr (start_address m) ;
      do! inner <- vec_set (mem_inner m) addr_offset value ;
      Ok (mkMemory (mem_kind m) (start_address m) (stop_address m) inner, WOk value)
  | ReadOnly => Ok (m, WErr)
  end.

(** src/address_map/memory.rs:76-105, the two [Addressable] impls. *)
#[export] Instance memory_device : Device memory := {
  dev_read := memory_read;
  dev_write := memory_write
}.

(** One key/value pair of the [HashMap] of src/address_map/mod.rs:77:
    the key [lo..=hi] and the device. *)
Record entry (D : Type) := mkEntry { range_lo : Z; range_hi : Z; device : D }.
Arguments mkEntry {D}.
Arguments range_lo {D}.
Arguments range_hi {D}.
Arguments device {D}.

(** src/address_map/mod.rs:72-78, struct [AddressMap]. The list order stands
    for the (unspecified) iteration order of the [HashMap]; theorems either
    quantify over all orders or are proved independent of it. *)
Definition address_map (D : Type) := list (entry D).

(** [RangeInclusive::contains] for a key. Simplification: the key is a range
    that was not used up by iteration before it was registered; ModelRange.v
    has the general case. src/address_map/mod.rs:110, 136, 147. *)
Definition key_contains {D} (e : entry D) (addr : Z) : bool :=
  (range_lo e <=? addr) && (addr <=? range_hi e).

(** src/address_map/mod.rs:94-98, [AddressMap::new]. *)
Definition am_new {D} : address_map D := [].

(** [HashMap::insert]: replaces the value of an equal key, otherwise adds.
    src/address_map/mod.rs:121. *)
Definition hm_insert {D} (m : address_map D) (lo hi : Z) (d : D) : address_map D :=
  mkEntry lo hi d
    :: filter (fun e => negb ((range_lo e =? lo) && (range_hi e =? hi))) m.

(** src/address_map/mod.rs:102-124, [AddressMap::register]. [None] is
    [Err(..)]; the message text is in ModelText.v. *)
Definition am_register {D} (m : address_map D) (lo hi : Z) (d : D) : option (address_map D) :=
  if existsb (fun e => key_contains e lo || key_contains e hi) m then None
  else Some (hm_insert m lo hi d).

Section AddressMap.
Context {D : Type} `{Device D}.

(** src/address_map/mod.rs:133-140, [AddressMap::read]. *)
Fixpoint am_read (p : profile) (m : address_map D) (addr : Z) : res Z :=
  match m with
  | [] => Ok 0
  | e :: m' => if key_contains e addr then dev_read p (device e) addr else am_read p m' addr
  end.

(** src/address_map/mod.rs:143-155, [AddressMap::write]. *)
Fixpoint am_write (p : profile) (m : address_map D) (addr value : Z)
  : res (address_map D * wresult) :=
  match m with
  | [] => Ok ([], WErr)
  | e :: m' =>
      if key_contains e addr then
        do! ' (d', r) <- dev_write p (device e) addr value ;
        Ok (mkEntry (range_lo e) (range_hi e) d' :: m', r)
      else
        do! ' (m'', r) <- am_write p m' addr value ;
        Ok (e :: m'', r)
  end.

(** src/address_map/mod.rs:127-156: an address map is itself [Addressable]. *)
#[export] Instance am_device : Device (address_map D) := {
  dev_read := am_read;
  dev_write := am_write
}.

(** src/address_map/mod.rs:17-30, [SafeAddressable::write]: unwraps the
    result of [write]. *)
Definition safe_write (p : profile) (d : D) (addr value : Z) : res (D * Z) :=
  do! ' (d', r) <- dev_write p d addr value ;
  match r with WOk v => Ok (d', v) | WErr => Panic end.
End AddressMap.

(** src/address_map/page.rs:3-8, struct [Page<u16>]: an inclusive range. *)
Record page := mkPage { page_lo : Z; page_hi : Z }.

(** src/address_map/page.rs:16-18, [Page::new]. *)
Definition page_new (start stop : Z) : page := mkPage start stop.

(** src/address_map/page.rs:21-23, [Page::contains]. *)
Definition page_contains (pg : page) (addr : Z) : bool :=
  (page_lo pg <=? addr) && (addr <=? page_hi pg).

(** src/address_map/page.rs:26-31, [From<u8> for Page<u16>]. *)
Definition page_from_u8 (addr : Z) : page := mkPage 0x00 0xff.

(** src/address_map/page.rs:33-43, [From<u16> for Page<u16>]. *)
Definition page_from_u16 (p : profile) (addr : Z) : res page :=
  do! modulus <- add_u16 p 0xff 1 ;
  do! rest <- sub_u16 p 0xff (addr mod modulus) ;
  do! upper <- add_u16 p addr rest ;
  do! lower <- sub_u16 p upper 0xff ;
  Ok (mkPage lower upper).
