(** Model of the generic types of src/address_map and of src/cpu/chip8/memory.rs,
    for every address type, value type and device type. ModelMap.v and
    ModelChip8.v have the instances the two processors use. *)
From Verif Require Import Base.

(** src/address_map/mod.rs:34-42, trait [Addressable<O, V>]. As in ModelMap.v a
    read does not change the device; the [Err] of a write is [None], without
    its text. *)
Record addressable (O V D : Type) := mkAddressable {
  a_read : D -> O -> res V;
  a_write : D -> O -> V -> res (D * option V) }.
Arguments mkAddressable {O V D}.
Arguments a_read {O V D}.
Arguments a_write {O V D}.

(** What an address map needs of the address type: [PartialOrd::le] and
    [Eq::eq]. The bounds of src/address_map/mod.rs:92, 129. *)
Record address_type (O : Type) := mkAddressType { o_le : O -> O -> bool; o_eq : O -> O -> bool }.
Arguments mkAddressType {O}.
Arguments o_le {O}.
Arguments o_eq {O}.

(** One key and value of the [HashMap] of src/address_map/mod.rs:77. *)
Record slot (O D : Type) := mkSlot { s_lo : O; s_hi : O; s_device : D }.
Arguments mkSlot {O D}.
Arguments s_lo {O D}.
Arguments s_hi {O D}.
Arguments s_device {O D}.
(** src/address_map/mod.rs:72-78; the order of the list is the iteration order. *)
Definition gmap (O D : Type) := list (slot O D).

Section Map.
Context {O V D : Type} (ty : address_type O) (default : V) (dev : addressable O V D).

(** [RangeInclusive::contains]: [start <= x && x <= end].
    src/address_map/mod.rs:110, 136, 147. *)
Definition slot_contains (s : slot O D) (a : O) : bool := o_le ty (s_lo s) a && o_le ty a (s_hi s).

(** src/address_map/mod.rs:94-98, [AddressMap::new]. *)
Definition g_new : gmap O D := [].

(** [HashMap::insert]. src/address_map/mod.rs:121. *)
Definition g_insert (m : gmap O D) (lo hi : O) (d : D) : gmap O D :=
  mkSlot lo hi d :: filter (fun s => negb (o_eq ty (s_lo s) lo && o_eq ty (s_hi s) hi)) m.

(** src/address_map/mod.rs:102-124, [AddressMap::register]. *)
Definition g_register (m : gmap O D) (lo hi : O) (d : D) : option (gmap O D) :=
  if existsb (fun s => slot_contains s lo || slot_contains s hi) m then None
  else Some (g_insert m lo hi d).

(** src/address_map/mod.rs:133-140, [AddressMap::read]. *)
Fixpoint g_read (m : gmap O D) (a : O) : res V :=
  match m with
  | [] => Ok default
  | s :: m' => if slot_contains s a then a_read dev (s_device s) a else g_read m' a
  end.

(** src/address_map/mod.rs:143-155, [AddressMap::write]. *)
Fixpoint g_write (m : gmap O D) (a : O) (v : V) : res (gmap O D * option V) :=
  match m with
  | [] => Ok ([], None)
  | s :: m' =>
      if slot_contains s a then
        do! ' (d', r) <- a_write dev (s_device s) a v ;
        Ok (mkSlot (s_lo s) (s_hi s) d' :: m', r)
      else
        do! ' (m'', r) <- g_write m' a v ;
        Ok (s :: m'', r)
  end.

(** src/address_map/mod.rs:127-156: a map is a device. *)
Definition g_device : addressable O V (gmap O D) := mkAddressable g_read g_write.
End Map.

(** src/cpu/chip8/memory.rs:3-17, [Ring<T>] and [Ring::new]. *)
Record gring (T : Type) := mkGring { gr_capacity : Z; gr_inner : list T }.
Arguments mkGring {T}.
Arguments gr_capacity {T}.
Arguments gr_inner {T}.
Section Ring.
Context {T : Type} (default : T).
(** src/cpu/chip8/memory.rs:13-16, [Ring::new]. *)
Definition gring_new (capacity : nat) : gring T := mkGring (Z.of_nat capacity) (repeat default capacity).

(** src/cpu/chip8/memory.rs:23-29, [read]; [%] panics on a capacity of 0. *)
Definition gring_read (r : gring T) (offset : Z) : res T :=
  if gr_capacity r =? 0 then Panic
  else Ok (match nth_error (gr_inner r) (Z.to_nat (offset mod gr_capacity r)) with Some v => v | None => default end).

(** src/cpu/chip8/memory.rs:31-41, [write]. *)
Definition gring_write (r : gring T) (offset : Z) (data : T) : res (gring T * option T) :=
  if gr_capacity r =? 0 then Panic
  else if offset mod gr_capacity r <? Z.of_nat (length (gr_inner r))
       then Ok (mkGring (gr_capacity r) (list_upd (gr_inner r) (Z.to_nat (offset mod gr_capacity r)) data), Some data)
       else Ok (r, None).

(** src/cpu/chip8/memory.rs:19-42, [Addressable<usize, T> for Ring<T>]. *)
Definition gring_device : addressable Z T (gring T) := mkAddressable gring_read gring_write.
End Ring.

(** [usize] as an address type. src/cpu/chip8/memory.rs:19. *)
Definition usize_address : address_type Z := mkAddressType Z.leb Z.eqb.

(** src/address_map/memory.rs:28-73, [Memory<T, O, V>]: struct, [new], [dump]
    and [load] for every [O] and [V]; [into] is [Into<usize>]. [new] as in
    ModelMap.v: a length that does not fit panics. *)
Record gmemory (O V : Type) := mkGmemory { gm_start : O; gm_stop : O; gm_inner : list V }.
Arguments mkGmemory {O V}.
Arguments gm_start {O V}.
Arguments gm_stop {O V}.
Arguments gm_inner {O V}.
Section Memory.
Context {O V : Type} (into : O -> Z) (default : V).
(** src/address_map/memory.rs:45-57, [Memory::new]. *)
Definition gmemory_new (p : profile) (start stop : O) : res (gmemory O V) :=
  if into start <=? into stop then
    Ok (mkGmemory start stop (repeat default (Z.to_nat (into stop - into start + 1))))
  else match p with
       | Debug => Panic
       | Release => if into start =? into stop + 1 then Ok (mkGmemory start stop []) else Panic
       end.
(** src/address_map/memory.rs:60-62, [dump]. *)
Definition gmemory_dump (m : gmemory O V) : list V := gm_inner m.
(** src/address_map/memory.rs:66-73, [load]. *)
Definition gmemory_load (m : gmemory O V) (data : list V) : gmemory O V :=
  mkGmemory (gm_start m) (gm_stop m) data.
End Memory.
