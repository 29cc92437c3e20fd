(** Address maps whose keys may be ranges that were iterated before they were
    handed to [register]. ModelMap.v leaves this case out: there a key is just
    its two ends. *)
From Verif Require Import Base ModelMap.

(** std::ops::RangeInclusive<u16>, the key type of src/address_map/mod.rs:77:
    [start], [end] and the flag that iteration sets when it delivers the last
    item. [==] and [Hash] compare all three. (Standard library, not /repo.) *)
Record range := mkRange { rg_start : Z; rg_end : Z; rg_exhausted : bool }.

(** [lo..=hi]. The key of src/address_map/mod.rs:104. *)
Definition range_new (lo hi : Z) : range := mkRange lo hi false.

(** [RangeInclusive::contains]: an exhausted range excludes its end. Called
    in src/address_map/mod.rs:110, 136, 147. *)
Definition range_contains (r : range) (a : Z) : bool :=
  (rg_start r <=? a) && (if rg_exhausted r then a <? rg_end r else a <=? rg_end r).

(** [==] on keys, used by the [HashMap] of src/address_map/mod.rs:77. *)
Definition range_eq (r s : range) : bool :=
  (rg_start r =? rg_start s) && (rg_end r =? rg_end s) && Bool.eqb (rg_exhausted r) (rg_exhausted s).

(** [RangeInclusive::is_empty]. Standard library, for ranges handed to
    src/address_map/mod.rs:104. *)
Definition range_is_empty (r : range) : bool := rg_exhausted r || negb (rg_start r <=? rg_end r).

(** [Iterator::next] and [DoubleEndedIterator::next_back]. Standard library,
    for ranges handed to src/address_map/mod.rs:104. *)
Definition range_next (r : range) : option Z * range :=
  if range_is_empty r then (None, r)
  else if rg_start r <? rg_end r
       then (Some (rg_start r), mkRange (rg_start r + 1) (rg_end r) (rg_exhausted r))
       else (Some (rg_start r), mkRange (rg_start r) (rg_end r) true).
(** Standard library, for ranges handed to src/address_map/mod.rs:104. *)
Definition range_next_back (r : range) : option Z * range :=
  if range_is_empty r then (None, r)
  else if rg_start r <? rg_end r
       then (Some (rg_end r), mkRange (rg_start r) (rg_end r - 1) (rg_exhausted r))
       else (Some (rg_end r), mkRange (rg_start r) (rg_end r) true).

(** src/address_map/mod.rs:72-78 with such keys. *)
Record rentry (D : Type) := mkREntry { re_key : range; re_device : D }.
Arguments mkREntry {D}.
Arguments re_key {D}.
Arguments re_device {D}.
(** src/address_map/mod.rs:72-78. *)
Definition range_map (D : Type) := list (rentry D).

(** src/address_map/mod.rs:102-124, [register]: [key.contains(range.start()) ||
    key.contains(range.end())] for any key refuses; [insert] replaces the value
    of an equal key. *)
Definition rm_insert {D} (m : range_map D) (r : range) (d : D) : range_map D :=
  mkREntry r d :: filter (fun e => negb (range_eq (re_key e) r)) m.
(** src/address_map/mod.rs:102-124, [AddressMap::register]. *)
Definition rm_register {D} (m : range_map D) (r : range) (d : D) : option (range_map D) :=
  if existsb (fun e => range_contains (re_key e) (rg_start r) || range_contains (re_key e) (rg_end r)) m then None
  else Some (rm_insert m r d).

Section RangeMap.
Context {D : Type} `{Device D}.

(** src/address_map/mod.rs:133-140. *)
Fixpoint rm_read (p : profile) (m : range_map D) (addr : Z) : res Z :=
  match m with
  | [] => Ok 0
  | e :: m' => if range_contains (re_key e) addr then dev_read p (re_device e) addr else rm_read p m' addr
  end.

(** src/address_map/mod.rs:143-155. *)
Fixpoint rm_write (p : profile) (m : range_map D) (addr value : Z) : res (range_map D * wresult) :=
  match m with
  | [] => Ok ([], WErr)
  | e :: m' =>
      if range_contains (re_key e) addr then
        do! ' (d', r) <- dev_write p (re_device e) addr value ;
        Ok (mkREntry (re_key e) d' :: m', r)
      else
        do! ' (m'', r) <- rm_write p m' addr value ;
        Ok (e :: m'', r)
  end.
End RangeMap.
