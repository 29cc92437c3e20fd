(** Vocabulary for the address-map properties: which device an address
    belongs to, disjoint maps, the array a RAM should behave like. Written
    without the functions of ModelMap.v, except for the two drivers at the end
    that issue a list of API calls. *)
From Verif Require Import Base ModelMap.
From Coq Require Import Permutation.

Section SpecMap.
Context {D : Type}.

(** The entry [e] covers address [a]. *)
Definition covers (e : entry D) (a : Z) : Prop := range_lo e <= a <= range_hi e.

(** No registered range covers [a]. *)
Definition unmapped (m : address_map D) (a : Z) : Prop := forall e, In e m -> ~ covers e a.

(** No address is covered by two different registrations. *)
Definition disjoint (m : address_map D) : Prop :=
  forall i j e f a, nth_error m i = Some e -> nth_error m j = Some f ->
    covers e a -> covers f a -> i = j.

(** Two outcomes of a write that a user cannot tell apart: both panic, or both
    return the same result and leave the same set of (range, device) entries. *)
Definition same_write (r1 r2 : res (address_map D * wresult)) : Prop :=
  match r1, r2 with
  | Panic, Panic => True
  | Ok (m1, w1), Ok (m2, w2) => Permutation m1 m2 /\ w1 = w2
  | _, _ => False
  end.

(** A registration request. *)
Record request := mkRequest { req_lo : Z; req_hi : Z; req_device : D }.

(** The new range strictly encloses an old, non-empty one. *)
Definition encloses (lo hi lo' hi' : Z) : Prop := lo < lo' /\ lo' <= hi' /\ hi' < hi.

(** Registered ranges, without the devices. *)
Definition layout (m : address_map D) : list (Z * Z) :=
  map (fun e => (range_lo e, range_hi e)) m.

(** A device that refuses every write and is not changed by it. *)
Definition refuses_writes `{Device D} (d : D) : Prop :=
  forall p a v, dev_write p d a v = Ok (d, WErr).
End SpecMap.
Arguments request : clear implicits.

(** Everything about a map of memories but the byte contents: ranges, kinds,
    bounds and sizes. *)
Definition regions (m : address_map memory) :=
  map (fun e => (range_lo e, range_hi e, mem_kind (device e), start_address (device e),
                 stop_address (device e), length (mem_inner (device e)))) m.

(** Accesses to a memory and what they return. *)
Inductive access := RdA (addr : Z) | WrA (addr value : Z).
Definition access_addr (x : access) : Z := match x with RdA a => a | WrA a _ => a end.

(** An ideal array of bytes: reading returns the cell, writing replaces one
    cell and returns the written value. *)
Fixpoint array_run (f : Z -> Z) (l : list access) : list Z :=
  match l with
  | [] => []
  | RdA a :: l' => f a :: array_run f l'
  | WrA a v :: l' => v :: array_run (fun b => if b =? a then v else f b) l'
  end.

(** ** Drivers: sequences of API calls *)

(** Registering a list of requests in order; [None] as soon as one is refused. *)
Fixpoint register_all {D} (m : address_map D) (l : list (request D)) : option (address_map D) :=
  match l with
  | [] => Some m
  | q :: l' =>
      match am_register m (req_lo q) (req_hi q) (req_device q) with
      | Some m' => register_all m' l'
      | None => None
      end
  end.

(** Run a history of accesses on a device and collect what they return. A
    write reports the value of its [Ok], a refused write stops ([Panic]). *)
Fixpoint device_run {D} `{Device D} (p : profile) (d : D) (l : list access) : res (list Z) :=
  match l with
  | [] => Ok []
  | RdA a :: l' =>
      do! v <- dev_read p d a ;
      do! vs <- device_run p d l' ; Ok (v :: vs)
  | WrA a v :: l' =>
      do! ' (d', r) <- dev_write p d a v ;
      match r with
      | WOk w => do! vs <- device_run p d' l' ; Ok (w :: vs)
      | WErr => Panic
      end
  end.
