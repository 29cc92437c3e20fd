(** Vocabulary for address maps over any address, value and device type (C106). *)
From Verif Require Import Base ModelGeneric.

Section SpecGeneric.
Context {O V D : Type} (ty : address_type O).

(** Address [a] is in the range [lo..=hi]; in the range of a slot. *)
Definition in_range (lo hi a : O) : Prop := o_le ty lo a = true /\ o_le ty a hi = true.
Definition lies_in (s : slot O D) (a : O) : Prop := in_range (s_lo s) (s_hi s) a.

(** No slot has [a]; exactly the slot [s] between [before] and [after] has it. *)
Definition nowhere (m : gmap O D) (a : O) : Prop := forall s, In s m -> ~ lies_in s a.
Definition only_in (before : gmap O D) (s : slot O D) (after : gmap O D) (a : O) : Prop :=
  lies_in s a /\ nowhere before a /\ nowhere after a.

(** No address is in two slots. *)
Definition separate (m : gmap O D) : Prop :=
  forall a before s after, m = before ++ s :: after -> lies_in s a -> nowhere before a /\ nowhere after a.

(** [==] is equality; [<=] is a total order. *)
Definition eq_is_equality : Prop := forall a b, o_eq ty a b = true <-> a = b.
Definition total_order : Prop :=
  (forall a b, o_le ty a b = true \/ o_le ty b a = true) /\
  (forall a b c, o_le ty a b = true -> o_le ty b c = true -> o_le ty a c = true) /\
  (forall a b, o_le ty a b = true -> o_le ty b a = true -> a = b).
Definition less (a b : O) : Prop := o_le ty b a = false.
End SpecGeneric.

(** Accesses to a device, what they return ([Err] stops), the device after them. *)
Inductive access (O V : Type) := Rd (a : O) | Wr (a : O) (v : V).
Arguments Rd {O V}.
Arguments Wr {O V}.
Definition address_of {O V} (x : access O V) : O := match x with Rd a => a | Wr a _ => a end.
Fixpoint device_history {O V D} (dev : addressable O V D) (d : D) (l : list (access O V)) : res (list V) :=
  match l with
  | [] => Ok []
  | Rd a :: l' =>
      do! v <- a_read dev d a ;
      do! vs <- device_history dev d l' ; Ok (v :: vs)
  | Wr a v :: l' =>
      do! ' (d', r) <- a_write dev d a v ;
      match r with
      | Some w => do! vs <- device_history dev d' l' ; Ok (w :: vs)
      | None => Panic
      end
  end.

(** The same accesses to an ideal array of [n] cells addressed modulo [n]. *)
Fixpoint modulo_array {V} (n : Z) (f : Z -> V) (l : list (access Z V)) : list V :=
  match l with
  | [] => []
  | Rd a :: l' => f (a mod n) :: modulo_array n f l'
  | Wr a v :: l' => v :: modulo_array n (fun b => if b =? a mod n then v else f b) l'
  end.
