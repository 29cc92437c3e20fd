(** Debug and release builds. *)
From Verif Require Import Base ModelMap.

(** Whatever the first call returns, the second returns too; only where the
    first panics may they differ. *)
Definition at_least {A} (x y : res A) : Prop := forall a, x = Ok a -> y = Ok a.

(** A device whose release build does what its debug build does whenever the
    latter returns. *)
Definition build_independent (D : Type) `{Device D} : Prop :=
  forall d a,
    at_least (dev_read Debug d a) (dev_read Release d a) /\
    forall v, at_least (dev_write Debug d a v) (dev_write Release d a v).
