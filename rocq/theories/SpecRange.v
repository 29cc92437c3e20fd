(** Vocabulary for ranges that were iterated before they are registered (C108). *)
From Verif Require Import Base ModelMap ModelRange.

(** The addresses from [lo] to [hi], in order. *)
Definition interval (lo hi : Z) : list Z := map (fun i => lo + Z.of_nat i) (seq 0 (Z.to_nat (hi - lo + 1))).

(** Items are taken from the front or from the back. *)
Inductive take := Front | Back.
Definition taken (t : take) (r : range) : option Z * range := match t with Front => range_next r | Back => range_next_back r end.
Definition after (lo hi : Z) (l : list take) : range := fold_left (fun r t => snd (taken t r)) l (range_new lo hi).

(** What is left of a list of items. *)
Definition left_after (items : list Z) (l : list take) : list Z :=
  fold_left (fun s t => match t with Front => tl s | Back => removelast s end) l items.
Definition first (s : list Z) : option Z := match s with [] => None | a :: _ => Some a end.
Definition final (s : list Z) : option Z := match rev s with [] => None | a :: _ => Some a end.

(** A range a caller can hand over: [lo..=hi] after taking some items. *)
Definition obtainable (r : range) : Prop := exists lo hi l, r = after lo hi l.
Definition used_up (r : range) : Prop := rg_exhausted r = true.

(** The map without the entries whose range is used up. *)
Fixpoint visible {D} (m : range_map D) : address_map D :=
  match m with
  | [] => []
  | e :: m' => if rg_exhausted (re_key e) then visible m'
               else mkEntry (rg_start (re_key e)) (rg_end (re_key e)) (re_device e) :: visible m'
  end.
Definition good {D} (m : range_map D) : Prop := Forall (fun e => obtainable (re_key e)) m.

(** Registering one after the other. *)
Inductive registered {D} : range_map D -> Prop :=
| registered_none : registered []
| registered_one m r d m' : registered m -> obtainable r -> rm_register m r d = Some m' -> registered m'.
