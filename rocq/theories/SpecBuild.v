(** Vocabulary for a 6502 put together from memory images (C105). *)
From Verif Require Import Base ModelMap ModelRegs6502 ModelCpu6502 ModelStep ModelOperand ModelIsa6502 ModelRun6502.

(** A memory image: RAM or ROM, the range it is registered for, its bytes. *)
Record image := mkImage { im_kind : mem_type; im_lo : Z; im_hi : Z; im_bytes : list Z }.
Definition within (i : image) (a : Z) : Prop := im_lo i <= a <= im_hi i.

(** As many bytes as the range is long, above the two pages of the default
    machine. *)
Definition image_ok (i : image) : Prop :=
  0x200 <= im_lo i /\ im_lo i <= im_hi i <= 65535 /\
  Z.of_nat (length (im_bytes i)) = im_hi i - im_lo i + 1 /\ Forall u8 (im_bytes i).

(** No two images have an address in common. *)
Definition apart (l : list image) : Prop :=
  ForallOrdPairs (fun i j => forall a, ~ (within i a /\ within j a)) l.

(** The byte of the images at an address; 0 outside of them. *)
Fixpoint contents (l : list image) (a : Z) : Z :=
  match l with
  | [] => 0
  | i :: l' => if (im_lo i <=? a) && (a <=? im_hi i) then nth (Z.to_nat (a - im_lo i)) (im_bytes i) 0
               else contents l' a
  end.

(** The addresses that can be written: page zero, the stack page and the RAM
    among the images. *)
Definition writable (l : list image) (a : Z) : Prop :=
  0 <= a <= 0x1ff \/ exists i, In i l /\ within i a /\ im_kind i = ReadWrite.

(** The registers a new machine has. *)
Definition fresh {D} (cpu : mos6502 D) : Prop :=
  reg_acc cpu = 0 /\ reg_x cpu = 0 /\ reg_y cpu = 0 /\ reg_sp cpu = 0xff /\ reg_pc cpu = 0 /\
  reg_ps cpu = {| ps_carry := false; ps_zero := false; ps_interrupt_disable := false; ps_decimal := false;
                  ps_brk := false; ps_unused := true; ps_overflow := false; ps_negative := false |}.

(** Driver: [Mos6502::default()], then
    [register_address_space(lo..=hi, Memory::new(lo, hi).load(bytes))] for every
    image; [None] as soon as one is refused. *)
Fixpoint add_images (p : profile) (cpu : mos6502 memory) (l : list image) : res (option (mos6502 memory)) :=
  match l with
  | [] => Ok (Some cpu)
  | i :: l' =>
      do! m <- memory_new p (im_kind i) (im_lo i) (im_hi i) ;
      match register_address_space cpu (im_lo i) (im_hi i) (memory_load m (im_bytes i)) with
      | Some cpu' => add_images p cpu' l'
      | None => Ok None
      end
  end.
Definition build (p : profile) (l : list image) : res (option (mos6502 memory)) :=
  do! cpu <- mos6502_default p ; add_images p cpu l.
