(** What each CHIP-8 microcode operation does: as documented in
    src/cpu/chip8/microcode.rs:9-47, and as it is. *)
From Verif Require Import Base ModelDisplay ModelChip8 ModelOpsChip8 SpecChip8 SpecChip8Parts.

Section Microcode.
Variables (e : environment) (p : profile) (f : part -> Z) (w : world).

Definition this_time : Z := env_time e (w_time w).
Definition next_time : Z := env_time e (S (w_time w)).
Definition after_reads (k : nat) : world := mkWorld (k + w_time w) (w_random w).
Definition stamped (v_part at_part : part) (v t : Z) : part -> Z := upd (upd f v_part v) at_part t.
Definition register_name (r : word_register) : part := match r with WordI => PI | WordPc => PPC end.

(** Set the pixels chosen by [in_range]. *)
Definition paint (in_range : Z -> Z -> bool) (on : bool) (q : part) : Z :=
  match q with
  | PPixel x y => if on_screen x y && in_range x y then (if on then 1 else 0) else f q
  | _ => f q
  end.

(** The pixels of the rectangle with two given corners. *)
Definition in_rectangle (start stop : Z * Z) (x y : Z) : bool :=
  (fst start <=? x) && (x <=? fst stop) && (snd start <=? y) && (y <=? snd stop).
(** [count] pixels in reading order from a given one. *)
Definition in_reading_order (start : Z * Z) (count : Z) (x y : Z) : bool :=
  let k := 64 * y + x in
  let k0 := 64 * snd start + fst start in
  (k0 <=? k) && (k <? k0 + count).

(** As documented: an operation on registers, memory, stack, keys or pixels
    that changes what it names. *)
Definition documented (mc : microcode) : option ((part -> Z) * world) :=
  match mc with
  | WriteMemory a v => if a <=? 0xfff then Some (upd f (PMem a) v, w) else None
  | Write8bitRegister (ByteGp r) v => Some (upd f (PV (gp_index r)) v, w)
  | Write8bitRegister (ByteTimer Delay) v => Some (stamped PDelay PDelayAt v this_time, after_reads 1)
  | Write8bitRegister (ByteTimer Sound) v => Some (stamped PSound PSoundAt v this_time, after_reads 1)
  | Inc8bitRegister (ByteGp r) v => Some (upd f (PV (gp_index r)) ((f (PV (gp_index r)) + v) mod 256), w)
  | Inc8bitRegister (ByteTimer Delay) v =>
      Some (stamped PDelay PDelayAt ((clocked (f PDelay) (f PDelayAt) this_time + v) mod 256) next_time, after_reads 2)
  | Inc8bitRegister (ByteTimer Sound) v =>
      Some (stamped PSound PSoundAt ((clocked (f PSound) (f PSoundAt) this_time + v) mod 256) next_time, after_reads 2)
  | Dec8bitRegister (ByteGp r) v => Some (upd f (PV (gp_index r)) ((f (PV (gp_index r)) - v) mod 256), w)
  | Dec8bitRegister (ByteTimer Delay) v =>
      Some (stamped PDelay PDelayAt ((clocked (f PDelay) (f PDelayAt) this_time - v) mod 256) next_time, after_reads 2)
  | Dec8bitRegister (ByteTimer Sound) v =>
      Some (stamped PSound PSoundAt ((clocked (f PSound) (f PSoundAt) this_time - v) mod 256) next_time, after_reads 2)
  | Write16bitRegister r v => Some (upd f (register_name r) v, w)
  | Inc16bitRegister r v => Some (upd f (register_name r) ((f (register_name r) + v) mod 65536), w)
  | Dec16bitRegister r v => Some (upd f (register_name r) ((f (register_name r) - v) mod 65536), w)
  | PushStack v => let sp := (f PSP + 1) mod 16 in Some (upd (upd f PSP sp) (PStack sp) v, w)
  | PopStack _ => Some (upd f PSP ((f PSP - 1) mod 16), w)
  | KeyPress k => Some (upd f PKey (key_value k), w)
  | KeyRelease => Some (upd f PKey (-1), w)
  | SetDisplayPixel (x, y) on => Some (paint (fun a b => (a =? x) && (b =? y)) on, w)
  | SetDisplayRange start stop on => Some (paint (in_rectangle start stop) on, w)
  end.

(** As it is; [None] is a panic. *)
Definition actual (mc : microcode) : option ((part -> Z) * world) :=
  match mc with
  (* there is no VF *)
  | Write8bitRegister (ByteGp Vf) _ | Inc8bitRegister (ByteGp Vf) _ => None
  (* decrements do nothing *)
  | Dec8bitRegister _ _ | Dec16bitRegister _ _ => Some (f, w)
  (* the stack pointer stays *)
  | PushStack v => Some (upd f (PStack (f PSP)) v, w)
  | PopStack _ => Some (f, w)
  (* pixels in reading order, not a rectangle *)
  | SetDisplayRange (x, y) (x', y') on =>
      if match p with Debug => (x <=? x') && (y <=? y') | Release => true end
      then Some (paint (in_reading_order (x, y) ((64 * (y' - y) + (x' - x) + 1) mod 2 ^ 64)) on, w)
      else None
  | _ => documented mc
  end.
End Microcode.

(** Operands as the Rust types have them; coordinates (usize) small enough for
    offsets not to overflow. *)
Definition mc_operands (mc : microcode) : Prop :=
  match mc with
  | WriteMemory a v => u16 a /\ u8 v
  | Write8bitRegister _ v | Inc8bitRegister _ v | Dec8bitRegister _ v => u8 v
  | Write16bitRegister _ v | Inc16bitRegister _ v | Dec16bitRegister _ v => u16 v
  | PushStack v | PopStack v => u16 v
  | KeyPress _ | KeyRelease => True
  | SetDisplayPixel (x, y) _ => 0 <= x /\ 0 <= y
  | SetDisplayRange (x, y) (x', y') _ =>
      0 <= x < 2 ^ 57 /\ 0 <= y < 2 ^ 57 /\ 0 <= x' < 2 ^ 57 /\ 0 <= y' < 2 ^ 57
  end.
