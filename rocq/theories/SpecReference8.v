(** The CHIP-8 of Cowgod's technical reference (section 3.1) as a machine of
    its own, over the same observable parts as SpecChip8.v but with a register
    VF, a working stack, XOR drawing and 60 Hz timers.  SpecChip8.effect
    describes the code; nothing here follows it.

    Scope: the reference does not say what happens outside the 4 KiB of
    memory ([None]); the hexadecimal font is taken to start at address 0, five
    bytes a digit (whether it is there is the subject of C54); for 8xy4-8xyE
    with x = F the flag is taken to be written last. *)
From Verif Require Import Base ModelDisplay ModelChip8 ModelOpsChip8 ModelRunChip8 SpecChip8 SpecChip8Parts.

(** A timer set to [v] at time [at_time] (nanoseconds) counts down 60 times a
    second. *)
Definition ref_timer (v at_time t : Z) : Z := Z.max 0 (v - Z.max 0 (t - at_time) * 60 / 1000000000).

Section Reference.
Variables (e : environment) (f : part -> Z) (w : world).

Definition rv (r : gp_register) : Z := f (PV (gp_index r)).
Definition goto (g : part -> Z) (a : Z) : part -> Z := upd g PPC a.
Definition onward (g : part -> Z) : part -> Z := goto g ((f PPC + 2) mod 65536).
Definition skip (b : bool) : part -> Z := goto f ((f PPC + (if b then 4 else 2)) mod 65536).
Definition set (r : gp_register) (x : Z) (g : part -> Z) : part -> Z := upd g (PV (gp_index r)) x.
Definition flagged (x : gp_register) (value : Z) (flag : bool) : part -> Z :=
  set Vf (if flag then 1 else 0) (set x value f).
Definition same_world (g : part -> Z) : option ((part -> Z) * world) := Some (g, w).

(** Drawing: does the sprite of [n] rows at I have a pixel for the screen
    position ([a], [b]) when its corner is at ([x], [y])?  It wraps around. *)
Definition sprite_at (x y n a b : Z) : bool :=
  let dx := (a - x) mod 64 in
  let dy := (b - y) mod 32 in
  (dx <? 8) && (dy <? n) && Z.testbit (f (PMem (f PI + dy))) (7 - dx).
Definition columns : list Z := map Z.of_nat (seq 0 64).
Definition rows : list Z := map Z.of_nat (seq 0 32).
Definition collision (x y n : Z) : bool :=
  existsb (fun a => existsb (fun b => sprite_at x y n a b && (f (PPixel a b) =? 1)) rows) columns.

Definition reference (op : opcode) : option ((part -> Z) * world) :=
  match op with
  | Sys _ => same_world (onward f)
  | Cls => same_world (onward (fun q => match q with PPixel _ _ => 0 | _ => f q end))
  | Ret => same_world (goto (upd f PSP ((f PSP - 1) mod 16)) (f (PStack (f PSP))))
  | JpNonV0Indexed nnn => same_world (goto f nnn)
  | Call nnn =>
      let sp := (f PSP + 1) mod 16 in
      same_world (goto (upd (upd f PSP sp) (PStack sp) ((f PPC + 2) mod 65536)) nnn)
  | SeImmediate x kk => same_world (skip (rv x =? kk))
  | SneImmediate x kk => same_world (skip (negb (rv x =? kk)))
  | SeVxVy x y => same_world (skip (rv x =? rv y))
  | SneVxVy x y => same_world (skip (negb (rv x =? rv y)))
  | LdImmediate x kk => same_world (onward (set x kk f))
  | AddImmediate x kk => same_world (onward (set x ((rv x + kk) mod 256) f))
  | LdVxVy x y => same_world (onward (set x (rv y) f))
  | Or x y => same_world (onward (set x (Z.lor (rv x) (rv y)) f))
  | And x y => same_world (onward (set x (Z.land (rv x) (rv y)) f))
  | Xor x y => same_world (onward (set x (Z.lxor (rv x) (rv y)) f))
  | AddVxVy x y => same_world (onward (flagged x ((rv x + rv y) mod 256) (255 <? rv x + rv y)))
  | Sub x y => same_world (onward (flagged x ((rv x - rv y) mod 256) (rv y <? rv x)))
  | Subn x y => same_world (onward (flagged x ((rv y - rv x) mod 256) (rv x <? rv y)))
  | Shr x _ => same_world (onward (flagged x (rv x / 2) (Z.odd (rv x))))
  | Shl x _ => same_world (onward (flagged x ((2 * rv x) mod 256) (128 <=? rv x)))
  | LdAbsolute nnn => same_world (onward (upd f PI nnn))
  | JpV0Indexed nnn => same_world (goto f (nnn + rv V0))
  | Rnd x kk =>
      Some (onward (set x (Z.land (env_random e (w_random w)) kk) f), mkWorld (w_time w) (S (w_random w)))
  | Drw x y n =>
      if f PI + n <=? 0x1000 then
        let g := fun q => match q with
          | PPixel a b =>
              if on_screen a b && sprite_at (rv x) (rv y) n a b then 1 - f q else f q
          | _ => f q
          end in
        same_world (onward (set Vf (if collision (rv x) (rv y) n then 1 else 0) g))
      else None
  | Skp x => same_world (skip (f PKey =? rv x))
  | Sknp x => same_world (skip (negb (f PKey =? rv x)))
  | LdDelayTimerSrcTx x =>
      Some (onward (set x (ref_timer (f PDelay) (f PDelayAt) (env_time e (w_time w))) f),
            mkWorld (S (w_time w)) (w_random w))
  | LdK x => same_world (if f PKey =? -1 then f else onward (set x (f PKey) f))
  | LdDelayTimerDestTx x =>
      Some (onward (upd (upd f PDelay (rv x)) PDelayAt (env_time e (w_time w))),
            mkWorld (S (w_time w)) (w_random w))
  | LdSoundTimerDestTx x =>
      Some (onward (upd (upd f PSound (rv x)) PSoundAt (env_time e (w_time w))),
            mkWorld (S (w_time w)) (w_random w))
  | AddIRegisterIndexed x => same_world (onward (upd f PI ((f PI + rv x) mod 65536)))
  | LdSpriteLocation x => same_world (onward (upd f PI (5 * (rv x mod 16))))
  | LdBcd x =>
      if f PI + 2 <=? 0xfff then
        same_world (onward
          (upd (upd (upd f (PMem (f PI)) (rv x / 100)) (PMem (f PI + 1)) (rv x / 10 mod 10))
             (PMem (f PI + 2)) (rv x mod 10)))
      else None
  | StoreRegistersToMemory x =>
      if f PI + gp_index x <=? 0xfff then
        same_world (onward (fun q => match q with
          | PMem a => if (f PI <=? a) && (a <=? f PI + gp_index x) then f (PV (a - f PI)) else f q
          | _ => f q
          end))
      else None
  | ReadRegistersFromMemory x =>
      if f PI + gp_index x <=? 0xfff then
        same_world (onward (fun q => match q with
          | PV k => if (0 <=? k) && (k <=? gp_index x) then f (PMem (f PI + k)) else f q
          | _ => f q
          end))
      else None
  end.

(** ** Where the code departs from it *)
Definition registers_named (op : opcode) : list gp_register :=
  match op with
  | SeImmediate x _ | SneImmediate x _ | LdImmediate x _ | AddImmediate x _ | Rnd x _
  | Skp x | Sknp x | LdDelayTimerSrcTx x | LdK x | LdDelayTimerDestTx x | LdSoundTimerDestTx x
  | AddIRegisterIndexed x | LdSpriteLocation x | LdBcd x
  | StoreRegistersToMemory x | ReadRegistersFromMemory x => [x]
  | SeVxVy x y | SneVxVy x y | LdVxVy x y | Or x y | And x y | Xor x y
  | AddVxVy x y | Sub x y | Subn x y | Shr x y | Shl x y | Drw x y _ => [x; y]
  | _ => []
  end.

Definition departs8 (op : opcode) : Prop :=
  (* there is no VF *)
  In Vf (registers_named op) \/
  match op with
  (* the stack pointer never moves, and CALL saves its own address *)
  | Call _ | Ret => True
  (* these set VF *)
  | AddVxVy _ _ | Sub _ _ | Subn _ _ | Shr _ _ | Shl _ _ | Drw _ _ _ => True
  (* the target is cut to 12 bits *)
  | JpV0Indexed nnn => 4096 <= nnn + rv V0
  (* it does not wait for a key *)
  | LdK _ => f PKey = -1
  (* the timers run once a second *)
  | LdDelayTimerSrcTx _ =>
      ref_timer (f PDelay) (f PDelayAt) (env_time e (w_time w)) <> clocked (f PDelay) (f PDelayAt) (env_time e (w_time w))
  (* all of Vx is multiplied *)
  | LdSpriteLocation x => 16 <= rv x
  | _ => False
  end.
End Reference.

(** ** The machine *)
Definition ref_state : Type := (part -> Z) * world.

(** The instruction at the program counter, inside the 4 KiB. *)
Definition ref_fetches (f : part -> Z) (op : opcode) : Prop :=
  operands_ok op /\ f PPC + 1 <= 0xfff /\ encode op = 256 * f (PMem (f PPC)) + f (PMem (f PPC + 1)).

(** [n] instructions, none of which departs. *)
Inductive ref_run (e : environment) : list opcode -> ref_state -> ref_state -> Prop :=
| ref_here st : ref_run e [] st st
| ref_next op ops f w f1 w1 st :
    ref_fetches f op -> reference e f w op = Some (f1, w1) -> ~ departs8 e f w op ->
    ref_run e ops (f1, w1) st -> ref_run e (op :: ops) (f, w) st.
