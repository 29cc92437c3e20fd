(** Specification of the CHIP-8 machine: what a user can observe and what
    each instruction does to it. Independent of how the model computes it. *)
From Verif Require Import Base ModelMap ModelDisplay ModelChip8 ModelOpsChip8 ModelRunChip8 SpecMap Link6502.

(** ** Observable parts *)

(** The parts of a machine. [PV x] is register Vx (x < 15: the code has no VF
    cell), [PMem a] the byte at address [a], [PStack k] an entry of the call
    stack, [PPixel x y] a display pixel (0 or 1), [PKey] the pressed key or
    -1, [PDelay]/[PSound] the value last written to a timer and
    [PDelayAt]/[PSoundAt] the time of that write. *)
Inductive part :=
| PPC | PI | PSP | PV (x : Z) | PStack (k : Z) | PMem (a : Z) | PPixel (x y : Z) | PKey
| PDelay | PDelayAt | PSound | PSoundAt.

Definition part_eqb (a b : part) : bool :=
  match a, b with
  | PPC, PPC | PI, PI | PSP, PSP | PKey, PKey | PDelay, PDelay | PDelayAt, PDelayAt
  | PSound, PSound | PSoundAt, PSoundAt => true
  | PV x, PV y | PStack x, PStack y | PMem x, PMem y => x =? y
  | PPixel x y, PPixel x' y' => (x =? x') && (y =? y')
  | _, _ => false
  end.

Definition item {A} (l : list A) (i : Z) (d : A) : A :=
  if i <? 0 then d else nth (Z.to_nat i) l d.

(** The number of a key of the hexadecimal keypad; of the pressed key, if any. *)
Definition key_value (k : key_input_value) : Z :=
  match k with
  | Key0 => 0 | Key1 => 1 | Key2 => 2 | Key3 => 3 | Key4 => 4 | Key5 => 5 | Key6 => 6 | Key7 => 7
  | Key8 => 8 | Key9 => 9 | KeyA => 10 | KeyB => 11 | KeyC => 12 | KeyD => 13 | KeyE => 14 | KeyF => 15
  end.
Definition key_number (k : option interrupt) : Z :=
  match k with None => -1 | Some (InterruptKeyPress v) => key_value v end.

Definition lit (d : display) (x y : Z) : bool := item (item d y []) x false.

Definition observe (c : chip8) (q : part) : Z :=
  match q with
  | PPC => c8_pc c
  | PI => c8_i c
  | PSP => c8_sp c
  | PV x => item (c8_gp c) x 0
  | PStack k => item (ring_inner (c8_stack c)) k 0
  | PMem a => peek Debug (c8_space c) a
  | PPixel x y => if lit (c8_display c) x y then 1 else 0
  | PKey => key_number (c8_interrupt c)
  | PDelay => clock_inner (c8_dt c)
  | PDelayAt => written_at (c8_dt c)
  | PSound => clock_inner (c8_st c)
  | PSoundAt => written_at (c8_st c)
  end.

(** An observation with one part replaced. *)
Definition upd (f : part -> Z) (q : part) (v : Z) (q' : part) : Z :=
  if part_eqb q q' then v else f q'.

(** [c] looks like [f]. *)
Definition looks (c : chip8) (f : part -> Z) : Prop := forall q, observe c q = f q.

(** ** Well-formed machines *)

(** Every machine a user can build is well formed: see [C56_reachable]. *)
Definition display_ok (d : display) : Prop :=
  length d = 32%nat /\ Forall (fun row => length row = 64%nat) d.
Definition space_ok (m : address_map memory) : Prop :=
  plain_map m /\ (forall a, 0 <= a <= 0xfff -> ram_at m a) /\ (forall a, 0xfff < a -> unmapped m a).
Definition stack_ok (r : ring) : Prop :=
  ring_capacity r = 16 /\ length (ring_inner r) = 16%nat /\ Forall u16 (ring_inner r).

Record well_formed (c : chip8) : Prop := {
  wf_pc : u16 (c8_pc c);
  wf_i : u16 (c8_i c);
  wf_sp : 0 <= c8_sp c < 16;
  wf_gp : length (c8_gp c) = 15%nat /\ Forall u8 (c8_gp c);
  wf_stack : stack_ok (c8_stack c);
  wf_space : space_ok (c8_space c);
  wf_display : display_ok (c8_display c);
  wf_dt : u8 (clock_inner (c8_dt c));
  wf_st : u8 (clock_inner (c8_st c))
}.

(** The random number generator returns bytes. *)
Definition env_ok (e : environment) : Prop := forall k, u8 (env_random e k).

(** ** Steps *)

(** One instruction, as the iterator executes it. *)
Definition step (e : environment) (p : profile) (c : chip8) (w : world) : res (chip8 * world) :=
  match next e p c w with Ok (_, c', w') => Ok (c', w') | Panic => Panic end.

(** The big-endian word at the program counter is [word]. At pc = 0xffff the
    second byte is fetched at pc + 1, which panics in a debug build and wraps
    to address 0 in a release build. *)
Definition fetches (p : profile) (c : chip8) (word : Z) : Prop :=
  (p = Release \/ observe c PPC < 65535) /\
  word = 256 * observe c (PMem (observe c PPC)) + observe c (PMem ((observe c PPC + 1) mod 65536)).

(** One instruction succeeds and leaves a machine that looks like [f]. *)
Definition becomes (e : environment) (p : profile) (c : chip8) (w : world) (f : part -> Z) (w' : world) : Prop :=
  exists c', step e p c w = Ok (c', w') /\ well_formed c' /\ looks c' f.

(** ** The instruction table (Cowgod's CHIP-8 reference): word of each
    instruction. *)
Definition encode (op : opcode) : Z :=
  let x r := 256 * gp_index r in
  let y r := 16 * gp_index r in
  match op with
  | Cls => 0x00E0
  | Ret => 0x00EE
  | Sys nnn => 0x0000 + nnn
  | JpNonV0Indexed nnn => 0x1000 + nnn
  | Call nnn => 0x2000 + nnn
  | SeImmediate vx kk => 0x3000 + x vx + kk
  | SneImmediate vx kk => 0x4000 + x vx + kk
  | SeVxVy vx vy => 0x5000 + x vx + y vy
  | LdImmediate vx kk => 0x6000 + x vx + kk
  | AddImmediate vx kk => 0x7000 + x vx + kk
  | LdVxVy vx vy => 0x8000 + x vx + y vy
  | Or vx vy => 0x8001 + x vx + y vy
  | And vx vy => 0x8002 + x vx + y vy
  | Xor vx vy => 0x8003 + x vx + y vy
  | AddVxVy vx vy => 0x8004 + x vx + y vy
  | Sub vx vy => 0x8005 + x vx + y vy
  | Shr vx vy => 0x8006 + x vx + y vy
  | Subn vx vy => 0x8007 + x vx + y vy
  | Shl vx vy => 0x800E + x vx + y vy
  | SneVxVy vx vy => 0x9000 + x vx + y vy
  | LdAbsolute nnn => 0xA000 + nnn
  | JpV0Indexed nnn => 0xB000 + nnn
  | Rnd vx kk => 0xC000 + x vx + kk
  | Drw vx vy n => 0xD000 + x vx + y vy + n
  | Skp vx => 0xE09E + x vx
  | Sknp vx => 0xE0A1 + x vx
  | LdDelayTimerSrcTx vx => 0xF007 + x vx
  | LdK vx => 0xF00A + x vx
  | LdDelayTimerDestTx vx => 0xF015 + x vx
  | LdSoundTimerDestTx vx => 0xF018 + x vx
  | AddIRegisterIndexed vx => 0xF01E + x vx
  | LdSpriteLocation vx => 0xF029 + x vx
  | LdBcd vx => 0xF033 + x vx
  | StoreRegistersToMemory vx => 0xF055 + x vx
  | ReadRegistersFromMemory vx => 0xF065 + x vx
  end.

(** Operand fields have their width; 00E0 and 00EE are not SYS. *)
Definition operands_ok (op : opcode) : Prop :=
  match op with
  | Sys nnn => 0 <= nnn < 4096 /\ nnn <> 0x0E0 /\ nnn <> 0x0EE
  | JpNonV0Indexed nnn | Call nnn | LdAbsolute nnn | JpV0Indexed nnn => 0 <= nnn < 4096
  | SeImmediate _ kk | SneImmediate _ kk | LdImmediate _ kk | AddImmediate _ kk | Rnd _ kk => u8 kk
  | Drw _ _ n => 0 <= n < 16
  | _ => True
  end.

(** ** Effect of each instruction

    What the code does, as a function of the observation before. [None] means
    the instruction panics. Where this differs from the CHIP-8 reference the
    comment says so; the theorems of PropertiesChip8*.v state the differences. *)

Definition clocked (v at_time t : Z) : Z := Z.max 0 (v - Z.max 0 (t - at_time) / 1000000000).

Section Effect.
Variables (e : environment) (p : profile) (f : part -> Z) (w : world).

(** Continue [k] bytes further. *)
Definition advance (k : Z) : part -> Z := upd f PPC ((f PPC + k) mod 65536).
Definition done (g : part -> Z) : option ((part -> Z) * world) := Some (g, w).

(** Registers that exist. *)
Definition has (r : gp_register) : bool := gp_index r <? 15.
Definition v (r : gp_register) : Z := f (PV (gp_index r)).
Definition needs (b : bool) (k : option ((part -> Z) * world)) : option ((part -> Z) * world) :=
  if b then k else None.
Definition tick : world := mkWorld (S (w_time w)) (w_random w).

Definition effect (op : opcode) : option ((part -> Z) * world) :=
  match op with
  | Cls => done (fun q => match q with PPixel _ _ => 0 | _ => advance 2 q end)
  (* the reference pops: SP - 1, and the return address is after the call *)
  | Ret => done (upd f PPC (f (PStack (f PSP))))
  (* the reference XORs the sprite and sets VF *)
  | Drw _ _ _ => None
  | Sys _ => done (advance 2)
  | JpNonV0Indexed nnn => done (upd f PPC nnn)
  (* the reference increments SP first and pushes pc + 2 *)
  | Call nnn => done (upd (upd f (PStack (f PSP)) (f PPC)) PPC nnn)
  | SeImmediate x kk => needs (has x) (done (advance (if v x =? kk then 4 else 2)))
  | SneImmediate x kk => needs (has x) (done (advance (if v x =? kk then 2 else 4)))
  | SeVxVy x y => needs (has x && has y) (done (advance (if v x =? v y then 4 else 2)))
  | SneVxVy x y => needs (has x && has y) (done (advance (if v x =? v y then 2 else 4)))
  | LdImmediate x kk => needs (has x) (done (upd (advance 2) (PV (gp_index x)) kk))
  | AddImmediate x kk => needs (has x) (done (upd (advance 2) (PV (gp_index x)) ((v x + kk) mod 256)))
  | LdVxVy x y => needs (has x && has y) (done (upd (advance 2) (PV (gp_index x)) (v y)))
  | Or x y => needs (has x && has y) (done (upd (advance 2) (PV (gp_index x)) (Z.lor (v x) (v y))))
  | And x y => needs (has x && has y) (done (upd (advance 2) (PV (gp_index x)) (Z.land (v x) (v y))))
  | Xor x y => needs (has x && has y) (done (upd (advance 2) (PV (gp_index x)) (Z.lxor (v x) (v y))))
  (* the reference stores the result in Vx and the flag in VF *)
  | AddVxVy _ _ | Sub _ _ | Subn _ _ | Shl _ _ | Shr _ _ => None
  | LdAbsolute nnn => done (upd (advance 2) PI nnn)
  | JpV0Indexed nnn => done (upd f PPC ((nnn + v V0) mod 4096))
  | Rnd x kk =>
      needs (has x)
        (Some (upd (advance 2) (PV (gp_index x)) (Z.land (env_random e (w_random w)) kk),
               mkWorld (w_time w) (S (w_random w))))
  | Skp x => needs (has x) (done (advance (if f PKey =? v x then 4 else 2)))
  | Sknp x => needs (has x) (done (advance (if f PKey =? v x then 2 else 4)))
  | LdDelayTimerSrcTx x =>
      needs (has x)
        (Some (upd (advance 2) (PV (gp_index x)) (clocked (f PDelay) (f PDelayAt) (env_time e (w_time w))),
               tick))
  (* without a key the reference stays at this instruction *)
  | LdK x =>
      if f PKey =? -1 then done (advance 2)
      else needs (has x) (done (upd (advance 2) (PV (gp_index x)) (f PKey)))
  | LdDelayTimerDestTx x =>
      needs (has x) (Some (upd (upd (advance 2) PDelay (v x)) PDelayAt (env_time e (w_time w)), tick))
  | LdSoundTimerDestTx x =>
      needs (has x) (Some (upd (upd (advance 2) PSound (v x)) PSoundAt (env_time e (w_time w)), tick))
  | AddIRegisterIndexed x => needs (has x) (done (upd (advance 2) PI ((f PI + v x) mod 65536)))
  | LdSpriteLocation x =>
      needs (has x && (match p with Debug => 5 * v x <? 256 | Release => true end))
        (done (upd (advance 2) PI ((5 * v x) mod 256)))
  | LdBcd x =>
      needs (has x && (f PI + 2 <=? 0xfff))
        (done (fun q =>
           if part_eqb q (PMem (f PI)) then v x / 100
           else if part_eqb q (PMem (f PI + 1)) then (v x / 10) mod 10
           else if part_eqb q (PMem (f PI + 2)) then v x mod 10
           else advance 2 q))
  | StoreRegistersToMemory x =>
      needs (has x && (f PI + gp_index x <=? 0xfff))
        (done (fun q => match q with
                        | PMem a => if (f PI <=? a) && (a <=? f PI + gp_index x)
                                    then f (PV (a - f PI)) else f q
                        | _ => advance 2 q
                        end))
  | ReadRegistersFromMemory x =>
      needs (has x && (match p with Debug => f PI + gp_index x <? 65536 | Release => true end))
        (done (fun q => match q with
                        | PV k => if (0 <=? k) && (k <=? gp_index x)
                                  then f (PMem ((f PI + k) mod 65536)) else f q
                        | _ => advance 2 q
                        end))
  end.
End Effect.
