(** Specifications for the parts of the CHIP-8 machine that can be used on
    their own: the 12-bit integer, the ring memory, the display, the sprites
    and the timers. *)
From Verif Require Import Base ModelDisplay ModelChip8 ModelOpsChip8 SpecChip8.

(** A 12-bit value. *)
Definition u12 (v : Z) : Prop := 0 <= v < 4096.

(** ** Words of the instruction table

    The words that no row of the CHIP-8 table matches. *)
Definition undocumented (word : Z) : bool :=
  let family := word / 4096 in
  let low := word mod 16 in
  let byte := word mod 256 in
  ((family =? 0x5) && negb (low =? 0)) ||
  ((family =? 0x8) && negb ((low <=? 0x7) || (low =? 0xe))) ||
  ((family =? 0x9) && negb (low =? 0)) ||
  ((family =? 0xe) && negb ((byte =? 0x9e) || (byte =? 0xa1))) ||
  ((family =? 0xf) &&
     negb (existsb (Z.eqb byte) [0x07; 0x0a; 0x15; 0x18; 0x1e; 0x29; 0x33; 0x55; 0x65])).

(** ** Ring memory *)

(** The value an ideal array of [n] cells holds at [offset] (taken modulo [n])
    after the writes [ws], the most recent one first. *)
Fixpoint latest (n : Z) (ws : list (Z * Z)) (offset : Z) : Z :=
  match ws with
  | [] => 0
  | (o, v) :: ws' => if o mod n =? offset mod n then v else latest n ws' offset
  end.

(** ** Display *)

(** On the screen. *)
Definition on_screen (x y : Z) : bool := (0 <=? x) && (x <? 64) && (0 <=? y) && (y <? 32).

(** The display [d] with one pixel replaced, as a picture. *)
Definition painted (d : display) (x y : Z) (on : bool) (x' y' : Z) : bool :=
  if (x' =? x) && (y' =? y) && on_screen x y then on else lit d x' y'.

(** Pixel ([dx], [dy]) of a sprite given by its rows: bit 7 of a row is its
    leftmost pixel. Outside the 8-wide sprite there is none. *)
Definition sprite_pixel (rows : list Z) (dx dy : Z) : bool := Z.testbit (item rows dy 0) (7 - dx).
Definition inside_sprite (rows : list Z) (dx dy : Z) : bool :=
  (0 <=? dx) && (dx <? 8) && (0 <=? dy) && (dy <? Z.of_nat (length rows)).

(** The picture after copying a sprite to ([x], [y]), clipped at the edges. *)
Definition stamped (d : display) (rows : list Z) (x y x' y' : Z) : bool :=
  if inside_sprite rows (x' - x) (y' - y) && on_screen x' y'
  then sprite_pixel rows (x' - x) (y' - y) else lit d x' y'.

(** The picture after XOR-ing a sprite at ([x], [y]), as CHIP-8 draws, and
    whether a lit pixel was turned off. *)
Definition xored (d : display) (rows : list Z) (x y x' y' : Z) : bool :=
  if inside_sprite rows (x' - x) (y' - y) && on_screen x' y'
  then xorb (lit d x' y') (sprite_pixel rows (x' - x) (y' - y)) else lit d x' y'.
Definition collides (d : display) (rows : list Z) (x y : Z) : Prop :=
  exists x' y', inside_sprite rows (x' - x) (y' - y) = true /\ on_screen x' y' = true /\
    sprite_pixel rows (x' - x) (y' - y) = true /\ lit d x' y' = true.

(** [d] shows the picture [f]. *)
Definition shows (d : display) (f : Z -> Z -> bool) : Prop := forall x y, lit d x y = f x y.

(** The hexadecimal digit a glyph stands for, and the CHIP-8 font. *)
Definition glyph_of (digit : Z) : list Z :=
  match digit with
  | 0x0 => [0xF0; 0x90; 0x90; 0x90; 0xF0]
  | 0x1 => [0x20; 0x60; 0x20; 0x20; 0x70]
  | 0x2 => [0xF0; 0x10; 0xF0; 0x80; 0xF0]
  | 0x3 => [0xF0; 0x10; 0xF0; 0x10; 0xF0]
  | 0x4 => [0x90; 0x90; 0xF0; 0x10; 0x10]
  | 0x5 => [0xF0; 0x80; 0xF0; 0x10; 0xF0]
  | 0x6 => [0xF0; 0x80; 0xF0; 0x90; 0xF0]
  | 0x7 => [0xF0; 0x10; 0x20; 0x40; 0x40]
  | 0x8 => [0xF0; 0x90; 0xF0; 0x90; 0xF0]
  | 0x9 => [0xF0; 0x90; 0xF0; 0x10; 0xF0]
  | 0xa => [0xF0; 0x90; 0xF0; 0x90; 0x90]
  | 0xb => [0xE0; 0x90; 0xE0; 0x90; 0xE0]
  | 0xc => [0xF0; 0x80; 0x80; 0x80; 0xF0]
  | 0xd => [0xE0; 0x90; 0x90; 0x90; 0xE0]
  | 0xe => [0xF0; 0x80; 0xF0; 0x80; 0xF0]
  | 0xf => [0xF0; 0x80; 0xF0; 0x80; 0x80]
  | _ => []
  end.
Definition digit_of (f : font) : Z :=
  match f with
  | FZero => 0x0 | FOne => 0x1 | FTwo => 0x2 | FThree => 0x3 | FFour => 0x4 | FFive => 0x5
  | FSix => 0x6 | FSeven => 0x7 | FEight => 0x8 | FNine => 0x9
  | FA => 0xa | FB => 0xb | FC => 0xc | FD => 0xd | FE => 0xe | FF => 0xf
  end.

(** Instructions that involve register VF: it is an operand, or receives the
    flag (8xy4-7, 8xyE, Dxyn). *)
Definition involves_vf (op : opcode) : bool :=
  let f r := gp_index r =? 0xf in
  match op with
  | Cls | Ret | Sys _ | JpNonV0Indexed _ | JpV0Indexed _ | Call _ | LdAbsolute _ => false
  | AddVxVy _ _ | Sub _ _ | Shr _ _ | Subn _ _ | Shl _ _ | Drw _ _ _ => true
  | SeVxVy x y | SneVxVy x y | LdVxVy x y | Or x y | And x y | Xor x y => f x || f y
  | SeImmediate x _ | SneImmediate x _ | LdImmediate x _ | AddImmediate x _ | Rnd x _ => f x
  | Skp x | Sknp x | LdDelayTimerSrcTx x | LdK x | LdDelayTimerDestTx x | LdSoundTimerDestTx x
  | AddIRegisterIndexed x | LdSpriteLocation x | LdBcd x | StoreRegistersToMemory x
  | ReadRegistersFromMemory x => f x
  end.

(** ** What an instruction may change

    Everything but the program counter, read off the CHIP-8 table. [f] is the
    observation before the instruction. *)
Definition may_change (f : part -> Z) (op : opcode) (q : part) : bool :=
  match q with
  | PPC => true
  | PI => match op with LdAbsolute _ | AddIRegisterIndexed _ | LdSpriteLocation _ => true | _ => false end
  | PSP => match op with Call _ | Ret => true | _ => false end
  | PV k =>
      match op with
      | LdImmediate x _ | AddImmediate x _ | LdVxVy x _ | Or x _ | And x _ | Xor x _ | Rnd x _
      | LdDelayTimerSrcTx x | LdK x => k =? gp_index x
      | AddVxVy x _ | Sub x _ | Subn x _ | Shl x _ | Shr x _ => (k =? gp_index x) || (k =? 0xf)
      | Drw _ _ _ => k =? 0xf
      | ReadRegistersFromMemory x => (0 <=? k) && (k <=? gp_index x)
      | _ => false
      end
  | PStack _ => match op with Call _ => true | _ => false end
  | PMem a =>
      match op with
      | LdBcd _ => (f PI <=? a) && (a <=? f PI + 2)
      | StoreRegistersToMemory x => (f PI <=? a) && (a <=? f PI + gp_index x)
      | _ => false
      end
  | PPixel _ _ => match op with Cls | Drw _ _ _ => true | _ => false end
  | PKey => false
  | PDelay | PDelayAt => match op with LdDelayTimerDestTx _ => true | _ => false end
  | PSound | PSoundAt => match op with LdSoundTimerDestTx _ => true | _ => false end
  end.

(** ** Histories *)

(** The machine executes instructions: [h] lists, in order, the address and
    the word of each. *)
Inductive executes (e : environment) (p : profile) : chip8 -> world -> list (Z * Z) -> chip8 -> world -> Prop :=
| executes_nil c w : executes e p c w [] c w
| executes_cons c w word c1 w1 h c2 w2 :
    fetches p c word -> step e p c w = Ok (c1, w1) -> executes e p c1 w1 h c2 w2 ->
    executes e p c w ((observe c PPC, word) :: h) c2 w2.

(** The address of the most recent CALL in a history. *)
Definition is_call (aw : Z * Z) : bool := snd aw / 0x1000 =? 2.
Definition last_call (h : list (Z * Z)) : option Z :=
  match filter is_call (rev h) with (a, _) :: _ => Some a | [] => None end.

(** The calls of a history that have not returned yet, most recent first. *)
Fixpoint open_calls (h : list (Z * Z)) (open : list Z) : list Z :=
  match h with
  | [] => open
  | (a, word) :: h =>
      open_calls h (if word / 0x1000 =? 2 then a :: open else if word =? 0x00EE then tl open else open)
  end.
