(** Model of src/cpu/chip8/operations/mod.rs: decoding and microcode
    generation. *)
From Verif Require Import Base ModelMap ModelU12 ModelDisplay ModelChip8.

(** src/cpu/chip8/operations/mod.rs:27-29. *)
Definition least_significant_nibble_from_u8 (x : Z) : Z := Z.land x 0x0f.

(** src/cpu/chip8/operations/mod.rs:34-37. *)
Definition u8_from_nibbles (msb lsb : Z) : Z :=
  let masked_lsb := least_significant_nibble_from_u8 lsb in
  Z.lor (shl_u8 msb 4) masked_lsb.

(** src/cpu/chip8/operations/mod.rs:49-51 and 53-55. *)
Definition to_upper_nibble (v : Z) : Z := shr_u8 (Z.land v 0xf0) 4.
(** src/cpu/chip8/operations/mod.rs:53-55. *)
Definition to_lower_nibble (v : Z) : Z := Z.land v 0x0f.

(** src/cpu/chip8/operations/mod.rs:66-68 and 70-72. *)
Definition to_be_nibbles (v : Z) : Z * Z := (to_upper_nibble v, to_lower_nibble v).
(** src/cpu/chip8/operations/mod.rs:70-72. *)
Definition to_le_nibbles (v : Z) : Z * Z := (to_lower_nibble v, to_upper_nibble v).

(** src/cpu/chip8/operations/mod.rs:78-114, enum [Opcode]. *)
Inductive opcode :=
| Cls
| Ret
| Drw (x y : gp_register) (n : Z)
| Sys (a : Z)
| Call (a : Z)
| JpNonV0Indexed (a : Z)
| JpV0Indexed (a : Z)
| LdAbsolute (a : Z)
| LdImmediate (dest : gp_register) (value : Z)
| LdVxVy (dest src : gp_register)
| LdSoundTimerDestTx (r : gp_register)
| LdDelayTimerDestTx (r : gp_register)
| LdDelayTimerSrcTx (r : gp_register)
| LdBcd (r : gp_register)
| LdSpriteLocation (r : gp_register)
| LdK (r : gp_register)
| AddImmediate (dest : gp_register) (value : Z)
| AddIRegisterIndexed (r : gp_register)
| AddVxVy (dest src : gp_register)
| Sub (dest src : gp_register)
| Subn (dest src : gp_register)
| And (dest src : gp_register)
| Or (dest src : gp_register)
| Shl (dest src : gp_register)
| Shr (dest src : gp_register)
| Xor (dest src : gp_register)
| SeVxVy (dest src : gp_register)
| SeImmediate (r : gp_register) (value : Z)
| SneVxVy (dest src : gp_register)
| SneImmediate (r : gp_register) (value : Z)
| ReadRegistersFromMemory (r : gp_register)
| StoreRegistersToMemory (r : gp_register)
| Skp (r : gp_register)
| Sknp (r : gp_register)
| Rnd (r : gp_register) (value : Z).

(** src/cpu/chip8/operations/mod.rs:193-230, the match over nibbles. *)
Definition decode_nibbles (first second third fourth : Z)
  (dest_reg src_reg : gp_register) (absolute immediate : Z) : option opcode :=
  match first, second, third, fourth with
  | 0x0, 0x0, 0xe, 0x0 => Some Cls
  | 0x0, 0x0, 0xe, 0xe => Some Ret
  | 0x0, _, _, _ => Some (Sys absolute)
  | 0x1, _, _, _ => Some (JpNonV0Indexed absolute)
  | 0x2, _, _, _ => Some (Call absolute)
  | 0x3, _, _, _ => Some (SeImmediate dest_reg immediate)
  | 0x4, _, _, _ => Some (SneImmediate dest_reg immediate)
  | 0x5, _, _, 0x0 => Some (SeVxVy dest_reg src_reg)
  | 0x6, _, _, _ => Some (LdImmediate dest_reg immediate)
  | 0x7, _, _, _ => Some (AddImmediate dest_reg immediate)
  | 0x8, _, _, 0x0 => Some (LdVxVy dest_reg src_reg)
  | 0x8, _, _, 0x1 => Some (Or dest_reg src_reg)
  | 0x8, _, _, 0x2 => Some (And dest_reg src_reg)
  | 0x8, _, _, 0x3 => Some (Xor dest_reg src_reg)
  | 0x8, _, _, 0x4 => Some (AddVxVy dest_reg src_reg)
  | 0x8, _, _, 0x5 => Some (Sub dest_reg src_reg)
  | 0x8, _, _, 0x6 => Some (Shr dest_reg src_reg)
  | 0x8, _, _, 0x7 => Some (Subn dest_reg src_reg)
  | 0x8, _, _, 0xe => Some (Shl dest_reg src_reg)
  | 0x9, _, _, 0x0 => Some (SneVxVy dest_reg src_reg)
  | 0xa, _, _, _ => Some (LdAbsolute absolute)
  | 0xb, _, _, _ => Some (JpV0Indexed absolute)
  | 0xc, _, _, _ => Some (Rnd dest_reg immediate)
  | 0xd, _, _, _ => Some (Drw dest_reg src_reg fourth)
  | 0xe, _, 0x9, 0xe => Some (Skp dest_reg)
  | 0xe, _, 0xa, 0x1 => Some (Sknp dest_reg)
  | 0xf, _, 0x0, 0x7 => Some (LdDelayTimerSrcTx dest_reg)
  | 0xf, _, 0x0, 0xa => Some (LdK dest_reg)
  | 0xf, _, 0x1, 0x5 => Some (LdDelayTimerDestTx dest_reg)
  | 0xf, _, 0x1, 0x8 => Some (LdSoundTimerDestTx dest_reg)
  | 0xf, _, 0x1, 0xe => Some (AddIRegisterIndexed dest_reg)
  | 0xf, _, 0x2, 0x9 => Some (LdSpriteLocation dest_reg)
  | 0xf, _, 0x3, 0x3 => Some (LdBcd dest_reg)
  | 0xf, _, 0x5, 0x5 => Some (StoreRegistersToMemory dest_reg)
  | 0xf, _, 0x6, 0x5 => Some (ReadRegistersFromMemory dest_reg)
  | _, _, _, _ => None
  end.

(** src/cpu/chip8/operations/mod.rs:177-238, [decode_bytes_to_opcode].
    [Ok None] is [Err(..)]. With fewer than two bytes the error message
    indexes the slice (line 235) and panics. Bytes after the second are
    ignored. *)
Definition decode_bytes_to_opcode (bytes : list Z) : res (option opcode) :=
  match bytes with
  | b0 :: b1 :: _ =>
      let '(first, second) := to_be_nibbles b0 in
      let '(third, fourth) := to_be_nibbles b1 in
      do! dest_reg <- unwrap (gp_try_from second) ;
      do! src_reg <- unwrap (gp_try_from third) ;
      do! absolute <- u12_from_array second third fourth ;
      let immediate := u8_from_nibbles third fourth in
      Ok (decode_nibbles first second third fourth dest_reg src_reg absolute immediate)
  | _ => Panic
  end.

(** [iter.map(f).collect()] when [f] may panic. As in
    src/cpu/chip8/operations/mod.rs:305-308, 632-646, 668-678. *)
Fixpoint mapM {A B} (f : A -> res B) (l : list A) : res (list B) :=
  match l with
  | [] => Ok []
  | a :: l' => do! b <- f a ; do! bs <- mapM f l' ; Ok (b :: bs)
  end.

(** Abbreviations for two microcodes built all over
    src/cpu/chip8/operations/mod.rs, e.g. at 438-441 and 1086-1089. *)
Definition write_gp r v := Write8bitRegister (ByteGp r) v.
(** src/cpu/chip8/operations/mod.rs:917-920. *)
Definition skip_next := Inc16bitRegister WordPc 2.

(** src/cpu/chip8/operations/mod.rs:244-254, [Cls]. *)
Definition gen_cls : list microcode := [SetDisplayRange (0, 0) (X_MAX, Y_MAX) false].

(** src/cpu/chip8/operations/mod.rs:260-276, [Ret]. *)
Definition gen_ret (c : chip8) : res (list microcode) :=
  let current_sp := sp_read (c8_sp c) in
  do! ret_pc <- ring_read (c8_stack c) current_sp ;
  let inc_adjusted_addr := wrapping_sub_u16 ret_pc 2 in
  Ok [PopStack ret_pc; Write16bitRegister WordPc inc_adjusted_addr].

(** [start..stop] on [u16] values. src/cpu/chip8/operations/mod.rs:304. *)
Definition range_u16 (start stop : Z) : list Z :=
  map (fun k => start + Z.of_nat k) (seq 0 (Z.to_nat (stop - start))).

(** src/cpu/chip8/operations/mod.rs:325-344, one round of the fold. *)
Definition drw_pixel (c : chip8) (sprite : list Z) (start_x start_y : Z)
  (acc : bool * list microcode) (off : Z * Z) : res (bool * list microcode) :=
  let '(collision, pixel_writes) := acc in
  let '(x_offset, y_offset) := off in
  do! row <- vec_get sprite y_offset ;
  let bit_is_set := sprite_bit row x_offset in
  let adjusted_x := start_x + x_offset in
  let adjusted_y := start_y + y_offset in
  do! px <- display_pixel (c8_display c) adjusted_x adjusted_y ;
  let collision := match px with
                   | Some true => if bit_is_set then true else collision
                   | _ => collision
                   end in
  Ok (collision, pixel_writes ++ [SetDisplayPixel (adjusted_x, adjusted_y) bit_is_set]).

(** src/cpu/chip8/operations/mod.rs:295-356, [Drw]; [font_offset +
    sprite_size] is unchecked. *)
Definition gen_drw (p : profile) (c : chip8) (x_register y_register : gp_register) (sprite_size : Z)
  : res (list microcode) :=
  let font_offset := c8_i c in
  do! stop <- add_u16 p font_offset sprite_size ;
  do! sprite <- mapM (fun addr => am_read p (c8_space c) addr) (range_u16 font_offset stop) ;
  do! start_x <- read_gp_register c x_register ;
  do! start_y <- read_gp_register c y_register ;
  do! ' (collision, pixels) <-
    foldM (drw_pixel c sprite start_x start_y) (sprite_offsets (Z.to_nat sprite_size)) (false, []) ;
  Ok (pixels ++ [write_gp Vf (bool_as_u8 collision)]).

(** src/cpu/chip8/operations/mod.rs:383-392, [Jp<NonV0Indexed>]. *)
Definition gen_jp (address : Z) : list microcode :=
  [Write16bitRegister WordPc (wrapping_sub_u16 (u12_into address) 2)].

(** src/cpu/chip8/operations/mod.rs:396-409, [Jp<V0Indexed>]. *)
Definition gen_jp_v0 (c : chip8) (address : Z) : res (list microcode) :=
  do! v0_val <- read_gp_register c V0 ;
  do! o <- u12_new v0_val ;
  do! jmp_addr <- u12_wrapping_add address o ;
  Ok [Write16bitRegister WordPc (wrapping_sub_u16 (u12_into jmp_addr) 2)].

(** src/cpu/chip8/operations/mod.rs:423-432, [Ld<Absolute>]. *)
Definition gen_ld_absolute (address : Z) : list microcode :=
  [Write16bitRegister WordI (u12_into address)].

(** src/cpu/chip8/operations/mod.rs:434-443, [Ld<Immediate>]. *)
Definition gen_ld_immediate (r : gp_register) (value : Z) : list microcode := [write_gp r value].

(** src/cpu/chip8/operations/mod.rs:445-456, [Ld<VxVy>]. In every [VxVy]
    operation [first] is the source and [second] the destination
    (addressing_mode.rs:90-95). *)
Definition gen_ld_vxvy (c : chip8) (first second : gp_register) : res (list microcode) :=
  do! src_val <- read_gp_register c first ; Ok [write_gp second src_val].

(** src/cpu/chip8/operations/mod.rs:458-469, [Ld<SoundTimerDestTx>]. *)
Definition gen_ld_sound (c : chip8) (src : gp_register) : res (list microcode) :=
  do! src_val <- read_gp_register c src ; Ok [Write8bitRegister (ByteTimer Sound) src_val].

(** src/cpu/chip8/operations/mod.rs:471-482, [Ld<DelayTimerDestTx>]. *)
Definition gen_ld_delay (c : chip8) (src : gp_register) : res (list microcode) :=
  do! src_val <- read_gp_register c src ; Ok [Write8bitRegister (ByteTimer Delay) src_val].

(** src/cpu/chip8/operations/mod.rs:484-495, [Ld<DelayTimerSrcTx>]. *)
Definition gen_ld_from_delay (e : environment) (p : profile) (c : chip8) (dest : gp_register) (w : world)
  : res (list microcode * world) :=
  do! ' (src_val, w') <- clock_read e p (c8_dt c) w ; Ok ([write_gp dest src_val], w').

(** src/cpu/chip8/operations/mod.rs:512-524, [LdSpriteLocation]; the [u8]
    product is unchecked. *)
Definition gen_ld_sprite (p : profile) (c : chip8) (src : gp_register) : res (list microcode) :=
  do! src_val <- read_gp_register c src ;
  do! sprite_offset <- mul_u8 p src_val 5 ;
  Ok [Write16bitRegister WordI sprite_offset].

(** src/cpu/chip8/operations/mod.rs:532-542. *)
Definition extract_hundreds_place (x : Z) : Z := x / 100.
(** src/cpu/chip8/operations/mod.rs:536-538. *)
Definition extract_tens_place (x : Z) : Z := (x mod 100) / 10.
(** src/cpu/chip8/operations/mod.rs:540-542. *)
Definition extract_ones_place (x : Z) : Z := (x mod 100) mod 10.

(** src/cpu/chip8/operations/mod.rs:557-572, [LdBcd]; [i + 1] and [i + 2]
    are unchecked. *)
Definition gen_ld_bcd (p : profile) (c : chip8) (src : gp_register) : res (list microcode) :=
  do! src_val <- read_gp_register c src ;
  let hundreds := extract_hundreds_place src_val in
  let tens := extract_tens_place src_val in
  let ones := extract_ones_place src_val in
  do! i1 <- add_u16 p (c8_i c) 1 ;
  do! i2 <- add_u16 p (c8_i c) 2 ;
  Ok [WriteMemory (c8_i c) hundreds; WriteMemory i1 tens; WriteMemory i2 ones].

(** src/cpu/chip8/operations/mod.rs:593-612, [LdK]. *)
Definition gen_ld_k (c : chip8) (dest : gp_register) : list microcode :=
  match c8_interrupt c with
  | Some (InterruptKeyPress key_input) => [write_gp dest (key_as_u8 key_input)]
  | None => [Dec16bitRegister WordPc 2]
  end.

(** [(0..=last).filter(|idx| *idx <= 0x0f)] of
    src/cpu/chip8/operations/mod.rs:632-633 and 668-669. *)
Definition register_indices (last : Z) : list Z :=
  filter (fun idx => idx <=? 0x0f) (map Z.of_nat (seq 0 (S (Z.to_nat last)))).

(** src/cpu/chip8/operations/mod.rs:627-648, [ReadRegistersFromMemory];
    [i + reg] is unchecked. *)
Definition gen_read_registers (p : profile) (c : chip8) (src : gp_register) : res (list microcode) :=
  mapM (fun idx =>
          do! reg <- unwrap (gp_try_from idx) ;
          do! i_idx <- add_u16 p (c8_i c) (gp_index reg) ;
          do! i_indirect_val <- am_read p (c8_space c) i_idx ;
          Ok (write_gp reg i_indirect_val))
    (register_indices (gp_index src)).

(** src/cpu/chip8/operations/mod.rs:663-679, [StoreRegistersToMemory];
    [i + reg] is unchecked. *)
Definition gen_store_registers (p : profile) (c : chip8) (src : gp_register) : res (list microcode) :=
  mapM (fun idx =>
          do! reg <- unwrap (gp_try_from idx) ;
          do! src_val <- read_gp_register c reg ;
          do! i_idx <- add_u16 p (c8_i c) (gp_index reg) ;
          Ok (WriteMemory i_idx src_val))
    (register_indices (gp_index src)).

(** src/cpu/chip8/operations/mod.rs:693-710, [Call]. *)
Definition gen_call (c : chip8) (address : Z) : list microcode :=
  [PushStack (c8_pc c); Write16bitRegister WordPc (wrapping_sub_u16 (u12_into address) 2)].

(** src/cpu/chip8/operations/mod.rs:725-734, [Add<Immediate>]. *)
Definition gen_add_immediate (r : gp_register) (value : Z) : list microcode :=
  [Inc8bitRegister (ByteGp r) value].

(** src/cpu/chip8/operations/mod.rs:736-746, [Add<IRegisterIndexed>]. *)
Definition gen_add_i (c : chip8) (r : gp_register) : res (list microcode) :=
  do! gp_val <- read_gp_register c r ; Ok [Inc16bitRegister WordI gp_val].

(** src/cpu/chip8/operations/mod.rs:748-768, [Add<VxVy>]. *)
Definition gen_add_vxvy (c : chip8) (first second : gp_register) : res (list microcode) :=
  do! src_val <- read_gp_register c first ;
  do! dest_val <- read_gp_register c second ;
  let '(result, overflows) := overflowing_add_u8 dest_val src_val in
  Ok [write_gp second result; write_gp Vf (bool_as_u8 overflows)].

(** src/cpu/chip8/operations/mod.rs:784-804, [Sub]. *)
Definition gen_sub (c : chip8) (first second : gp_register) : res (list microcode) :=
  do! src_val <- read_gp_register c first ;
  do! dest_val <- read_gp_register c second ;
  let '(result, underflows) := overflowing_sub_u8 dest_val src_val in
  Ok [write_gp second result; write_gp Vf (bool_as_u8 (negb underflows))].

(** src/cpu/chip8/operations/mod.rs:820-840, [Subn]. *)
Definition gen_subn (c : chip8) (first second : gp_register) : res (list microcode) :=
  do! src_val <- read_gp_register c first ;
  do! dest_val <- read_gp_register c second ;
  let '(result, underflows) := overflowing_sub_u8 src_val dest_val in
  Ok [write_gp second result; write_gp Vf (bool_as_u8 (negb underflows))].

(** src/cpu/chip8/operations/mod.rs:854-867 [And], 881-894 [Or] and 981-994
    [Xor]: the same body with the three operators. *)
Definition gen_logic (op : Z -> Z -> Z) (c : chip8) (first second : gp_register)
  : res (list microcode) :=
  do! src_val <- read_gp_register c first ;
  do! dest_val <- read_gp_register c second ;
  Ok [write_gp second (op dest_val src_val)].

(** src/cpu/chip8/operations/mod.rs:909-925, [Skp]. *)
Definition gen_skp (c : chip8) (r : gp_register) : res (list microcode) :=
  do! reg_val <- read_gp_register c r ;
  Ok (match c8_interrupt c with
      | Some (InterruptKeyPress iv) => if key_as_u8 iv =? reg_val then [skip_next] else []
      | None => []
      end).

(** src/cpu/chip8/operations/mod.rs:947-961, [Sknp]. *)
Definition gen_sknp (c : chip8) (r : gp_register) : res (list microcode) :=
  do! reg_val <- read_gp_register c r ;
  Ok (match c8_interrupt c with
      | Some (InterruptKeyPress iv) => if key_as_u8 iv =? reg_val then [] else [skip_next]
      | None => [skip_next]
      end).

(** src/cpu/chip8/operations/mod.rs:1008-1029, [Shl]. *)
Definition gen_shl (c : chip8) (first second : gp_register) : res (list microcode) :=
  do! dest_val <- read_gp_register c second ;
  Ok [write_gp Vf (shr_u8 dest_val 7); write_gp second (shl_u8 dest_val 1)].

(** src/cpu/chip8/operations/mod.rs:1043-1064, [Shr]. *)
Definition gen_shr (c : chip8) (first second : gp_register) : res (list microcode) :=
  do! dest_val <- read_gp_register c second ;
  Ok [write_gp Vf (Z.land dest_val 1); write_gp second (shr_u8 dest_val 1)].

(** src/cpu/chip8/operations/mod.rs:1078-1094, [Se<Immediate>]. *)
Definition gen_se_immediate (c : chip8) (r : gp_register) (value : Z) : res (list microcode) :=
  do! reg_val <- read_gp_register c r ;
  Ok (if reg_val =? value then [skip_next] else []).

(** src/cpu/chip8/operations/mod.rs:1096-1112, [Se<VxVy>]. *)
Definition gen_se_vxvy (c : chip8) (first second : gp_register) : res (list microcode) :=
  do! first_reg_val <- read_gp_register c first ;
  do! second_reg_val <- read_gp_register c second ;
  Ok (if first_reg_val =? second_reg_val then [skip_next] else []).

(** src/cpu/chip8/operations/mod.rs:1126-1142, [Sne<Immediate>]. *)
Definition gen_sne_immediate (c : chip8) (r : gp_register) (value : Z) : res (list microcode) :=
  do! reg_val <- read_gp_register c r ;
  Ok (if negb (reg_val =? value) then [skip_next] else []).

(** src/cpu/chip8/operations/mod.rs:1144-1160, [Sne<VxVy>]. *)
Definition gen_sne_vxvy (c : chip8) (first second : gp_register) : res (list microcode) :=
  do! first_reg_val <- read_gp_register c first ;
  do! second_reg_val <- read_gp_register c second ;
  Ok (if negb (first_reg_val =? second_reg_val) then [skip_next] else []).

(** src/cpu/chip8/operations/mod.rs:1174-1189, [Rnd]. *)
Definition gen_rnd (e : environment) (r : gp_register) (value : Z) (w : world)
  : list microcode * world :=
  let '(rand, w') := random e w in ([write_gp r (Z.land rand value)], w').

(** src/cpu/chip8/operations/mod.rs:116-175, the dispatch over [Opcode];
    [VxVy::new(src, dest)] is passed as [src dest]. *)
Definition generate (e : environment) (p : profile) (op : opcode) (c : chip8) (w : world)
  : res (list microcode * world) :=
  let pure (l : list microcode) := Ok (l, w) in
  let lift (r : res (list microcode)) := do! l <- r ; Ok (l, w) in
  match op with
  | Cls => pure gen_cls
  | Ret => lift (gen_ret c)
  | Drw x y n => lift (gen_drw p c x y n)
  | Sys _ => pure []
  | Call a => pure (gen_call c a)
  | JpNonV0Indexed a => pure (gen_jp a)
  | JpV0Indexed a => lift (gen_jp_v0 c a)
  | LdAbsolute a => pure (gen_ld_absolute a)
  | LdImmediate dest value => pure (gen_ld_immediate dest value)
  | LdVxVy dest src => lift (gen_ld_vxvy c src dest)
  | LdSoundTimerDestTx r => lift (gen_ld_sound c r)
  | LdDelayTimerDestTx r => lift (gen_ld_delay c r)
  | LdDelayTimerSrcTx r => gen_ld_from_delay e p c r w
  | LdBcd r => lift (gen_ld_bcd p c r)
  | LdK r => pure (gen_ld_k c r)
  | LdSpriteLocation r => lift (gen_ld_sprite p c r)
  | AddImmediate dest value => pure (gen_add_immediate dest value)
  | AddIRegisterIndexed r => lift (gen_add_i c r)
  | AddVxVy dest src => lift (gen_add_vxvy c src dest)
  | Sub dest src => lift (gen_sub c src dest)
  | Subn dest src => lift (gen_subn c src dest)
  | And dest src => lift (gen_logic Z.land c src dest)
  | Or dest src => lift (gen_logic Z.lor c src dest)
  | Shl dest src => lift (gen_shl c src dest)
  | Shr dest src => lift (gen_shr c src dest)
  | Xor dest src => lift (gen_logic Z.lxor c src dest)
  | SeVxVy dest src => lift (gen_se_vxvy c src dest)
  | SeImmediate r value => lift (gen_se_immediate c r value)
  | SneVxVy dest src => lift (gen_sne_vxvy c src dest)
  | SneImmediate r value => lift (gen_sne_immediate c r value)
  | ReadRegistersFromMemory r => lift (gen_read_registers p c r)
  | StoreRegistersToMemory r => lift (gen_store_registers p c r)
  | Skp r => lift (gen_skp c r)
  | Sknp r => lift (gen_sknp c r)
  | Rnd r value => Ok (gen_rnd e r value w)
  end.
