(** Model of src/cpu/chip8/display.rs: the 64x32 display. *)
From Verif Require Import Base.

(** src/cpu/chip8/display.rs:11-13, struct [Display]: 32 rows of 64 pixels.
    The fixed array shape is an invariant of the model ([display_ok] in
    SpecChip8.v), not a type. *)
Definition display := list (list bool).

(** src/cpu/chip8/display.rs:25 and 28 (and 31-38, the accessors). *)
Definition X_MAX : Z := 64.
(** src/cpu/chip8/display.rs:28. *)
Definition Y_MAX : Z := 32.

(** src/cpu/chip8/display.rs:15-21, [Display::default]. *)
Definition display_default : display := repeat (repeat false 64) 32.

(** src/cpu/chip8/display.rs:1-7. Coordinates are [usize]. *)
Definition is_within_display_boundary (x y : Z) : bool := (x <? X_MAX) && (y <? Y_MAX).

(** src/cpu/chip8/display.rs:44-50, [pixel]; the array accesses would panic
    outside the bounds. *)
Definition display_pixel (d : display) (x y : Z) : res (option bool) :=
  if is_within_display_boundary x y then
    do! row <- vec_get d y ;
    do! b <- vec_get row x ;
    Ok (Some b)
  else Ok None.

(** src/cpu/chip8/display.rs:54-61, [with_inner]. *)
Definition with_inner (d : display) (f : display -> display) : display := f d.

(** src/cpu/chip8/display.rs:86-94, [write_pixel_mut] (through
    [with_inner_mut], 65-70): the changed display and the previous value. *)
Definition write_pixel_mut (d : display) (x y : Z) (pixel_on : bool)
  : res (display * option bool) :=
  do! o <- display_pixel d x y ;
  match o with
  | Some previous_value =>
      do! row <- vec_get d y ;
      do! row' <- vec_set row x pixel_on ;
      do! d' <- vec_set d y row' ;
      Ok (d', Some previous_value)
  | None => Ok (d, None)
  end.

(** src/cpu/chip8/display.rs:77-80, [write_pixel]: the by-value variant. *)
Definition write_pixel (d : display) (x y : Z) (pixel_on : bool)
  : res (display * option bool) := write_pixel_mut d x y pixel_on.

(** src/cpu/chip8/display.rs:135-154, enum [Font]. *)
Inductive font :=
| FOne | FTwo | FThree | FFour | FFive | FSix | FSeven | FEight | FNine | FZero
| FA | FB | FC | FD | FE | FF.

(** src/cpu/chip8/display.rs:156-177 (and 179-184), the glyph bytes. *)
Definition font_bytes (f : font) : list Z :=
  match f with
  | FOne => [0x20; 0x60; 0x20; 0x20; 0x70]
  | FTwo => [0xF0; 0x10; 0xF0; 0x80; 0xF0]
  | FThree => [0xF0; 0x10; 0xF0; 0x10; 0xF0]
  | FFour => [0x90; 0x90; 0xF0; 0x10; 0x10]
  | FFive => [0xF0; 0x80; 0xF0; 0x10; 0xF0]
  | FSix => [0xF0; 0x80; 0xF0; 0x90; 0xF0]
  | FSeven => [0xF0; 0x10; 0x20; 0x40; 0x40]
  | FEight => [0xF0; 0x90; 0xF0; 0x90; 0xF0]
  | FNine => [0xF0; 0x90; 0xF0; 0x10; 0xF0]
  | FZero => [0xF0; 0x90; 0x90; 0x90; 0xF0]
  | FA => [0xF0; 0x90; 0xF0; 0x90; 0x90]
  | FB => [0xE0; 0x90; 0xE0; 0x90; 0xE0]
  | FC => [0xF0; 0x80; 0x80; 0x80; 0xF0]
  | FD => [0xE0; 0x90; 0x90; 0x90; 0xE0]
  | FE => [0xF0; 0x80; 0xF0; 0x80; 0xF0]
  | FF => [0xF0; 0x80; 0xF0; 0x80; 0x80]
  end.

(** [(0..8u8).flat_map(|x| (0..h).map(|y| (x, y)))] as used in
    src/cpu/chip8/display.rs:112-113 and src/cpu/chip8/operations/mod.rs:
    317-322: the offsets of an 8-wide sprite of height [h], column by column. *)
Definition sprite_offsets (h : nat) : list (Z * Z) :=
  flat_map (fun x => map (fun y => (Z.of_nat x, Z.of_nat y)) (seq 0 h)) (seq 0 8).

(** src/cpu/chip8/display.rs:115 (operations/mod.rs:326): bit [x_offset]
    of a sprite row counted from the most significant end. *)
Definition sprite_bit (row x_offset : Z) : bool :=
  negb (Z.land (shr_u8 row (7 - x_offset)) 0x1 =? 0).

(** src/cpu/chip8/display.rs:107-126, [write_sprite_mut]. Simplification:
    [x + x_offset] and [y + y_offset] are [usize] additions on values below
    64 + 8 and cannot overflow. *)
Definition write_sprite_mut (d : display) (x y : Z) (sprite : font)
  : res (display * option bool) :=
  if is_within_display_boundary x y then
    do! ' (d', collision) <-
      foldM (fun '(d, collision) '(x_offset, y_offset) =>
               do! row <- vec_get (font_bytes sprite) y_offset ;
               do! ' (d', o) <- write_pixel_mut d (x + x_offset) (y + y_offset)
                                 (sprite_bit row x_offset) ;
               Ok (d', match o with Some b => b | None => collision end))
        (sprite_offsets 5) (d, false) ;
    Ok (d', Some collision)
  else Ok (d, None).

(** src/cpu/chip8/display.rs:99-102, [write_sprite]. *)
Definition write_sprite (d : display) (x y : Z) (sprite : font)
  : res (display * option bool) := write_sprite_mut d x y sprite.

(** src/cpu/chip8/display.rs:130-132, [Display::unwrap]. *)
Definition display_unwrap (d : display) : list (list bool) := d.
