(** Model of the texts the library produces: the formatting traits of [u12],
    the [Debug] text of an address map, the error messages of writes and
    registrations, and the line printed by the example peripheral.

    The integer formatting of the Rust standard library is modelled from its
    documentation: digits by repeated division, and padding to a minimum width
    ([Formatter::pad_integral]). Simplification: only the flags [#], [0] and a
    width are modelled; fill characters, alignment, [+] and the pretty form
    [{:#?}] are not. *)
From Verif Require Import Base ModelMap ModelU12 ModelChip8 ModelExamples.
From Coq Require Import String Ascii.
Open Scope string_scope.
Open Scope Z_scope.

(** Standard library: the digit [d] in a base up to 16, letters in the given
    case. Called from src/cpu/chip8/u12.rs:48-82. *)
Definition digit_char (upper : bool) (d : Z) : ascii :=
  ascii_of_nat (Z.to_nat (if d <? 10 then 48 + d else if upper then 55 + d else 87 + d)).

(** Standard library: the loop of the integer formatters, one digit per
    round, ending when the quotient is 0; [fuel] bounds the rounds (at most
    64 for a [usize], which is the widest type printed here). Called from
    src/cpu/chip8/u12.rs:48-82. *)
Fixpoint digits_loop (fuel : nat) (upper : bool) (base v : Z) (acc : string) : string :=
  match fuel with
  | O => acc
  | S fuel' =>
      let acc' := String (digit_char upper (v mod base)) acc in
      if v / base =? 0 then acc' else digits_loop fuel' upper base (v / base) acc'
  end.
(** Called from src/cpu/chip8/u12.rs:48-82. *)
Definition digits (upper : bool) (base v : Z) : string := digits_loop 64 upper base v "".

(** Padding, for src/cpu/chip8/u12.rs:48-82. *)
Fixpoint copies (n : nat) (c : ascii) : string :=
  match n with O => "" | S n' => String c (copies n' c) end.

(** Standard library: format flags, and [Formatter::pad_integral] for a
    non-negative number. Handed over in src/cpu/chip8/u12.rs:48-82. *)
Record flags := mkFlags { alternate : bool; zero_pad : bool; width : nat }.
(** [{}] in src/address_map/mod.rs:86, 111-114. *)
Definition plain : flags := mkFlags false false 0.
(** Called from src/cpu/chip8/u12.rs:48-82. *)
Definition pad_integral (f : flags) (prefix text : string) : string :=
  let prefix := if alternate f then prefix else "" in
  let missing := (width f - (String.length prefix + String.length text))%nat in
  if zero_pad f then prefix ++ copies missing "0" ++ text
  else copies missing " " ++ prefix ++ text.

(** src/cpu/chip8/u12.rs:48-82: [Debug], [Display], [UpperHex], [LowerHex],
    [Octal] and [Binary] hand the inner [u16] and the formatter on. Writing to
    the formatter is assumed to succeed. *)
Definition u12_debug (f : flags) (v : Z) : string := pad_integral f "" (digits false 10 v).
(** src/cpu/chip8/u12.rs:54-58. *)
Definition u12_display (f : flags) (v : Z) : string := pad_integral f "" (digits false 10 v).
(** src/cpu/chip8/u12.rs:60-64. *)
Definition u12_upper_hex (f : flags) (v : Z) : string := pad_integral f "0x" (digits true 16 v).
(** src/cpu/chip8/u12.rs:66-70. *)
Definition u12_lower_hex (f : flags) (v : Z) : string := pad_integral f "0x" (digits false 16 v).
(** src/cpu/chip8/u12.rs:72-76. *)
Definition u12_octal (f : flags) (v : Z) : string := pad_integral f "0o" (digits false 8 v).
(** src/cpu/chip8/u12.rs:78-82. *)
Definition u12_binary (f : flags) (v : Z) : string := pad_integral f "0b" (digits false 2 v).

(** Standard library: [{}] and [{:?}] of an unsigned integer. Used in
    src/address_map/mod.rs:111-114, 149. *)
Definition decimal (v : Z) : string := digits false 10 v.

(** Standard library: [{:?}] of a [RangeInclusive<u16>] that has not been
    iterated. Used in src/address_map/mod.rs:86, 111-114. *)
Definition range_debug (lo hi : Z) : string := decimal lo ++ "..=" ++ decimal hi.

(** Standard library: [{:?}] of a [Vec], given the texts of its elements.
    Used in src/address_map/mod.rs:86. *)
Fixpoint comma_list (l : list string) : string :=
  match l with
  | [] => ""
  | [s] => s
  | s :: l' => s ++ ", " ++ comma_list l'
  end.

(** src/address_map/mod.rs:80-88, [Debug for AddressMap]; the keys in the
    iteration order of the hash map. *)
Definition am_debug {D} (m : address_map D) : string :=
  "AddressMap [" ++ comma_list (map (fun e => range_debug (range_lo e) (range_hi e)) m) ++ "]".

(** src/address_map/mod.rs:107-118, the message of a refused registration: the
    first key in iteration order for which the closure returns [Err]. *)
Fixpoint am_register_message {D} (m : address_map D) (lo hi : Z) : option string :=
  match m with
  | [] => None
  | e :: m' =>
      if key_contains e lo || key_contains e hi
      then Some ("address space " ++ range_debug lo hi ++ " overlaps with " ++ range_debug (range_lo e) (range_hi e))
      else am_register_message m' lo hi
  end.

(** The message in the [Err] of a device's write, [None] for [Ok(_)]; the
    devices themselves are modelled without it (ModelMap.v).
    src/address_map/mod.rs:41. *)
Class Messages (D : Type) := { write_message : profile -> D -> Z -> Z -> res (option string) }.

(** src/address_map/memory.rs:86-90 and 102-104. *)
#[export] Instance memory_messages : Messages memory := {
  write_message p m addr value :=
    match mem_kind m with
    | ReadWrite =>
        do! addr_offset <- sub_u16 p addr (start_address m) ;
        do! _ <- vec_set (mem_inner m) addr_offset value ; Ok None
    | ReadOnly => Ok (Some "memory is read-only")
    end
}.

(** src/address_map/mod.rs:143-155. *)
Fixpoint am_write_message {D} `{Messages D} (p : profile) (m : address_map D) (addr value : Z) : res (option string) :=
  match m with
  | [] => Ok (Some ("address space " ++ decimal addr ++ " unallocated"))
  | e :: m' =>
      if key_contains e addr then write_message p (device e) addr value
      else am_write_message p m' addr value
  end.
(** src/address_map/mod.rs:143-155. *)
#[export] Instance am_messages {D} `{Messages D} : Messages (address_map D) := { write_message := am_write_message }.

(** examples/custom_peripheral_addr_space.rs:47-60; the misspelling is the
    code's. *)
#[export] Instance via_messages : Messages via := {
  write_message p d addr value :=
    if addr =? port_a_addr d then Ok None
    else if addr =? port_b_addr d then Ok None
    else if (port_a_mask d <=? addr) && (addr <=? port_b_mask d) then Ok None
    else Ok (Some ("unknown VIA write addrress: " ++ decimal addr))
}.

(** Dynamic dispatch in the example's address map.
    src/address_map/mod.rs:154. *)
#[export] Instance any_messages : Messages any_device := {
  write_message p d addr value :=
    match d with BoxMemory m => write_message p m addr value | BoxVia v => write_message p v addr value end
}.

(** src/cpu/chip8/memory.rs:31-41. *)
Definition ring_write_message (r : ring) (offset : Z) : res (option string) :=
  do! wrapped_offset <- ring_offset r offset ;
  if wrapped_offset <? Z.of_nat (List.length (ring_inner r)) then Ok None
  else Ok (Some ("invalid addr: " ++ decimal offset)).

(** src/cpu/mos6502/mod.rs:267, the message for a byte that is no opcode. *)
Definition no_opcode_message (b : Z) : string := "No match found for " ++ decimal b.

(** src/cpu/chip8/operations/mod.rs:232-237, the message for two bytes that are
    no instruction, [{:#02x}] of [u16::from_be_bytes]. *)
Definition no_instruction_message (b0 b1 : Z) : string :=
  "No match found for " ++ pad_integral (mkFlags true true 2) "0x" (digits false 16 (256 * b0 + b1)).

(** custom_peripheral_addr_space.rs:50 and custom_peripheral_microcode_hook.rs:75,
    [println!("{:08b}", value)] of a byte. *)
Definition port_line (value : Z) : string := pad_integral (mkFlags false true 8) "0b" (digits false 2 value) ++ String (ascii_of_nat 10) "".
