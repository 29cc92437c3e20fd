(** The states of a 6502 machine (C124). *)
From Verif Require Import Base ModelMap ModelStep ModelRegs6502 ModelCpu6502 ModelOperand ModelIsa6502 ModelRun6502 SpecMap.

(** What can be at an address: a byte of RAM, a byte of ROM or nothing. *)
Inductive cell := Ram (v : Z) | Rom (v : Z) | Nothing.
Definition cell_ok (c : cell) : Prop := match c with Ram v | Rom v => u8 v | Nothing => True end.
Definition byte_at (c : cell) : Z := match c with Ram v | Rom v => v | Nothing => 0 end.

(** Address [a] of the map behaves as that cell: it reads as its byte; RAM
    accepts every byte, and then that address alone reads as it; the others
    refuse it and nothing changes. *)
Definition holds_cell (p : profile) (m : address_map memory) (a : Z) (c : cell) : Prop :=
  am_read p m a = Ok (byte_at c) /\
  forall v, u8 v ->
    match c with
    | Ram _ => exists m', am_write p m a v = Ok (m', WOk v) /\
                 forall b, am_read p m' b = if b =? a then Ok v else am_read p m b
    | _ => am_write p m a v = Ok (m, WErr)
    end.

(** The machines a user makes with the public functions: the default one or an
    empty one, memories added at addresses that were free and with a byte for
    each address, registers set, bytes written from outside, [reset], the
    iterator and [run]. *)
Inductive made (p : profile) : mos6502 memory -> Prop :=
| made_default cpu : mos6502_default p = Ok cpu -> made p cpu
| made_empty : made p (with_addressmap am_new)
| made_memory cpu k lo hi m data cpu' : made p cpu ->
    0 <= lo <= hi -> hi <= 65535 -> Z.of_nat (length data) = hi - lo + 1 -> Forall u8 data ->
    (forall a, lo <= a <= hi -> unmapped (amap cpu) a) ->
    memory_new p k lo hi = Ok m -> register_address_space cpu lo hi (memory_load m data) = Some cpu' -> made p cpu'
| made_gp cpu r v : made p cpu -> u8 v -> made p (with_gp_register cpu r v)
| made_sp cpu v : made p cpu -> u8 v -> made p (with_sp_register cpu v)
| made_pc cpu v : made p cpu -> u16 v -> made p (with_pc_register cpu v)
| made_ps cpu s : made p cpu -> made p (with_ps_register cpu s)
| made_poke cpu a v m r : made p cpu -> u16 a -> u8 v -> am_write p (amap cpu) a v = Ok (m, r) ->
    made p (with_owned_address_map cpu (fun _ => m))
| made_reset cpu n cpu' : made p cpu -> reset p cpu = Ok (NotReady n cpu') -> made p cpu'
| made_next cpu ops cpu' : made p cpu -> next p cpu = Ok (ops, cpu') -> made p cpu'
| made_run cpu n cpu' : made p cpu -> run p cpu n = Ok (Ready cpu') -> made p cpu'.
