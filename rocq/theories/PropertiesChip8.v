(** Properties C41-C46, C48, C50, C51, C53, C54, C61: the CHIP-8 instructions.

    In every statement the machine is about to execute a given word
    ([fetches]); [becomes] says the instruction succeeds and which parts of the
    machine have which value afterwards, all others being unchanged ([upd]).
    Registers are given by number: 0..14, since the code has no VF (C43). *)
From Verif Require Import Base Arith ModelMap ModelU12 ModelDisplay ModelChip8 ModelOpsChip8 ModelRunChip8.
From Verif Require Import SpecMap Link6502 SpecChip8 SpecChip8Parts ProofDecode8 ProofChip8 ProofChip8Step ProofChip8Parts
  ProofChip8Reach.

Section Instructions.
Variables (e : environment) (p : profile) (c : chip8) (w : world).
Hypotheses (W : well_formed c) (He : env_ok e).

(** Abbreviations for the observation before the instruction. *)
Local Notation now := (observe c).
Local Notation V x := (observe c (PV x)).
(** The machine continues [k] bytes further and nothing else changes. *)
Local Notation next_at k := (advance (observe c) k).

Lemma effect_becomes op f w' : operands_ok op -> fetches p c (encode op) ->
  effect e p now w op = Some (f, w') -> becomes e p c w f w'.
Proof. intros Hop Hf E. pose proof (step_effect e p c w W He op Hop Hf) as K. unfold delivers in K. rewrite E in K. exact K. Qed.
Lemma effect_panics op : operands_ok op -> fetches p c (encode op) ->
  effect e p now w op = None -> step e p c w = Panic.
Proof. intros Hop Hf E. pose proof (step_effect e p c w W He op Hop Hf) as K. unfold delivers in K. rewrite E in K. exact K. Qed.

Local Ltac reg x H := let r := fresh "r" in destruct (gp_of_index x ltac:(lia)) as (r & _ & <-).
Local Ltac go op := apply (effect_becomes op); [cbn [operands_ok]; try exact I; try assumption; try lia|assumption|];
  cbn [effect]; unfold needs, has, done, v;
  repeat match goal with
  | |- context [gp_index ?r <? 15] => replace (gp_index r <? 15) with true by lia
  end; cbn [andb]; try reflexivity.
Local Ltac gop op := apply (effect_panics op); [cbn [operands_ok]; try exact I; try assumption; try lia|assumption|];
  cbn [effect]; unfold needs, has, done, v;
  repeat match goal with
  | |- context [gp_index ?r <? 15] => first [replace (gp_index r <? 15) with true by lia|replace (gp_index r <? 15) with false by lia]
  end; cbn [andb]; try reflexivity.

(** ** C53 *)
Theorem C53_jump : forall nnn, 0 <= nnn < 4096 -> fetches p c (0x1000 + nnn) ->
  becomes e p c w (upd now PPC nnn) w.
Proof. intros nnn H Hf. go (JpNonV0Indexed nnn). Qed.

Theorem C53_jump_v0 : forall nnn, 0 <= nnn < 4096 -> fetches p c (0xB000 + nnn) ->
  becomes e p c w (upd now PPC ((nnn + V 0) mod 4096)) w.
Proof. intros nnn H Hf. go (JpV0Indexed nnn). Qed.

Theorem C53_load_i : forall nnn, 0 <= nnn < 4096 -> fetches p c (0xA000 + nnn) ->
  becomes e p c w (upd (next_at 2) PI nnn) w.
Proof. intros nnn H Hf. go (LdAbsolute nnn). Qed.

Theorem C53_call_target : forall nnn, 0 <= nnn < 4096 -> fetches p c (0x2000 + nnn) ->
  exists f, becomes e p c w f w /\ f PPC = nnn.
Proof. intros nnn H Hf. eexists. split; [go (Call nnn)|reflexivity]. Qed.

(** ** C41 *)
(** What CALL and RET do. *)
Theorem C41_call_exact : forall nnn, 0 <= nnn < 4096 -> fetches p c (0x2000 + nnn) ->
  becomes e p c w (upd (upd now (PStack (now PSP)) (now PPC)) PPC nnn) w.
Proof. intros nnn H Hf. go (Call nnn). Qed.

Theorem C41_ret_exact : fetches p c 0x00EE -> becomes e p c w (upd now PPC (now (PStack (now PSP)))) w.
Proof. intros Hf. go Ret. Qed.

(** ** C43 *)
Theorem C43_load_immediate_partial : forall x kk, 0 <= x < 15 -> u8 kk -> fetches p c (0x6000 + 256 * x + kk) ->
  becomes e p c w (upd (next_at 2) (PV x) kk) w.
Proof. intros x kk H K Hf. reg x H. go (LdImmediate r kk). Qed.

(** Any instruction that involves VF panics: VF is an operand, or the flag
    register, or among V0..Vx of a dump or load. (Fx0A touches its register
    only if a key is pressed.) *)
Theorem C43_vf_panics : forall op, operands_ok op -> fetches p c (encode op) -> involves_vf op = true ->
  (forall x, op = LdK x -> now PKey <> -1) -> step e p c w = Panic.
Proof.
  intros op Hop Hf Hv Hk. apply (effect_panics op Hop Hf).
  assert (B : forall r, gp_index r = 15 -> has r = false) by (intros r Hr; unfold has; lia).
  destruct op; cbn [involves_vf] in Hv; try discriminate; try reflexivity; cbn [effect];
    rewrite ?Bool.orb_true_iff, ?Z.eqb_eq in Hv;
    try (rewrite (B _ Hv); reflexivity);
    try (destruct Hv as [Hv|Hv]; rewrite (B _ Hv), ?Bool.andb_false_r; reflexivity).
  specialize (Hk _ eq_refl). rewrite (B _ Hv). replace (now PKey =? -1) with false by lia. reflexivity.
Qed.

(** ** C62 *)
(** Exactly when a step panics. *)
Theorem C62_panics_iff : step e p c w = Panic <->
  (p = Debug /\ now PPC = 0xffff) \/
  exists word, fetches p c word /\
    (undocumented word = true \/
     exists op, word = encode op /\ operands_ok op /\
       ((involves_vf op = true /\ forall x, op = LdK x -> now PKey <> -1) \/
        (exists x, op = LdBcd x /\ 0xfff < now PI + 2) \/
        (exists x, op = StoreRegistersToMemory x /\ 0xfff < now PI + gp_index x) \/
        (exists x, op = ReadRegistersFromMemory x /\ p = Debug /\ 0xffff < now PI + gp_index x) \/
        (exists x, op = LdSpriteLocation x /\ p = Debug /\ 51 < V (gp_index x)))).
Proof.
  pose proof (wf_pc c W) as Hp. unfold u16 in Hp. split.
  - intros E. destruct (step_panic_cases e p c w W He E) as [K|(word & Hf & K)]; [left; exact K|].
    right. exists word. split; [exact Hf|]. destruct K as [K|(op & -> & Hop & Ee)]; [left; exact K|].
    right. exists op. split; [reflexivity|]. split; [exact Hop|]. exact (effect_none e p now w op Ee).
  - intros [[-> Hpc]|(word & Hf & [K|(op & -> & Hop & K)])].
    + exact (step_pc_end e c w W Hpc).
    + exact (step_undocumented e p c w word W Hf K).
    + destruct K as [[K1 K2]|[(x & -> & K)|[(x & -> & K)|[(x & -> & Hd & K)|(x & -> & Hd & K)]]]].
      * exact (C43_vf_panics op Hop Hf K1 K2).
      * apply (effect_panics _ Hop Hf). cbn [effect]. replace (now PI + 2 <=? 0xfff) with false by lia. rewrite Bool.andb_false_r. reflexivity.
      * apply (effect_panics _ Hop Hf). cbn [effect]. replace (now PI + gp_index x <=? 0xfff) with false by lia. rewrite Bool.andb_false_r. reflexivity.
      * apply (effect_panics _ Hop Hf). rewrite Hd. cbn [effect]. replace (now PI + gp_index x <? 65536) with false by lia. rewrite Bool.andb_false_r. reflexivity.
      * apply (effect_panics _ Hop Hf). rewrite Hd. cbn [effect]. unfold SpecChip8.v. replace (5 * V (gp_index x) <? 256) with false by lia. rewrite Bool.andb_false_r. reflexivity.
Qed.

(** ** C61 *)
Theorem C61_copy : forall x y, 0 <= x < 15 -> 0 <= y < 15 -> fetches p c (0x8000 + 256 * x + 16 * y) ->
  becomes e p c w (upd (next_at 2) (PV x) (V y)) w.
Proof. intros x y H K Hf. reg x H. reg y K. go (LdVxVy r r0). Qed.
Theorem C61_or : forall x y, 0 <= x < 15 -> 0 <= y < 15 -> fetches p c (0x8001 + 256 * x + 16 * y) ->
  becomes e p c w (upd (next_at 2) (PV x) (Z.lor (V x) (V y))) w.
Proof. intros x y H K Hf. reg x H. reg y K. go (Or r r0). Qed.
Theorem C61_and : forall x y, 0 <= x < 15 -> 0 <= y < 15 -> fetches p c (0x8002 + 256 * x + 16 * y) ->
  becomes e p c w (upd (next_at 2) (PV x) (Z.land (V x) (V y))) w.
Proof. intros x y H K Hf. reg x H. reg y K. go (And r r0). Qed.
Theorem C61_xor : forall x y, 0 <= x < 15 -> 0 <= y < 15 -> fetches p c (0x8003 + 256 * x + 16 * y) ->
  becomes e p c w (upd (next_at 2) (PV x) (Z.lxor (V x) (V y))) w.
Proof. intros x y H K Hf. reg x H. reg y K. go (Xor r r0). Qed.

(** ** C42 *)
Theorem C42_add_immediate : forall x kk, 0 <= x < 15 -> u8 kk -> fetches p c (0x7000 + 256 * x + kk) ->
  becomes e p c w (upd (next_at 2) (PV x) ((V x + kk) mod 256)) w.
Proof. intros x kk H K Hf. reg x H. go (AddImmediate r kk). Qed.

Theorem C42_add_i : forall x, 0 <= x < 15 -> fetches p c (0xF01E + 256 * x) ->
  becomes e p c w (upd (next_at 2) PI ((now PI + V x) mod 65536)) w.
Proof. intros x H Hf. reg x H. go (AddIRegisterIndexed r). Qed.

(** The instructions with a flag always panic. *)
Theorem C42_flags_refuted : forall x y n, 0 <= x < 16 -> 0 <= y < 16 -> In n [0x4; 0x5; 0x6; 0x7; 0xE] ->
  fetches p c (0x8000 + 256 * x + 16 * y + n) -> step e p c w = Panic.
Proof.
  intros x y n H K Hn Hf. reg x H. reg y K. cbn [In] in Hn.
  assert (Ew : forall z, fetches p c z -> z = 0x8000 + 256 * gp_index r + 16 * gp_index r0 + n -> True) by (intros; exact I).
  destruct Hn as [<-|[<-|[<-|[<-|[<-|[]]]]]].
  - apply (effect_panics (AddVxVy r r0)); [exact I| |reflexivity]. cbn [encode]. replace (0x8004 + 256 * gp_index r + 16 * gp_index r0) with (0x8000 + 256 * gp_index r + 16 * gp_index r0 + 4) by lia. exact Hf.
  - apply (effect_panics (Sub r r0)); [exact I| |reflexivity]. cbn [encode]. replace (0x8005 + 256 * gp_index r + 16 * gp_index r0) with (0x8000 + 256 * gp_index r + 16 * gp_index r0 + 5) by lia. exact Hf.
  - apply (effect_panics (Shr r r0)); [exact I| |reflexivity]. cbn [encode]. replace (0x8006 + 256 * gp_index r + 16 * gp_index r0) with (0x8000 + 256 * gp_index r + 16 * gp_index r0 + 6) by lia. exact Hf.
  - apply (effect_panics (Subn r r0)); [exact I| |reflexivity]. cbn [encode]. replace (0x8007 + 256 * gp_index r + 16 * gp_index r0) with (0x8000 + 256 * gp_index r + 16 * gp_index r0 + 7) by lia. exact Hf.
  - apply (effect_panics (Shl r r0)); [exact I| |reflexivity]. cbn [encode]. replace (0x800E + 256 * gp_index r + 16 * gp_index r0) with (0x8000 + 256 * gp_index r + 16 * gp_index r0 + 14) by lia. exact Hf.
Qed.

(** The microcode emitted for them is right: it assigns the 8-bit result to Vx
    and the flag to VF; only its execution fails, for lack of VF. *)
Theorem C42_flags_partial : forall x y, has x = true -> has y = true ->
  let vx := V (gp_index x) in let vy := V (gp_index y) in
  generate e p (AddVxVy x y) c w =
    Ok ([write_gp x ((vx + vy) mod 256); write_gp Vf (if 255 <? vx + vy then 1 else 0)], w) /\
  generate e p (Sub x y) c w =
    Ok ([write_gp x ((vx - vy) mod 256); write_gp Vf (if vy <=? vx then 1 else 0)], w) /\
  generate e p (Subn x y) c w =
    Ok ([write_gp x ((vy - vx) mod 256); write_gp Vf (if vx <=? vy then 1 else 0)], w) /\
  generate e p (Shr x y) c w =
    Ok ([write_gp Vf (vx mod 2); write_gp x (vx / 2)], w) /\
  generate e p (Shl x y) c w =
    Ok ([write_gp Vf (vx / 128); write_gp x ((2 * vx) mod 256)], w).
Proof.
  intros x y Hx Hy vx vy. cbn [generate]. unfold gen_add_vxvy, gen_sub, gen_subn, gen_shr, gen_shl.
  rewrite (read_gp c x W Hx), (read_gp c y W Hy). cbn [bind]. fold vx vy.
  assert (H1 : u8 vx) by (apply (observe_v_u8 c _ W), has_index, Hx).
  assert (H2 : u8 vy) by (apply (observe_v_u8 c _ W), has_index, Hy). unfold u8 in *.
  unfold overflowing_add_u8, overflowing_sub_u8, bool_as_u8, shr_u8, shl_u8.
  rewrite (Z.shiftl_mul_pow2 vx 1), !Z.shiftr_div_pow2 by lia.
  change (2 ^ 1) with 2. change (2 ^ 7) with 128.
  change 1 with (Z.ones 1) at 7. rewrite ?Z.land_ones by lia.
  replace (256 <=? vx + vy) with (255 <? vx + vy) by lia.
  replace (negb (vx - vy <? 0)) with (vy <=? vx) by lia. replace (negb (vy - vx <? 0)) with (vx <=? vy) by lia.
  replace (vx * 2) with (2 * vx) by lia.
  repeat split.
Qed.

(** ** C44 *)
Theorem C44_se_immediate : forall x kk, 0 <= x < 15 -> u8 kk -> fetches p c (0x3000 + 256 * x + kk) ->
  becomes e p c w (next_at (if V x =? kk then 4 else 2)) w.
Proof. intros x kk H K Hf. reg x H. go (SeImmediate r kk). Qed.
Theorem C44_sne_immediate : forall x kk, 0 <= x < 15 -> u8 kk -> fetches p c (0x4000 + 256 * x + kk) ->
  becomes e p c w (next_at (if V x =? kk then 2 else 4)) w.
Proof. intros x kk H K Hf. reg x H. go (SneImmediate r kk). Qed.
Theorem C44_se : forall x y, 0 <= x < 15 -> 0 <= y < 15 -> fetches p c (0x5000 + 256 * x + 16 * y) ->
  becomes e p c w (next_at (if V x =? V y then 4 else 2)) w.
Proof. intros x y H K Hf. reg x H. reg y K. go (SeVxVy r r0). Qed.
Theorem C44_sne : forall x y, 0 <= x < 15 -> 0 <= y < 15 -> fetches p c (0x9000 + 256 * x + 16 * y) ->
  becomes e p c w (next_at (if V x =? V y then 2 else 4)) w.
Proof. intros x y H K Hf. reg x H. reg y K. go (SneVxVy r r0). Qed.
(** [now PKey] is the pressed key, -1 if none. *)
Theorem C44_skp : forall x, 0 <= x < 15 -> fetches p c (0xE09E + 256 * x) ->
  becomes e p c w (next_at (if now PKey =? V x then 4 else 2)) w.
Proof. intros x H Hf. reg x H. go (Skp r). Qed.
Theorem C44_sknp : forall x, 0 <= x < 15 -> fetches p c (0xE0A1 + 256 * x) ->
  becomes e p c w (next_at (if now PKey =? V x then 2 else 4)) w.
Proof. intros x H Hf. reg x H. go (Sknp r). Qed.

(** ** C45 *)
(** The three stored bytes are decimal digits of Vx; nothing else changes. *)
Theorem C45_bcd : forall x, 0 <= x < 15 -> fetches p c (0xF033 + 256 * x) -> now PI + 2 <= 0xfff ->
  exists h t o, 0 <= h <= 9 /\ 0 <= t <= 9 /\ 0 <= o <= 9 /\ 100 * h + 10 * t + o = V x /\
    becomes e p c w
      (upd (upd (upd (next_at 2) (PMem (now PI)) h) (PMem (now PI + 1)) t) (PMem (now PI + 2)) o) w.
Proof.
  intros x H Hf Hi. pose proof (observe_v_u8 c x W H) as Hv. unfold u8 in Hv.
  exists (V x / 100), ((V x / 10) mod 10), (V x mod 10).
  split; [lia|]. split; [lia|]. split; [lia|]. split; [lia|].
  reg x H. eapply becomes_ext; [|go (LdBcd r); replace (now PI + 2 <=? 0xfff) with true by lia; reflexivity].
  intros q. cbv beta. unfold upd. rewrite !(part_eqb_sym q).
  destruct q; cbn [part_eqb]; try reflexivity. unfold advance, upd. cbn [part_eqb].
  repeat match goal with |- context [?x =? ?y] => destruct (Z.eqb_spec x y) end; try reflexivity; lia.
Qed.
(** If they do not fit into the memory the machine panics. *)
Theorem C45_bcd_outside : forall x, 0 <= x < 15 -> fetches p c (0xF033 + 256 * x) -> 0xfff < now PI + 2 ->
  step e p c w = Panic.
Proof. intros x H Hf Hi. reg x H. gop (LdBcd r). replace (now PI + 2 <=? 0xfff) with false by lia. reflexivity. Qed.

(** ** C46 *)
(** Fx55 stores exactly V0..Vx at I..I+x and leaves I alone. *)
Theorem C46_store : forall x, 0 <= x < 15 -> fetches p c (0xF055 + 256 * x) -> now PI + x <= 0xfff ->
  becomes e p c w (fun q => match q with
    | PMem a => if (now PI <=? a) && (a <=? now PI + x) then V (a - now PI) else now q
    | _ => next_at 2 q end) w.
Proof.
  intros x H Hf Hi. reg x H. go (StoreRegistersToMemory r). replace (now PI + gp_index r <=? 0xfff) with true by lia. reflexivity.
Qed.
Theorem C46_store_outside : forall x, 0 <= x < 15 -> fetches p c (0xF055 + 256 * x) -> 0xfff < now PI + x ->
  step e p c w = Panic.
Proof.
  intros x H Hf Hi. reg x H. gop (StoreRegistersToMemory r). replace (now PI + gp_index r <=? 0xfff) with false by lia. reflexivity.
Qed.
(** Fx65 loads V0..Vx from I..I+x; addresses above 0xfff read as zero. A debug
    build panics if I + x exceeds 65535. *)
Theorem C46_load : forall x, 0 <= x < 15 -> fetches p c (0xF065 + 256 * x) -> now PI + x <= 65535 ->
  becomes e p c w (fun q => match q with
    | PV k => if (0 <=? k) && (k <=? x) then now (PMem (now PI + k)) else now q
    | _ => next_at 2 q end) w.
Proof.
  intros x H Hf Hi. reg x H. pose proof (wf_i c W) as Hu. unfold u16 in Hu. change (c8_i c) with (now PI) in Hu.
  eapply becomes_ext; [|go (ReadRegistersFromMemory r);
    replace (match p with Debug => now PI + gp_index r <? 65536 | Release => true end) with true by (destruct p; [lia|reflexivity]);
    reflexivity].
  intros q. destruct q; try reflexivity. cbv beta iota. destruct (_ && _) eqn:E; [|reflexivity].
  do 2 f_equal. lia.
Qed.

(** Past the end of the 16-bit address space a release build wraps around. *)
Theorem C46_load_past_the_end : forall x, 0 <= x < 15 -> fetches p c (0xF065 + 256 * x) ->
  65535 < now PI + x ->
  match p with
  | Debug => step e p c w = Panic
  | Release => becomes e p c w (fun q => match q with
      | PV k => if (0 <=? k) && (k <=? x) then now (PMem ((now PI + k) mod 65536)) else now q
      | _ => next_at 2 q end) w
  end.
Proof.
  intros x H Hf Hi. reg x H. destruct p eqn:Ep; rewrite <- Ep in *.
  - gop (ReadRegistersFromMemory r). rewrite Ep. replace (now PI + gp_index r <? 65536) with false by lia. reflexivity.
  - eapply becomes_ext; [|go (ReadRegistersFromMemory r); rewrite Ep; reflexivity].
    intros q. destruct q; reflexivity.
Qed.

(** ** C48 *)
Theorem C48_draw_refuted : forall x y n, 0 <= x < 16 -> 0 <= y < 16 -> 0 <= n < 16 ->
  fetches p c (0xD000 + 256 * x + 16 * y + n) -> step e p c w = Panic.
Proof. intros x y n H K Hn Hf. reg x H. reg y K. gop (Drw r r0 n). Qed.

(** The microcode emitted for Dxyn: its pixel writes, run on their own, copy
    the sprite at I to (Vx, Vy) clipped at the edges (instead of XOR-ing it),
    and the last one assigns VF whether a lit pixel is covered by a sprite
    pixel. *)
Theorem C48_draw_partial : forall x y n, has x = true -> has y = true -> 0 <= n < 16 -> now PI + n < 65536 ->
  let rows := map (fun k => now (PMem (now PI + Z.of_nat k))) (seq 0 (Z.to_nat n)) in
  exists pixels flag,
    generate e p (Drw x y n) c w = Ok (pixels ++ [write_gp Vf flag], w) /\
    (flag = 1 <-> collides (c8_display c) rows (V (gp_index x)) (V (gp_index y))) /\ (flag = 0 \/ flag = 1) /\
    runs e p pixels c w
      (fun q => match q with
                | PPixel x' y' => if stamped (c8_display c) rows (V (gp_index x)) (V (gp_index y)) x' y' then 1 else 0
                | _ => now q end) w.
Proof.
  intros x y n Hx Hy Hn Hi rows.
  pose proof (gen_drw_spec p c x y n W Hx Hy ltac:(lia) Hi) as G. cbv zeta in G.
  assert (L : length rows = Z.to_nat n) by (unfold rows; rewrite map_length, seq_length; reflexivity).
  set (pixels := map (paint rows (V (gp_index x)) (V (gp_index y))) (sprite_offsets (Z.to_nat n))).
  set (b := existsb (hits (c8_display c) rows (V (gp_index x)) (V (gp_index y))) (sprite_offsets (Z.to_nat n))).
  exists pixels, (bool_as_u8 b). split; [|split; [|split]].
  - cbn [generate]. rewrite G. reflexivity.
  - rewrite <- hits_collides, L. fold b. destruct b; cbn [bool_as_u8]; split; congruence.
  - destruct b; [right|left]; reflexivity.
  - assert (H1 : u8 (V (gp_index x))) by (apply (observe_v_u8 c _ W), has_index, Hx).
    assert (H2 : u8 (V (gp_index y))) by (apply (observe_v_u8 c _ W), has_index, Hy). unfold u8 in H1, H2.
    destruct (paint_all e p rows (V (gp_index x)) (V (gp_index y)) (sprite_offsets (Z.to_nat n)) ltac:(lia) ltac:(lia)
      ltac:(intros a b' Hab; apply in_sprite_offsets in Hab; lia) c w W) as (c1 & E1 & W1 & L1).
    exists c1. split; [exact E1|]. split; [exact W1|]. intros q. rewrite L1. destruct q; try reflexivity.
    rewrite existsb_sprite. unfold stamped, inside_sprite. rewrite L. reflexivity.
Qed.

(** ** C50 *)
Theorem C50_key_pressed_partial : forall x, 0 <= x < 15 -> fetches p c (0xF00A + 256 * x) -> now PKey <> -1 ->
  becomes e p c w (upd (next_at 2) (PV x) (now PKey)) w.
Proof. intros x H Hf Hk. reg x H. go (LdK r). replace (now PKey =? -1) with false by lia. reflexivity. Qed.
(** Without a key the instruction is skipped instead of waiting, whatever the
    register. *)
Theorem C50_no_key_refuted : forall x, 0 <= x < 16 -> fetches p c (0xF00A + 256 * x) -> now PKey = -1 ->
  becomes e p c w (next_at 2) w /\ next_at 2 PPC <> now PPC.
Proof.
  intros x H Hf Hk. reg x H. split.
  - go (LdK r). rewrite Hk. reflexivity.
  - unfold advance, upd. cbn [part_eqb]. pose proof (wf_pc c W) as Hu. unfold u16 in Hu. cbn [observe]. lia.
Qed.

(** ** C51 *)
Theorem C51_random : forall x kk, 0 <= x < 15 -> u8 kk -> fetches p c (0xC000 + 256 * x + kk) ->
  let r := env_random e (w_random w) in
  becomes e p c w (upd (next_at 2) (PV x) (Z.land r kk)) (mkWorld (w_time w) (S (w_random w))) /\
  forall bit, Z.testbit kk bit = false -> Z.testbit (Z.land r kk) bit = false.
Proof.
  intros x kk H K Hf r0. reg x H. split; [go (Rnd r kk)|].
  intros bit Hb. rewrite Z.land_spec, Hb. apply Bool.andb_false_r.
Qed.

(** ** C54 *)
Theorem C54_digit_partial : forall x, 0 <= x < 15 -> fetches p c (0xF029 + 256 * x) -> V x <= 51 ->
  becomes e p c w (upd (next_at 2) PI (5 * V x)) w.
Proof.
  intros x H Hf Hd. pose proof (observe_v_u8 c x W H) as Hv. unfold u8 in Hv. reg x H. 
  eapply becomes_ext; [|go (LdSpriteLocation r); replace (match p with Debug => 5 * V (gp_index r) <? 256 | Release => true end)
    with true by (destruct p; [lia|reflexivity]); reflexivity].
  intros q. rewrite (Z.mod_small (5 * V (gp_index r)) 256) by lia. reflexivity.
Qed.
(** Larger values panic in a debug build and wrap in a release build. *)
Theorem C54_large_exact : forall x, 0 <= x < 15 -> fetches p c (0xF029 + 256 * x) -> 51 < V x ->
  match p with
  | Debug => step e p c w = Panic
  | Release => becomes e p c w (upd (next_at 2) PI ((5 * V x) mod 256)) w
  end.
Proof.
  intros x H Hf Hd. reg x H.
  pose proof (step_effect e p c w W He (LdSpriteLocation r) I Hf) as K. unfold delivers in K. cbn [effect] in K.
  unfold needs, has, done, v in K. replace (gp_index r <? 15) with true in K by lia. cbn [andb] in K.
  destruct p; [|exact K]. replace (5 * V (gp_index r) <? 256) with false in K by lia. exact K.
Qed.

(** ** C49 on the machine *)
Theorem C49_set_delay : forall x, 0 <= x < 15 -> fetches p c (0xF015 + 256 * x) ->
  becomes e p c w (upd (upd (next_at 2) PDelay (V x)) PDelayAt (env_time e (w_time w))) (mkWorld (S (w_time w)) (w_random w)).
Proof. intros x H Hf. reg x H. go (LdDelayTimerDestTx r). Qed.
Theorem C49_set_sound : forall x, 0 <= x < 15 -> fetches p c (0xF018 + 256 * x) ->
  becomes e p c w (upd (upd (next_at 2) PSound (V x)) PSoundAt (env_time e (w_time w))) (mkWorld (S (w_time w)) (w_random w)).
Proof. intros x H Hf. reg x H. go (LdSoundTimerDestTx r). Qed.
Theorem C49_get_delay : forall x, 0 <= x < 15 -> fetches p c (0xF007 + 256 * x) ->
  now PDelayAt <= env_time e (w_time w) ->
  becomes e p c w
    (upd (next_at 2) (PV x) (Z.max 0 (now PDelay - (env_time e (w_time w) - now PDelayAt) / 1000000000)))
    (mkWorld (S (w_time w)) (w_random w)).
Proof.
  intros x H Hf Ht. reg x H. eapply becomes_ext; [|go (LdDelayTimerSrcTx r)].
  intros q. unfold clocked. rewrite (Z.max_r 0 (env_time e (w_time w) - now PDelayAt)) by lia. reflexivity.
Qed.

(** ** C47: Cls *)
Theorem C47_cls : fetches p c 0x00E0 ->
  becomes e p c w (fun q => match q with PPixel _ _ => 0 | _ => next_at 2 q end) w.
Proof. intros Hf. go Cls. Qed.

(** SYS is ignored. *)
Theorem C53_sys : forall nnn, 0 <= nnn < 4096 -> nnn <> 0x0E0 -> nnn <> 0x0EE -> fetches p c nnn ->
  becomes e p c w (next_at 2) w.
Proof. intros nnn H H1 H2 Hf. apply (effect_becomes (Sys nnn)); [cbn; lia|exact Hf|reflexivity]. Qed.
End Instructions.

(** ** C41, continued: histories *)
Lemma step_fetch_inv e p c w c' w' word : well_formed c -> env_ok e -> fetches p c word -> step e p c w = Ok (c', w') ->
  exists op f, operands_ok op /\ word = encode op /\ effect e p (observe c) w op = Some (f, w') /\
    well_formed c' /\ looks c' f.
Proof.
  intros W He [_ Hf] E. destruct (step_ok_inv e p c w c' w' W He E) as (op & f & H1 & [_ H2] & H3).
  exists op, f. split; [exact H1|]. split; [congruence|exact H3].
Qed.

Lemma call_word op : operands_ok op -> (encode op / 0x1000 =? 2) = match op with Call _ => true | _ => false end.
Proof.
  intros H. assert (R : forall r, 0 <= gp_index r < 16) by (intros []; cbn; lia).
  destruct op; cbn [encode operands_ok] in *; unfold u8 in *;
    repeat match goal with r : gp_register |- _ => pose proof (R r); generalize dependent (gp_index r); clear r; intros end; lia.
Qed.

(** The stack pointer never moves and only the entry it selects is ever
    written: it holds the address of the most recent CALL. So a RET continues
    at the most recent CALL instruction, whatever happened in between. *)
Theorem C41_stack_history : forall e p c w h c' w', well_formed c -> env_ok e -> executes e p c w h c' w' ->
  observe c' PSP = observe c PSP /\
  (forall k, observe c' (PStack k) =
     if k =? observe c PSP then match last_call h with Some a => a | None => observe c (PStack k) end
     else observe c (PStack k)).
Proof.
  intros e p c w h c' w' W He X. revert W.
  induction X as [c w|c w word c1 w1 h c2 w2 Hf E X IH]; intros W.
  - split; [reflexivity|]. intros k. cbn. destruct (_ =? _); reflexivity.
  - destruct (step_fetch_inv e p c w c1 w1 word W He Hf E) as (op & f & Hop & -> & Ee & W1 & L1).
    destruct (IH W1) as [IH1 IH2].
    assert (S : observe c1 PSP = observe c PSP /\ forall k, observe c1 (PStack k) =
      if (k =? observe c PSP) && is_call (observe c PPC, encode op) then observe c PPC else observe c (PStack k)).
    { unfold is_call. cbn [snd]. rewrite (call_word op Hop), !L1.
      destruct op; cbn [effect] in Ee; unfold needs, done, tick in Ee;
        repeat match type of Ee with (if ?b then _ else _) = _ => destruct b; try discriminate end; try discriminate;
        match type of Ee with Some (?g, ?w9) = Some (f, w1) => assert (f = g) as -> by congruence end;
        unfold advance, upd; (split; [reflexivity|]); intros k; rewrite L1; cbn [part_eqb]; rewrite ?Bool.andb_false_r, ?Bool.andb_true_r;
        try reflexivity; unfold upd; cbn [part_eqb]; rewrite (Z.eqb_sym (observe c PSP)); reflexivity. }
    destruct S as [S1 S2]. rewrite IH1, S1. split; [reflexivity|]. intros k. rewrite IH2, S1, S2.
    unfold last_call. cbn [rev]. rewrite filter_app. cbn [filter].
    destruct (k =? observe c PSP); [|reflexivity]. cbn [andb].
    destruct (filter is_call (rev h)) as [|[a ?] ?]; [|reflexivity]. cbn [app].
    destruct (is_call (observe c PPC, encode op)); reflexivity.
Qed.

Theorem C41_return_partial : forall e p c w h c' w' a, well_formed c -> env_ok e -> executes e p c w h c' w' ->
  last_call h = Some a -> fetches p c' 0x00EE -> becomes e p c' w' (upd (observe c') PPC a) w'.
Proof.
  intros e p c w h c' w' a W He X Hl Hf.
  destruct (C41_stack_history e p c w h c' w' W He X) as [H1 H2].
  assert (W' : well_formed c').
  { clear H1 H2 Hl Hf. induction X as [|c w word c1 w1 h c2 w2 Hf E X IH]; [exact W|]. apply IH.
    destruct (step_fetch_inv e p c w c1 w1 word W He Hf E) as (op & f & _ & _ & _ & W1 & _). exact W1. }
  eapply becomes_ext; [|exact (C41_ret_exact e p c' w' W' He Hf)].
  intros q. rewrite H1, H2, Z.eqb_refl, Hl. reflexivity.
Qed.

(** So no call ever returns to the instruction after it: CALL at [a], any
    history without further calls, RET: the machine is back at [a]. *)
Theorem C41_return_refuted : forall e p c w nnn c1 w1 h c2 w2, well_formed c -> env_ok e ->
  0 <= nnn < 4096 -> fetches p c (0x2000 + nnn) -> step e p c w = Ok (c1, w1) ->
  executes e p c1 w1 h c2 w2 -> last_call h = None -> fetches p c2 0x00EE ->
  exists c3 w3, step e p c2 w2 = Ok (c3, w3) /\ observe c3 PPC = observe c PPC /\
                observe c3 PPC <> (observe c PPC + 2) mod 65536.
Proof.
  intros e p c w nnn c1 w1 h c2 w2 W He Hn Hf E X Hl Hr.
  assert (X' : executes e p c w ((observe c PPC, 0x2000 + nnn) :: h) c2 w2) by (econstructor; eassumption).
  assert (L : last_call ((observe c PPC, 0x2000 + nnn) :: h) = Some (observe c PPC)).
  { unfold last_call in *. cbn [rev]. rewrite filter_app. destruct (filter is_call (rev h)) as [|[] ?]; [|discriminate].
    cbn [app filter]. unfold is_call. cbn [snd]. replace ((0x2000 + nnn) / 0x1000 =? 2) with true by lia. reflexivity. }
  destruct (C41_return_partial e p c w _ c2 w2 _ W He X' L Hr) as (c3 & E3 & _ & L3).
  exists c3, w2. split; [exact E3|]. rewrite L3. unfold upd. cbn [part_eqb]. split; [reflexivity|].
  pose proof (wf_pc c W) as Hu. unfold u16 in Hu. cbn [observe]. lia.
Qed.

(** ** C43, continued: the register accessors *)
Theorem C43_accessors : forall c r b, well_formed c -> u8 b ->
  if gp_index r =? 15 then with_gp_register c r b = Panic /\ read_gp_register c r = Panic
  else exists c', with_gp_register c r b = Ok c' /\ looks c' (upd (observe c) (PV (gp_index r)) b) /\
       forall r', gp_index r' <> 15 ->
         read_gp_register c' r' = if gp_index r' =? gp_index r then Ok b else read_gp_register c r'.
Proof.
  intros c r b W Hb. destruct (gp_index r =? 15) eqn:E.
  - assert (r = Vf) as -> by (apply has_not; unfold has; lia).
    unfold with_gp_register. rewrite (ex_gp_vf c b W). split; [reflexivity|]. exact (read_gp_vf c Vf W eq_refl).
  - assert (Hr : 0 <= gp_index r < 15) by (destruct r; cbn in *; lia).
    destruct (ex_gp c (gp_index r) b W Hr Hb) as (gp & E1 & [W1 L1]).
    exists (set_gp c gp). unfold with_gp_register. rewrite E1. split; [reflexivity|]. split; [exact L1|].
    intros r' H'. assert (Hr' : has r' = true) by (unfold has; destruct r'; cbn in *; lia).
    rewrite (read_gp _ _ W1 Hr'), (read_gp _ _ W Hr'), L1. unfold upd. cbn [part_eqb].
    rewrite (Z.eqb_sym (gp_index r)). destruct (gp_index r' =? gp_index r); reflexivity.
Qed.

(** ** C46, continued: round trip *)
Theorem C46_round_trip : forall e p c w c1 w1 c2 w2 x, well_formed c -> well_formed c2 -> env_ok e ->
  0 <= x < 15 -> fetches p c (0xF055 + 256 * x) -> step e p c w = Ok (c1, w1) ->
  (* anything may happen here, as long as I and the stored bytes are kept *)
  observe c2 PI = observe c1 PI ->
  (forall a, observe c1 PI <= a <= observe c1 PI + x -> observe c2 (PMem a) = observe c1 (PMem a)) ->
  fetches p c2 (0xF065 + 256 * x) ->
  exists c3 w3, step e p c2 w2 = Ok (c3, w3) /\
    (forall k, 0 <= k <= x -> observe c3 (PV k) = observe c (PV k)) /\
    (forall k, x < k -> observe c3 (PV k) = observe c2 (PV k)) /\
    observe c3 PI = observe c PI.
Proof.
  intros e p c w c1 w1 c2 w2 x W W2 He Hx Hf E Hi Hm Hf2.
  pose proof (wf_i c W) as Hu. unfold u16 in Hu. change (c8_i c) with (observe c PI) in Hu.
  destruct (Z.leb_spec (observe c PI + x) 0xfff) as [Hin|Hout].
  2:{ rewrite (C46_store_outside e p c w W He x Hx Hf Hout) in E. discriminate. }
  destruct (C46_store e p c w W He x Hx Hf Hin) as (c1' & E1 & W1 & L1). rewrite E in E1.
  assert (c1' = c1) as -> by congruence.
  assert (I1 : observe c1 PI = observe c PI) by (rewrite L1; reflexivity).
  destruct (C46_load e p c2 w2 W2 He x Hx Hf2 ltac:(lia)) as (c3 & E3 & W3 & L3).
  exists c3, w2. split; [exact E3|]. split; [|split].
  - intros k Hk. rewrite L3. replace ((0 <=? k) && (k <=? x)) with true by lia.
    rewrite Hi, I1. rewrite Hm by lia. rewrite L1.
    replace ((observe c PI <=? observe c PI + k) && (observe c PI + k <=? observe c PI + x)) with true by lia.
    do 2 f_equal. lia.
  - intros k Hk. rewrite L3. replace ((0 <=? k) && (k <=? x)) with false by lia. reflexivity.
  - rewrite L3. unfold advance, upd. cbn [part_eqb]. congruence.
Qed.

(** ** C54, continued *)
(** A new machine has no glyphs in memory: where Fx29 points for digit [d]
    there are only zero bytes, not the rows of the glyph. *)
Theorem C54_no_glyphs_refuted : forall e p w c w' d, chip8_default e p w = Ok (c, w') -> 0 <= d < 16 ->
  map (fun k => observe c (PMem (5 * d + k))) [0; 1; 2; 3; 4] = [0; 0; 0; 0; 0] /\ glyph_of d <> [0; 0; 0; 0; 0].
Proof.
  intros e p w c w' d E Hd. split.
  - cbn [map]. rewrite !(default_looks e p w c w' E). reflexivity.
  - assert (F : forallb (fun k => negb (forallb (fun b => b =? 0) (glyph_of (Z.of_nat k)))) (seq 0 16) = true) by (vm_compute; reflexivity).
    rewrite forallb_forall in F. specialize (F (Z.to_nat d) ltac:(apply in_seq; lia)). rewrite Z2Nat.id in F by lia.
    intros K. rewrite K in F. discriminate.
Qed.

(** ** Concrete cases *)

(** [demo prog regs i key]: a new machine with [prog] stored at 0x200, some
    registers and I set and maybe a key pressed ([demo_wf]: it is well formed). *)
Local Ltac fetch := split; [right; vm_compute; reflexivity|vm_compute; reflexivity].
Local Ltac fits := apply demo_wf; vm_compute; reflexivity.

Example C53_case : let c := demo [0xB3; 0x45] [(V0, 0xf0)] 0 None in
  becomes env0 Debug c w0 (upd (observe c) PPC 0x435) w0.
Proof.
  intros c. eapply becomes_ext; [|apply (C53_jump_v0 env0 Debug c w0 ltac:(fits) env0_ok 0x345); [lia|fetch]].
  intros q. unfold upd. destruct (part_eqb _ _); [vm_compute; reflexivity|reflexivity].
Qed.
Example C53_case_jump : fetches Debug (demo [0x10; 0x01] [] 0 None) (0x1000 + 1) /\
  fetches Debug (demo [0xA0; 0x00] [] 7 None) (0xA000 + 0) /\ fetches Debug (demo [0x2f; 0xff] [] 7 None) (0x2000 + 0xfff) /\
  fetches Debug (demo [0x01; 0x23] [] 0 None) 0x123.
Proof. repeat split; try (right; vm_compute; reflexivity); vm_compute; reflexivity. Qed.

(** The machine after one more instruction. *)
Definition after (c : chip8) (w : world) : chip8 := match step env0 Debug c w with Ok (c', _) => c' | Panic => c end.
Lemma after_step c w t r :
  match step env0 Debug c w with Ok (_, w') => (w_time w' =? t)%nat && (w_random w' =? r)%nat | Panic => false end = true ->
  step env0 Debug c w = Ok (after c w, mkWorld t r).
Proof.
  unfold after. destruct (step env0 Debug c w) as [[c' [t' r']]|]; [|discriminate]. cbn [w_time w_random].
  intros H. apply andb_prop in H as [H1 H2]. apply Nat.eqb_eq in H1 as ->. apply Nat.eqb_eq in H2 as ->. reflexivity.
Qed.
Local Ltac stepped := apply after_step; vm_compute; reflexivity.

(** A subroutine at 0x204: the call at 0x200, its body, and RET lead back to
    the call. *)
Definition calls : chip8 := demo [0x22; 0x04; 0; 0; 0x61; 0x2A; 0x00; 0xEE] [] 0 None.
Example C41_case : exists c1 w1 c2 w2,
  fetches Debug calls (0x2000 + 0x204) /\ step env0 Debug calls w0 = Ok (c1, w1) /\
  executes env0 Debug c1 w1 [(0x204, 0x612A)] c2 w2 /\ fetches Debug c2 0x00EE /\
  last_call [(0x204, 0x612A)] = None.
Proof.
  exists (after calls w0), w0, (after (after calls w0) w0), w0.
  split; [fetch|]. split; [stepped|]. split; [|split; [fetch|reflexivity]].
  replace 0x204 with (observe (after calls w0) PPC) by (vm_compute; reflexivity).
  apply (executes_cons env0 Debug _ w0 0x612A (after (after calls w0) w0) w0); [fetch|stepped|]. apply executes_nil.
Qed.

Example C43_case : becomes env0 Debug (demo [0x6E; 0xFF] [] 0 None) w0
  (upd (advance (observe (demo [0x6E; 0xFF] [] 0 None)) 2) (PV 14) 0xFF) w0.
Proof. apply (C43_load_immediate_partial env0 Debug (demo [0x6E; 0xFF] [] 0 None) w0 ltac:(fits) env0_ok 14 0xFF); [lia|unfold u8; lia|fetch]. Qed.
Example C43_refuted_case : step env0 Debug (demo [0x6F; 0x01] [] 0 None) w0 = Panic.
Proof.
  apply (C43_vf_panics env0 Debug (demo [0x6F; 0x01] [] 0 None) w0 ltac:(fits) env0_ok (LdImmediate Vf 1));
    [cbn; unfold u8; lia|fetch|reflexivity|intros; discriminate].
Qed.
(** Not all sixteen registers can be written. *)
Theorem C43_all_registers_refuted : exists e p c w x kk, well_formed c /\ env_ok e /\ 0 <= x < 16 /\ u8 kk /\
  fetches p c (0x6000 + 256 * x + kk) /\ step e p c w = Panic.
Proof.
  exists env0, Debug, (demo [0x6F; 0x01] [] 0 None), w0, 15, 1.
  split; [fits|]. split; [exact env0_ok|]. split; [lia|]. split; [unfold u8; lia|]. split; [fetch|exact C43_refuted_case].
Qed.

Example C61_case : let c := demo [0x81; 0x23] [(V1, 0xC); (V2, 0xA)] 0 None in
  becomes env0 Debug c w0 (upd (advance (observe c) 2) (PV 1) 6) w0.
Proof.
  intros c. eapply becomes_ext; [|apply (C61_xor env0 Debug c w0 ltac:(fits) env0_ok 1 2); [lia|lia|fetch]].
  intros q. unfold upd. destruct (part_eqb _ _); [vm_compute; reflexivity|reflexivity].
Qed.
Example C42_case : let c := demo [0x73; 0x02] [(V3, 0xFF)] 0 None in
  becomes env0 Debug c w0 (upd (advance (observe c) 2) (PV 3) 1) w0.
Proof.
  intros c. eapply becomes_ext; [|apply (C42_add_immediate env0 Debug c w0 ltac:(fits) env0_ok 3 2); [lia|unfold u8; lia|fetch]].
  intros q. unfold upd. destruct (part_eqb _ _); [vm_compute; reflexivity|reflexivity].
Qed.
Example C42_refuted_case : step env0 Debug (demo [0x81; 0x24] [(V1, 200); (V2, 100)] 0 None) w0 = Panic.
Proof.
  apply (C42_flags_refuted env0 Debug (demo [0x81; 0x24] [(V1, 200); (V2, 100)] 0 None) w0 ltac:(fits) env0_ok 1 2 4); [lia|lia|cbn; tauto|fetch].
Qed.
Example C44_case : let c := demo [0xE0; 0x9E] [(V0, 0xB)] 0 (Some (InterruptKeyPress KeyB)) in
  becomes env0 Debug c w0 (upd (observe c) PPC 0x204) w0.
Proof.
  intros c. eapply becomes_ext; [|apply (C44_skp env0 Debug c w0 ltac:(fits) env0_ok 0); [lia|fetch]].
  intros q. unfold advance, upd. destruct (part_eqb _ _); [vm_compute; reflexivity|reflexivity].
Qed.
Example C45_case : let c := demo [0xF5; 0x33] [(V5, 254)] 0xffd None in
  exists h t o, 0 <= h <= 9 /\ 0 <= t <= 9 /\ 0 <= o <= 9 /\ 100 * h + 10 * t + o = 254 /\
    becomes env0 Debug c w0
      (upd (upd (upd (advance (observe c) 2) (PMem 0xffd) h) (PMem 0xffe) t) (PMem 0xfff) o) w0.
Proof. intros c. apply (C45_bcd env0 Debug c w0 ltac:(fits) env0_ok 5); [lia|fetch|vm_compute; discriminate]. Qed.
Example C45_outside_case : step env0 Debug (demo [0xF5; 0x33] [(V5, 254)] 0xffe None) w0 = Panic.
Proof. apply (C45_bcd_outside env0 Debug (demo [0xF5; 0x33] [(V5, 254)] 0xffe None) w0 ltac:(fits) env0_ok 5); [lia|fetch|vm_compute; reflexivity]. Qed.

Example C46_past_the_end_case : step env0 Debug (demo [0xF2; 0x65] [] 0xffff None) w0 = Panic.
Proof.
  apply (C46_load_past_the_end env0 Debug (demo [0xF2; 0x65] [] 0xffff None) w0 ltac:(fits) env0_ok 2);
    [lia|fetch|vm_compute; reflexivity].
Qed.

(** Store V0..V2, overwrite V1, load again. *)
Definition dump : chip8 := demo [0xF2; 0x55; 0x61; 0x00; 0xF2; 0x65] [(V0, 11); (V1, 22); (V2, 33)] 0x300 None.
Example C46_case : exists c1 w1 c2, well_formed c2 /\
  fetches Debug dump (0xF055 + 256 * 2) /\ step env0 Debug dump w0 = Ok (c1, w1) /\
  observe c2 PI = observe c1 PI /\
  (forall a, observe c1 PI <= a <= observe c1 PI + 2 -> observe c2 (PMem a) = observe c1 (PMem a)) /\
  fetches Debug c2 (0xF065 + 256 * 2) /\ observe c2 (PV 1) <> observe dump (PV 1).
Proof.
  assert (E1 : step env0 Debug dump w0 = Ok (after dump w0, w0)) by stepped.
  assert (E2 : step env0 Debug (after dump w0) w0 = Ok (after (after dump w0) w0, w0)) by stepped.
  assert (W0 : well_formed dump) by fits.
  exists (after dump w0), w0, (after (after dump w0) w0).
  split; [|split; [fetch|split; [exact E1|split; [vm_compute; reflexivity|split; [|split; [fetch|vm_compute; discriminate]]]]]].
  - exact (step_wf env0 Debug _ w0 _ w0 (step_wf env0 Debug _ w0 _ w0 W0 env0_ok E1) env0_ok E2).
  - assert (Hi : observe (after dump w0) PI = 0x300) by (vm_compute; reflexivity). rewrite Hi. intros a Ha.
    assert (K : a = 0x300 \/ a = 0x301 \/ a = 0x302) by lia. destruct K as [K|[K|K]]; rewrite K; vm_compute; reflexivity.
Qed.

Example C48_refuted_case : step env0 Debug (demo [0xD0; 0x15] [(V0, 3); (V1, 4)] 0x200 None) w0 = Panic.
Proof. apply (C48_draw_refuted env0 Debug (demo [0xD0; 0x15] [(V0, 3); (V1, 4)] 0x200 None) w0 ltac:(fits) env0_ok 0 1 5); [lia|lia|lia|fetch]. Qed.
Example C48_partial_case : has V0 = true /\ has V1 = true /\ observe (demo [0xD0; 0x15] [(V0, 60); (V1, 30)] 0x200 None) PI + 5 < 65536.
Proof. repeat split; vm_compute; reflexivity. Qed.

Example C50_case : let c := demo [0xF7; 0x0A] [] 0 (Some (InterruptKeyPress KeyC)) in
  becomes env0 Debug c w0 (upd (advance (observe c) 2) (PV 7) 0xC) w0.
Proof.
  intros c. eapply becomes_ext; [|apply (C50_key_pressed_partial env0 Debug c w0 ltac:(fits) env0_ok 7); [lia|fetch|vm_compute; discriminate]].
  intros q. unfold upd. destruct (part_eqb _ _); [vm_compute; reflexivity|reflexivity].
Qed.
Example C50_refuted_case : exists c', step env0 Debug (demo [0xF7; 0x0A] [] 0 None) w0 = Ok (c', w0) /\ observe c' PPC = 0x202.
Proof.
  destruct (C50_no_key_refuted env0 Debug (demo [0xF7; 0x0A] [] 0 None) w0 ltac:(fits) env0_ok 7) as [(c' & E & _ & L) _];
    [lia|fetch|vm_compute; reflexivity|].
  exists c'. split; [exact E|]. rewrite L. vm_compute. reflexivity.
Qed.
Example C51_case : let c := demo [0xC7; 0x0F] [] 0 None in
  becomes env0 Debug c w0 (upd (advance (observe c) 2) (PV 7) 5) (mkWorld 0 1).
Proof.
  intros c. eapply becomes_ext; [|apply (C51_random env0 Debug c w0 ltac:(fits) env0_ok 7 0x0F); [lia|unfold u8; lia|fetch]].
  intros q. unfold upd. destruct (part_eqb _ _); [vm_compute; reflexivity|reflexivity].
Qed.
Example C54_case : let c := demo [0xF7; 0x29] [(V7, 0xF)] 0 None in
  becomes env0 Debug c w0 (upd (advance (observe c) 2) PI 75) w0.
Proof.
  intros c. eapply becomes_ext; [|apply (C54_digit_partial env0 Debug c w0 ltac:(fits) env0_ok 7); [lia|fetch|vm_compute; discriminate]].
  intros q. unfold upd. destruct (part_eqb _ _); [vm_compute; reflexivity|reflexivity].
Qed.
(** Fx29 can panic. *)
Theorem C54_never_panics_refuted : exists e p c w x, well_formed c /\ env_ok e /\ 0 <= x < 15 /\
  fetches p c (0xF029 + 256 * x) /\ step e p c w = Panic.
Proof.
  exists env0, Debug, (demo [0xF7; 0x29] [(V7, 52)] 0 None), w0, 7.
  split; [fits|]. split; [exact env0_ok|]. split; [lia|]. split; [fetch|].
  apply (C54_large_exact env0 Debug (demo [0xF7; 0x29] [(V7, 52)] 0 None) w0 ltac:(fits) env0_ok 7); [lia|fetch|vm_compute; reflexivity].
Qed.
Example C49_case : let c := demo [0xF2; 0x07] [] 0 None in fetches Debug c (0xF007 + 256 * 2) /\
  observe c PDelayAt <= env_time env0 (w_time w0).
Proof. split; [fetch|vm_compute; discriminate]. Qed.
Example C49_set_case : fetches Debug (demo [0xF2; 0x15] [(V2, 9)] 0 None) (0xF015 + 256 * 2) /\
  fetches Debug (demo [0xF2; 0x18] [(V2, 9)] 0 None) (0xF018 + 256 * 2) /\ fetches Debug (demo [0x00; 0xE0] [] 0 None) 0x00E0.
Proof. repeat split; try (right; vm_compute; reflexivity); vm_compute; reflexivity. Qed.
Example C62_case : step env0 Debug (demo [0x81; 0x28] [] 0 None) w0 = Panic.
Proof.
  apply (C62_panics_iff env0 Debug (demo [0x81; 0x28] [] 0 None) w0 ltac:(fits) env0_ok). right. exists 0x8128. split; [fetch|]. left. vm_compute. reflexivity.
Qed.

Print Assumptions C53_jump.
Print Assumptions C53_jump_v0.
Print Assumptions C53_load_i.
Print Assumptions C53_call_target.
Print Assumptions C41_call_exact.
Print Assumptions C41_ret_exact.
Print Assumptions C43_load_immediate_partial.
Print Assumptions C43_vf_panics.
Print Assumptions C62_panics_iff.
Print Assumptions C61_copy.
Print Assumptions C61_or.
Print Assumptions C61_and.
Print Assumptions C61_xor.
Print Assumptions C42_add_immediate.
Print Assumptions C42_add_i.
Print Assumptions C42_flags_refuted.
Print Assumptions C42_flags_partial.
Print Assumptions C44_se_immediate.
Print Assumptions C44_sne_immediate.
Print Assumptions C44_se.
Print Assumptions C44_sne.
Print Assumptions C44_skp.
Print Assumptions C44_sknp.
Print Assumptions C45_bcd.
Print Assumptions C45_bcd_outside.
Print Assumptions C46_store.
Print Assumptions C46_store_outside.
Print Assumptions C46_load.
Print Assumptions C46_load_past_the_end.
Print Assumptions C48_draw_refuted.
Print Assumptions C48_draw_partial.
Print Assumptions C50_key_pressed_partial.
Print Assumptions C50_no_key_refuted.
Print Assumptions C51_random.
Print Assumptions C54_digit_partial.
Print Assumptions C54_large_exact.
Print Assumptions C49_set_delay.
Print Assumptions C49_set_sound.
Print Assumptions C49_get_delay.
Print Assumptions C47_cls.
Print Assumptions C53_sys.
Print Assumptions C41_stack_history.
Print Assumptions C41_return_partial.
Print Assumptions C41_return_refuted.
Print Assumptions C43_accessors.
Print Assumptions C46_round_trip.
Print Assumptions C54_no_glyphs_refuted.
Print Assumptions C43_all_registers_refuted.
Print Assumptions C54_never_panics_refuted.
