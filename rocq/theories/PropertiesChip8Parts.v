(** Properties C38-C40, C47-C49 of the CHIP-8 parts. *)
From Verif Require Import Base Arith ModelMap ModelU12 ModelDisplay ModelChip8 ModelOpsChip8 ModelRunChip8.
From Verif Require Import SpecMap Link6502 SpecChip8 SpecChip8Parts ProofDecode8 ProofChip8 ProofChip8Step ProofChip8Parts.

(** ** C38 *)
(** Two bytes decode to [op] exactly if they are the table's word for [op]. *)
Theorem C38_decode_iff : forall b0 b1 op, u8 b0 -> u8 b1 ->
  decode_bytes_to_opcode [b0; b1] = Ok (Some op) <-> (operands_ok op /\ encode op = 256 * b0 + b1).
Proof.
  intros b0 b1 op H0 H1. split.
  - intros E. destruct (decode_sound b0 b1 H0 H1) as (r & E' & K). rewrite E in E'.
    assert (r = Some op) as -> by congruence. exact K.
  - intros [Hop E]. destruct (decode_encode op Hop) as [_ K]. rewrite E in K.
    unfold u8 in *. replace ((256 * b0 + b1) / 256) with b0 in K by lia.
    replace ((256 * b0 + b1) mod 256) with b1 in K by lia. exact K.
Qed.

(** Every word is either documented and decodes, or undocumented and is
    refused with an error; decoding never panics. *)
Theorem C38_total : forall b0 b1, u8 b0 -> u8 b1 ->
  if undocumented (256 * b0 + b1) then decode_bytes_to_opcode [b0; b1] = Ok None
  else exists op, decode_bytes_to_opcode [b0; b1] = Ok (Some op).
Proof. exact decode_cases. Qed.

(** No two instructions share a word. *)
Theorem C38_encode_injective : forall op op', operands_ok op -> operands_ok op' ->
  encode op = encode op' -> op = op'.
Proof.
  intros op op' H H' E. pose proof (decode_encode op H) as [_ K]. pose proof (decode_encode op' H') as [_ K'].
  rewrite E in K. congruence.
Qed.

(** Bytes after the second are ignored; fewer than two panic. *)
Theorem C38_slices : forall b0 b1 rest,
  decode_bytes_to_opcode (b0 :: b1 :: rest) = decode_bytes_to_opcode [b0; b1] /\
  decode_bytes_to_opcode [b0] = Panic /\ decode_bytes_to_opcode [] = Panic.
Proof. intros. repeat split. Qed.

(** A machine whose next word is undocumented panics. *)
Theorem C38_undocumented_panics : forall e p c w word, well_formed c -> fetches p c word ->
  undocumented word = true -> step e p c w = Panic.
Proof. exact step_undocumented. Qed.

Example C38_nonvacuous :
  decode_bytes_to_opcode [0x8a; 0xbe] = Ok (Some (Shl Va Vb)) /\
  decode_bytes_to_opcode [0x12; 0x34] = Ok (Some (JpNonV0Indexed 0x234)) /\
  decode_bytes_to_opcode [0x8a; 0xb9] = Ok None /\ undocumented 0x8ab9 = true /\
  undocumented 0x00e0 = false /\ undocumented 0xf165 = false /\ undocumented 0xf166 = true.
Proof. vm_compute. repeat split. Qed.

(** ** C39 *)
Theorem C39_new : forall v, u12_new v = if v <=? 0xfff then Ok v else Panic.
Proof.
  intros v. unfold u12_new, u12_max. destruct (0xFFF <? v) eqn:E; [replace (v <=? 0xfff) with false by lia|replace (v <=? 0xfff) with true by lia]; reflexivity.
Qed.

(** [MIN], [MAX] and [BITS] describe the range that [new] accepts. *)
Theorem C39_constants : (forall v, 0 <= v -> u12_new v = Ok v <-> u12_min <= v <= u12_max) /\ u12_max - u12_min + 1 = 2 ^ u12_bits.
Proof.
  split; [|reflexivity]. intros v Hv. rewrite C39_new. unfold u12_min, u12_max. destruct (v <=? 0xfff) eqn:E.
  - split; [lia|reflexivity].
  - split; [discriminate|lia].
Qed.

Theorem C39_wrapping : forall a b, u12 a -> u12 b ->
  u12_wrapping_add a b = Ok ((a + b) mod 4096) /\ u12_wrapping_sub a b = Ok ((a - b) mod 4096).
Proof.
  intros a b Ha Hb. unfold u12 in *. unfold u12_wrapping_add, u12_wrapping_sub, u12_new, wrapping_add_u16, wrapping_sub_u16, u12_max.
  rewrite !u16_mask_mod.
  replace (((a + b) mod 65536) mod 4096) with ((a + b) mod 4096) by lia.
  replace (((a - b) mod 65536) mod 4096) with ((a - b) mod 4096) by lia.
  replace (0xFFF <? (a + b) mod 4096) with false by lia. replace (0xFFF <? (a - b) mod 4096) with false by lia.
  split; reflexivity.
Qed.

(** [+] is exact or panics, in both profiles. *)
Theorem C39_add : forall p a b, u12 a -> u12 b ->
  u12_add p a b = if a + b <=? 0xfff then Ok (a + b) else Panic.
Proof.
  intros p a b Ha Hb. unfold u12 in *. unfold u12_add, add_u16. rewrite checked_ok by lia. cbn [bind].
  rewrite C39_new. unfold u12_max. destruct (a + b <=? 0xfff) eqn:E.
  - replace (0xFFF <? a + b) with false by lia. reflexivity.
  - replace (0xFFF <? a + b) with true by lia. reflexivity.
Qed.

(** [-] is exact when it does not underflow; then it panics in a debug build
    and wraps in a release build. *)
Theorem C39_sub : forall p a b, u12 a -> u12 b ->
  u12_sub p a b = if b <=? a then Ok (a - b) else match p with Debug => Panic | Release => Ok ((a - b) mod 4096) end.
Proof.
  intros p a b Ha Hb. unfold u12 in *. unfold u12_sub, sub_u16, checked.
  destruct (b <=? a) eqn:E.
  - replace ((0 <=? a - b) && (a - b <? 65536)) with true by lia. cbn [bind]. rewrite u12_mask_mod. f_equal. lia.
  - replace ((0 <=? a - b) && (a - b <? 65536)) with false by lia. destruct p; [reflexivity|]. cbn [bind].
    rewrite u12_mask_mod. f_equal. lia.
Qed.

Lemma low12 a : u12 a -> Z.land a (Z.ones 12) = a.
Proof. intros Ha. rewrite Z.land_ones by lia. unfold u12 in Ha. change (2 ^ 12) with 4096. lia. Qed.
Theorem C39_bits : forall a b, u12 a -> u12 b ->
  u12_and a b = Ok (Z.land a b) /\ u12_or a b = Ok (Z.lor a b) /\ u12 (Z.land a b) /\ u12 (Z.lor a b).
Proof.
  intros a b Ha Hb. unfold u12_and, u12_or. rewrite !u12_mask_mod.
  assert (E1 : (Z.land a b) mod 4096 = Z.land a b).
  { change 4096 with (2 ^ 12). rewrite <- Z.land_ones, <- Z.land_assoc, (low12 b Hb) by lia. reflexivity. }
  assert (E2 : (Z.lor a b) mod 4096 = Z.lor a b).
  { change 4096 with (2 ^ 12). rewrite <- Z.land_ones, Z.land_lor_distr_l, (low12 a Ha), (low12 b Hb) by lia. reflexivity. }
  assert (B1 : 0 <= Z.land a b < 4096) by (rewrite <- E1; apply Z.mod_pos_bound; lia).
  assert (B2 : 0 <= Z.lor a b < 4096) by (rewrite <- E2; apply Z.mod_pos_bound; lia).
  rewrite E1, E2. split; [reflexivity|]. split; [reflexivity|]. split; assumption.
Qed.

(** Shifts drop the bits that leave the 12-bit field; an amount of 16 or more
    panics in a debug build and is taken modulo 16 in a release build. *)
Theorem C39_shifts : forall p a n, u12 a -> u12 n ->
  let amount := if n <? 16 then Ok n else match p with Debug => Panic | Release => Ok (n mod 16) end in
  u12_shl p a n = (do! k <- amount ; Ok ((a * 2 ^ k) mod 4096)) /\
  u12_shr p a n = (do! k <- amount ; Ok (a / 2 ^ k)).
Proof.
  intros p a n Ha Hn amount. unfold u12_shl, u12_shr, shift_amount_u16. fold amount.
  assert (Hk : forall k, amount = Ok k -> 0 <= k < 16).
  { unfold amount, u12 in *. intros k Hk. destruct (n <? 16) eqn:E; [|destruct p; [discriminate|]];
      [assert (k = n) by congruence|assert (k = n mod 16) by congruence]; lia. }
  destruct amount as [k|]; [|split; reflexivity]. specialize (Hk k eq_refl). cbn [bind].
  rewrite !u12_mask_mod, Z.shiftl_mul_pow2, Z.shiftr_div_pow2 by lia. split; f_equal.
  - set (z := a * 2 ^ k). lia.
  - unfold u12 in Ha. assert (0 < 2 ^ k) by (apply Z.pow_pos_nonneg; lia).
    apply Z.mod_small. split; [apply Z.div_pos; lia|]. apply Z.div_lt_upper_bound; [lia|]. nia.
Qed.

(** Nibbles are taken from the low halves of the three bytes, most significant
    first. *)
Theorem C39_nibbles : forall a b c, u8 a -> u8 b -> u8 c ->
  u12_from_be_nibbles a b c = Ok (256 * (a mod 16) + 16 * (b mod 16) + c mod 16) /\
  u12_from_array a b c = Ok (256 * (a mod 16) + 16 * (b mod 16) + c mod 16).
Proof.
  assert (N : forall z, Z.land z 0x0f = z mod 16).
  { intros z. change 0x0f with (Z.ones 4). rewrite Z.land_ones by lia. reflexivity. }
  assert (K : forall a b c, 0 <= b < 16 -> 0 <= c < 16 -> 0 <= a < 16 ->
     u12_new (u16_from_le_bytes (Z.lor (shl_u8 b 4) c) a) = Ok (256 * a + 16 * b + c)).
  { intros a b c Hb Hc Ha.
    assert (E : Z.lor (shl_u8 b 4) c = 16 * b + c).
    { pose proof (sweep_below 16 (fun b => forallb (fun c => Z.lor (shl_u8 b 4) c =? 16 * b + c) (below 16))
        ltac:(vm_compute; reflexivity) b Hb) as K1. cbv beta in K1.
      pose proof (sweep_below 16 _ K1 c Hc) as K2. cbv beta in K2. lia. }
    unfold u12_new, u16_from_le_bytes, u12_max. rewrite E.
    replace (0xFFF <? 16 * b + c + 256 * a) with false by lia. f_equal. lia. }
  intros a b c Ha Hb Hc. unfold u12_from_be_nibbles, u12_from_array. rewrite !N.
  rewrite !K by lia. split; f_equal; lia.
Qed.

(** Equality and order are those of the integers. *)
Theorem C39_order : forall a b, u12 a -> u12 b ->
  u12_eq a b = (a =? b) /\ u12_cmp a b = (a ?= b) /\ u12_into a = a.
Proof.
  intros a b Ha Hb. unfold u12_eq, u12_cmp, u12 in *. rewrite !u16_mask_mod.
  replace (a mod 4096) with a by lia. replace (b mod 4096) with b by lia. repeat split.
Qed.

(** Every operation that returns gives a 12-bit value. *)
Theorem C39_closed : forall p a b r, u12 a -> u12 b ->
  (u12_wrapping_add a b = Ok r \/ u12_wrapping_sub a b = Ok r \/ u12_add p a b = Ok r \/ u12_sub p a b = Ok r \/
   u12_and a b = Ok r \/ u12_or a b = Ok r \/ u12_shl p a b = Ok r \/ u12_shr p a b = Ok r) -> u12 r.
Proof.
  intros p a b r Ha Hb H. destruct (C39_wrapping a b Ha Hb) as [W1 W2]. destruct (C39_bits a b Ha Hb) as (B1 & B2 & U1 & U2).
  destruct (C39_shifts p a b Ha Hb) as [S1 S2]. rewrite W1, W2, (C39_add p a b Ha Hb), (C39_sub p a b Ha Hb), B1, B2 in H.
  unfold u12 in *.
  destruct H as [H|[H|[H|[H|[H|[H|[H|H]]]]]]].
  - assert (r = (a + b) mod 4096) by congruence. lia.
  - assert (r = (a - b) mod 4096) by congruence. lia.
  - destruct (a + b <=? 0xfff) eqn:E; [|discriminate]. assert (r = a + b) by congruence. lia.
  - destruct (b <=? a) eqn:E; [assert (r = a - b) by congruence; lia|]. destruct p; [discriminate|].
    assert (r = (a - b) mod 4096) by congruence. lia.
  - assert (r = Z.land a b) by congruence. lia.
  - assert (r = Z.lor a b) by congruence. lia.
  - rewrite S1 in H. destruct (if b <? 16 then Ok b else _) as [k|]; [|discriminate]. cbn [bind] in H.
    assert (r = (a * 2 ^ k) mod 4096) by congruence. subst r. apply Z.mod_pos_bound. lia.
  - unfold u12_shr in H. destruct (shift_amount_u16 p b); [|discriminate]. cbn [bind] in H. rewrite u12_mask_mod in H.
    assert (r = Z.shiftr a a0 mod 4096) by congruence. subst r. apply Z.mod_pos_bound. lia.
Qed.

Example C39_nonvacuous :
  u12_wrapping_add 0xfff 2 = Ok 1 /\ u12_wrapping_sub 0 1 = Ok 0xfff /\ u12_add Release 0xfff 1 = Panic /\
  u12_sub Debug 0 1 = Panic /\ u12_sub Release 0 1 = Ok 0xfff /\ u12_shl Debug 0x123 4 = Ok 0x230 /\
  u12_shr Debug 0x123 4 = Ok 0x12 /\ u12_shl Debug 1 16 = Panic /\ u12_from_be_nibbles 0xf1 0x12 0x03 = Ok 0x123.
Proof. vm_compute. repeat split. Qed.

(** The two halves of a byte, in both orders. *)
Theorem C39_byte_halves : forall v, u8 v ->
  to_be_nibbles v = (v / 16, v mod 16) /\ to_le_nibbles v = (v mod 16, v / 16).
Proof.
  intros v Hv. unfold u8 in Hv. unfold to_be_nibbles, to_le_nibbles, to_upper_nibble, to_lower_nibble.
  assert (E1 : Z.land v 0x0f = v mod 16) by (change 0x0f with (Z.ones 4); rewrite Z.land_ones by lia; reflexivity).
  assert (Q : Forall (fun v => shr_u8 (Z.land v 0xf0) 4 = v / 16) (map Z.of_nat (seq 0 256))) by (repeat constructor).
  rewrite Forall_forall in Q. rewrite E1, (Q v); [split; reflexivity|]. apply in_map_iff. exists (Z.to_nat v). split; [lia|]. apply in_seq. lia.
Qed.

(** ** C40 *)
(** A history of writes and what they return. *)
Fixpoint ring_writes (r : ring) (ws : list (Z * Z)) : res (ring * list wresult) :=
  match ws with
  | [] => Ok (r, [])
  | (o, v) :: ws' =>
      do! ' (r, x) <- ring_write r o v ; do! ' (r, xs) <- ring_writes r ws' ; Ok (r, x :: xs)
  end.

Lemma ring_history n ws : (0 < n)%nat -> Forall (fun x => 0 <= fst x) ws ->
  forall r past, ring_like n r (latest (Z.of_nat n) past) ->
  exists r', ring_writes r ws = Ok (r', map (fun x => WOk (snd x)) ws) /\
    ring_like n r' (latest (Z.of_nat n) (rev ws ++ past)).
Proof.
  intros Hn. induction ws as [|[o v] ws IH]; intros F r past Hr.
  - exists r. split; [reflexivity|exact Hr].
  - inversion F as [|? ? Ho F']; subst. cbn [fst] in Ho.
    destruct (ring_like_write n r _ o v Hn Ho Hr) as (r1 & E1 & L1).
    destruct (IH F' r1 ((o, v) :: past) L1) as (r2 & E2 & L2). exists r2. cbn [ring_writes]. rewrite E1. cbn [bind].
    rewrite E2. cbn [bind]. split; [reflexivity|]. cbn [rev]. rewrite <- app_assoc. exact L2.
Qed.

Theorem C40_ring : forall n ws, (0 < n)%nat -> Forall (fun x => 0 <= fst x) ws ->
  exists r, ring_writes (ring_new n) ws = Ok (r, map (fun x => WOk (snd x)) ws) /\
    forall o, 0 <= o -> ring_read r o = Ok (latest (Z.of_nat n) (rev ws) o).
Proof.
  intros n ws Hn F. destruct (ring_history n ws Hn F (ring_new n) [] (ring_like_new n Hn)) as (r & E & _ & _ & L).
  rewrite app_nil_r in L. exists r. split; [exact E|exact L].
Qed.

(** [SafeAddressable::write] of any device succeeds exactly when its write is
    accepted, with the same effect and value; a refused write panics. *)
Theorem C40_safe_write : forall D (dev : Device D) p (d : D) a v,
  (forall d' x, safe_write p d a v = Ok (d', x) <-> dev_write p d a v = Ok (d', WOk x)) /\
  (safe_write p d a v = Panic <-> dev_write p d a v = Panic \/ exists d', dev_write p d a v = Ok (d', WErr)).
Proof.
  intros D dev p d a v. unfold safe_write. destruct (dev_write p d a v) as [[d1 [y|]]|]; cbn [bind].
  - split; [intros d' x; split; intros E; congruence|]. split; [discriminate|]. intros [E|(d' & E)]; discriminate E.
  - split; [intros d' x; split; intros E; discriminate E|]. split; [eauto|reflexivity].
  - split; [intros d' x; split; intros E; discriminate E|]. split; [auto|reflexivity].
Qed.

(** The same history through [SafeAddressable]: it never panics. *)
Fixpoint safe_writes {D} `{Device D} (p : profile) (d : D) (ws : list (Z * Z)) : res (D * list Z) :=
  match ws with
  | [] => Ok (d, [])
  | (o, v) :: ws' =>
      do! ' (d, x) <- safe_write p d o v ; do! ' (d, xs) <- safe_writes p d ws' ; Ok (d, x :: xs)
  end.
Theorem C40_safe_ring : forall p n ws, (0 < n)%nat -> Forall (fun x => 0 <= fst x) ws ->
  exists r, safe_writes p (ring_new n) ws = Ok (r, map snd ws) /\
    forall o, 0 <= o -> dev_read p r o = Ok (latest (Z.of_nat n) (rev ws) o).
Proof.
  intros p n ws Hn F. destruct (C40_ring n ws Hn F) as (r & E & L). exists r. split; [|exact L]. clear L F Hn.
  revert E. generalize (ring_new n) as r0. revert r. induction ws as [|[o v] ws IH]; intros r r0 E; cbn [ring_writes] in E.
  - cbn [safe_writes map]. congruence.
  - destruct (ring_write r0 o v) as [[r1 w]|] eqn:Ew; cbn [bind] in E; [|discriminate].
    destruct (ring_writes r1 ws) as [[r2 xs]|] eqn:Er; cbn [bind] in E; [|discriminate].
    cbn [map snd] in *. assert (w = WOk v) by congruence. assert (r2 = r) by congruence. subst w r2.
    assert (Q : ring_writes r1 ws = Ok (r, map (fun x => WOk (snd x)) ws)) by congruence.
    cbn [safe_writes]. unfold safe_write at 1. cbn [dev_write ring_device]. rewrite Ew. cbn [bind]. rewrite (IH r r1 Q). reflexivity.
Qed.

(** A ring of capacity zero panics on every access. *)
Theorem C40_zero_capacity : forall o v, ring_read (ring_new 0) o = Panic /\ ring_write (ring_new 0) o v = Panic.
Proof. intros. split; reflexivity. Qed.

Example C40_safe_case : safe_writes Debug (ring_new 4) [(1, 10); (5, 20)] = Ok (mkRing 4 [0; 20; 0; 0], [10; 20]) /\
  safe_write Debug (mkMemory ReadOnly 0 0 [7]) 0 1 = Panic.
Proof. vm_compute. split; reflexivity. Qed.
Example C40_nonvacuous :
  exists r, ring_writes (ring_new 4) [(1, 10); (5, 20); (6, 30)] = Ok (r, [WOk 10; WOk 20; WOk 30]) /\
    ring_read r 1 = Ok 20 /\ ring_read r 2 = Ok 30 /\ ring_read r 4 = Ok 0 /\ ring_read r 9 = Ok 20.
Proof. eexists. vm_compute. repeat split. Qed.

(** ** C47 *)
Theorem C47_pixel : forall d x y, display_ok d -> 0 <= x -> 0 <= y ->
  display_pixel d x y = Ok (if on_screen x y then Some (lit d x y) else None).
Proof. exact pixel_spec. Qed.

Theorem C47_write_pixel : forall d x y on, display_ok d -> 0 <= x -> 0 <= y ->
  exists d', write_pixel d x y on = Ok (d', if on_screen x y then Some (lit d x y) else None) /\
    display_ok d' /\ shows d' (painted d x y on).
Proof. exact write_pixel_spec. Qed.

(** What was written is read back; other pixels keep their value. *)
Theorem C47_read_back : forall d x y on d' o x' y', display_ok d -> 0 <= x -> 0 <= y -> 0 <= x' -> 0 <= y' ->
  write_pixel d x y on = Ok (d', o) ->
  display_pixel d' x' y' =
  if on_screen x y && (x' =? x) && (y' =? y) then Ok (Some on) else display_pixel d x' y'.
Proof.
  intros d x y on d' o x' y' D Hx Hy Hx' Hy' E.
  destruct (write_pixel_spec d x y on D Hx Hy) as (d1 & E1 & D1 & S1).
  unfold write_pixel in E. rewrite E1 in E. assert (d' = d1) as -> by congruence.
  rewrite (pixel_spec d1 x' y' D1 Hx' Hy'), (pixel_spec d x' y' D Hx' Hy'), (S1 x' y'). unfold painted.
  destruct (on_screen x y) eqn:Eo; cbn [andb].
  - rewrite Bool.andb_true_r. destruct ((x' =? x) && (y' =? y)) eqn:Ee; [|reflexivity].
    assert (x' = x) as -> by lia. assert (y' = y) as -> by lia. rewrite Eo. reflexivity.
  - rewrite Bool.andb_false_r. reflexivity.
Qed.

(** Changing the whole picture through [with_inner] gives the picture the
    function returns, and [unwrap] hands out the picture that the pixels
    show. *)
Theorem C47_whole_picture : forall d f x y, display_ok (f d) -> 0 <= x -> 0 <= y ->
  display_pixel (with_inner d f) x y = Ok (if on_screen x y then Some (nth (Z.to_nat x) (nth (Z.to_nat y) (f d) []) false) else None) /\
  (display_ok d -> display_pixel d x y =
     Ok (if on_screen x y then Some (nth (Z.to_nat x) (nth (Z.to_nat y) (display_unwrap d) []) false) else None)).
Proof.
  intros d f x y Hf Hx Hy. unfold with_inner, display_unwrap. split; [|intros Hd]; rewrite pixel_spec by assumption; unfold lit, item;
    replace (y <? 0) with false by lia; replace (x <? 0) with false by lia; reflexivity.
Qed.

(** A new display is dark and has the right shape. *)
Theorem C47_default : display_ok display_default /\ shows display_default (fun _ _ => false).
Proof. split; [exact display_default_ok|]. intros x y. apply lit_blank. Qed.

Example C47_nonvacuous :
  exists d, write_pixel display_default 63 31 true = Ok (d, Some false) /\
    display_pixel d 63 31 = Ok (Some true) /\ display_pixel d 62 31 = Ok (Some false) /\
    display_pixel d 64 31 = Ok None /\ write_pixel d 63 31 false = Ok (display_default, Some true) /\
    write_pixel d 0 32 true = Ok (d, None).
Proof. eexists. vm_compute. repeat split. Qed.

(** ** C48: glyphs *)
(** [write_sprite] copies the glyph (it does not XOR it), clipped at the
    edges. The returned flag is the old value of the last glyph pixel on the
    screen: the bottom right one. *)
Theorem C48_write_sprite_exact : forall d x y f, display_ok d -> 0 <= x -> 0 <= y ->
  if on_screen x y then
    exists d', write_sprite d x y f = Ok (d', Some (lit d (Z.min 63 (x + 7)) (Z.min 31 (y + 4)))) /\
      display_ok d' /\ shows d' (stamped d (glyph_of (digit_of f)) x y)
  else write_sprite d x y f = Ok (d, None).
Proof.
  intros d x y f D Hx Hy. pose proof (write_sprite_spec d x y f D Hx Hy) as K.
  destruct (on_screen x y); [|exact K].
  replace (glyph_of (digit_of f)) with (font_bytes f) by (destruct f; reflexivity). exact K.
Qed.

(** On a dark area copying and XOR-ing are the same. *)
Theorem C48_write_sprite_partial : forall d x y f d' o, display_ok d -> 0 <= x -> 0 <= y -> on_screen x y = true ->
  (forall x' y', inside_sprite (glyph_of (digit_of f)) (x' - x) (y' - y) = true -> lit d x' y' = false) ->
  write_sprite d x y f = Ok (d', o) ->
  shows d' (xored d (glyph_of (digit_of f)) x y) /\ o = Some false /\ ~ collides d (glyph_of (digit_of f)) x y.
Proof.
  intros d x y f d' o D Hx Hy Eo Hd E. pose proof (C48_write_sprite_exact d x y f D Hx Hy) as K. rewrite Eo in K.
  destruct K as (d1 & E1 & D1 & S1). rewrite E1 in E. assert (d' = d1) as -> by congruence.
  assert (Ho : o = Some (lit d (Z.min 63 (x + 7)) (Z.min 31 (y + 4)))) by congruence.
  assert (L : length (glyph_of (digit_of f)) = 5%nat) by (destruct f; reflexivity).
  split; [|split].
  - intros x' y'. rewrite S1. unfold stamped, xored. destruct (_ && _) eqn:Ei; [|reflexivity].
    apply andb_prop in Ei as [Ei _]. rewrite (Hd x' y' Ei), Bool.xorb_false_l. reflexivity.
  - rewrite Ho. f_equal. apply Hd. unfold inside_sprite, on_screen in *. rewrite L. lia.
  - intros (x' & y' & H1 & H2 & H3 & H4). rewrite Hd in H4 by exact H1. discriminate.
Qed.

(** The glyphs of two different digits are different, so the font is usable. *)
Theorem C48_font_injective : forall f f', font_bytes f = font_bytes f' -> f = f'.
Proof. intros f f' H. destruct f, f'; try reflexivity; discriminate H. Qed.

(** The documented behaviour (draw by XOR, report whether a lit pixel was
    turned off) fails: drawing a glyph over itself leaves it lit, and the
    overlap is not reported. *)
Definition twice_d : display :=
  match write_sprite display_default 0 0 FZero with Ok (d, _) => d | Panic => [] end.
Theorem C48_write_sprite_refuted : exists d d' o, display_ok d /\
  write_sprite d 0 0 FZero = Ok (d', o) /\ collides d (glyph_of 0) 0 0 /\
  o = Some false /\ ~ shows d' (xored d (glyph_of 0) 0 0).
Proof.
  destruct (C48_write_sprite_exact display_default 0 0 FZero display_default_ok ltac:(lia) ltac:(lia))
    as (d1 & E1 & D1 & S1).
  destruct (C48_write_sprite_exact d1 0 0 FZero D1 ltac:(lia) ltac:(lia)) as (d2 & E2 & D2 & S2).
  exists d1, d2, (Some (lit d1 (Z.min 63 (0 + 7)) (Z.min 31 (0 + 4)))).
  split; [exact D1|]. split; [exact E2|]. split; [|split].
  - exists 0, 0. split; [reflexivity|]. split; [reflexivity|]. split; [reflexivity|]. rewrite S1. reflexivity.
  - rewrite S1. reflexivity.
  - intros H. specialize (H 0 0). rewrite S2 in H. revert H. unfold stamped, xored. cbn [digit_of].
    change (0 - 0) with 0. change (inside_sprite (glyph_of 0) 0 0 && on_screen 0 0) with true. cbv iota.
    rewrite (S1 0 0). vm_compute. discriminate.
Qed.

Example C48_nonvacuous :
  exists d, write_sprite display_default 60 30 FZero = Ok (d, Some false) /\
    map (fun x => lit d x 30) [59; 60; 61; 62; 63] = [false; true; true; true; true] /\
    map (fun x => lit d x 31) [59; 60; 61; 62; 63] = [false; true; false; false; true].
Proof. eexists. vm_compute. repeat split. Qed.

(** ** C49 *)
(** A timer written with [v] and read at any later moment gives [v] minus the
    whole seconds that passed, not below zero, without panicking. *)
Theorem C49_reading : forall e p v w w', u8 v ->
  let t0 := env_time e (w_time w) in
  let t1 := env_time e (w_time w') in
  t0 <= t1 ->
  exists w'', clock_read e p (fst (clock_with_value e v w)) w' = Ok (Z.max 0 (v - (t1 - t0) / 1000000000), w'') /\
    w_time w'' = S (w_time w') /\ w_random w'' = w_random w'.
Proof.
  intros e p v w w' Hv t0 t1 Ht. unfold clock_with_value, now. cbn [fst].
  rewrite clock_read_eq by exact Hv. cbn [clock_inner written_at]. unfold clocked. fold t0 t1.
  rewrite Z.max_r with (m := t1 - t0) by lia. eexists. repeat split.
Qed.

(** If the operating system clock steps back the timer keeps its value. *)
Theorem C49_reading_backwards : forall e p v w w', u8 v ->
  env_time e (w_time w') <= env_time e (w_time w) ->
  exists w'', clock_read e p (fst (clock_with_value e v w)) w' = Ok (v, w'').
Proof.
  intros e p v w w' Hv Ht. unfold clock_with_value, now. cbn [fst].
  rewrite clock_read_eq by exact Hv. cbn [clock_inner written_at]. unfold clocked, u8 in *.
  rewrite (Z.max_l 0 (env_time e (w_time w') - env_time e (w_time w))) by lia. change (0 / 1000000000) with 0.
  rewrite Z.max_r by lia. rewrite Z.sub_0_r. eexists. reflexivity.
Qed.

(** It never increases between writes and stays at zero. *)
Theorem C49_decreasing : forall e p c w1 w2 v1 v2 w1' w2', u8 (clock_inner c) ->
  env_time e (w_time w1) <= env_time e (w_time w2) ->
  clock_read e p c w1 = Ok (v1, w1') -> clock_read e p c w2 = Ok (v2, w2') ->
  0 <= v2 <= v1 /\ v1 <= clock_inner c.
Proof.
  intros e p c w1 w2 v1 v2 w1' w2' Hv Ht E1 E2. rewrite clock_read_eq in E1, E2 by exact Hv.
  assert (v1 = clocked (clock_inner c) (written_at c) (env_time e (w_time w1))) by congruence.
  assert (v2 = clocked (clock_inner c) (written_at c) (env_time e (w_time w2))) by congruence.
  subst v1 v2. unfold clocked. 
  set (a := Z.max 0 (env_time e (w_time w1) - written_at c)). set (b := Z.max 0 (env_time e (w_time w2) - written_at c)).
  assert (Hab : 0 <= a <= b) by lia.
  assert (a / 1000000000 <= b / 1000000000) by (apply Z.div_le_mono; lia).
  assert (0 <= a / 1000000000) by (apply Z.div_pos; lia). unfold u8 in Hv. lia.
Qed.

Example C49_nonvacuous :
  let e := mkEnv (fun k => 1500000000 * Z.of_nat k) (fun _ => 0) in
  let c := fst (clock_with_value e 3 (mkWorld 0 0)) in
  map (fun k => match clock_read e Debug c (mkWorld k 0) with Ok (v, _) => v | Panic => -1 end) [0; 1; 2; 3]%nat
  = [3; 2; 0; 0].
Proof. reflexivity. Qed.

Print Assumptions C38_decode_iff.
Print Assumptions C38_total.
Print Assumptions C38_encode_injective.
Print Assumptions C38_slices.
Print Assumptions C38_undocumented_panics.
Print Assumptions C39_new.
Print Assumptions C39_constants.
Print Assumptions C39_wrapping.
Print Assumptions C39_add.
Print Assumptions C39_sub.
Print Assumptions C39_bits.
Print Assumptions C39_shifts.
Print Assumptions C39_nibbles.
Print Assumptions C39_order.
Print Assumptions C39_closed.
Print Assumptions C39_byte_halves.
Print Assumptions C40_ring.
Print Assumptions C40_safe_write.
Print Assumptions C40_safe_ring.
Print Assumptions C40_zero_capacity.
Print Assumptions C47_pixel.
Print Assumptions C47_write_pixel.
Print Assumptions C47_read_back.
Print Assumptions C47_whole_picture.
Print Assumptions C47_default.
Print Assumptions C48_write_sprite_exact.
Print Assumptions C48_write_sprite_partial.
Print Assumptions C48_font_injective.
Print Assumptions C48_write_sprite_refuted.
Print Assumptions C49_reading.
Print Assumptions C49_reading_backwards.
Print Assumptions C49_decreasing.
