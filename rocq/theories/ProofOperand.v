(** Normal forms of the flag-carrying operand arithmetic, pages and status. *)
From Verif Require Import Arith ModelMap ModelRegs6502 ModelCpu6502 ModelOperand.
From Verif Require Spec6502.

Lemma bit7 v : u8 v -> (Z.land (shr_u8 v 7) 1 =? 1) = (128 <=? v).
Proof.
  intros Hv. apply eqb_prop.
  apply (u8_sweep (fun v => Bool.eqb (Z.land (shr_u8 v 7) 1 =? 1) (128 <=? v))); [vm_compute; reflexivity|exact Hv].
Qed.

Lemma bit_is_set_testbit v n : u8 v -> 0 <= n < 8 -> bit_is_set v n = Z.testbit v n.
Proof.
  intros Hv Hn. apply eqb_prop.
  assert (Hn' : n = 0 \/ n = 1 \/ n = 2 \/ n = 3 \/ n = 4 \/ n = 5 \/ n = 6 \/ n = 7) by lia.
  repeat destruct Hn' as [->|Hn']; try subst n;
  match goal with |- Bool.eqb (bit_is_set v ?k) _ = true =>
    apply (u8_sweep (fun v => Bool.eqb (bit_is_set v k) (Z.testbit v k)));
      [vm_compute; reflexivity|exact Hv] end.
Qed.

Lemma testbit7 v : u8 v -> Z.testbit v 7 = (128 <=? v).
Proof.
  intros Hv. apply eqb_prop.
  apply (u8_sweep (fun v => Bool.eqb (Z.testbit v 7) (128 <=? v))); [vm_compute; reflexivity|exact Hv].
Qed.

Lemma bit_is_set_7 v : u8 v -> bit_is_set v 7 = (128 <=? v).
Proof. intros Hv. rewrite bit_is_set_testbit by (auto; lia). now apply testbit7. Qed.

Lemma bit_is_set_0 v : u8 v -> bit_is_set v 0 = (v mod 2 =? 1).
Proof.
  intros Hv. apply eqb_prop.
  apply (u8_sweep (fun v => Bool.eqb (bit_is_set v 0) (v mod 2 =? 1))); [vm_compute; reflexivity|exact Hv].
Qed.

Lemma shl_1 v : u8 v -> shl_u8 v 1 = (2 * v) mod 256.
Proof.
  intros Hv. apply Z.eqb_eq.
  apply (u8_sweep (fun v => shl_u8 v 1 =? (2 * v) mod 256)); [vm_compute; reflexivity|exact Hv].
Qed.

Lemma shr_1 v : u8 v -> shr_u8 v 1 = v / 2.
Proof.
  intros Hv. apply Z.eqb_eq.
  apply (u8_sweep (fun v => shr_u8 v 1 =? v / 2)); [vm_compute; reflexivity|exact Hv].
Qed.

Lemma rol_val v c : u8 v -> Z.lor (shl_u8 v 1) (bool_as_u8 c) = (2 * v) mod 256 + Spec6502.bit c 1.
Proof.
  intros Hv. apply Z.eqb_eq. destruct c;
  [ apply (u8_sweep (fun v => Z.lor (shl_u8 v 1) (bool_as_u8 true) =? (2 * v) mod 256 + Spec6502.bit true 1))
  | apply (u8_sweep (fun v => Z.lor (shl_u8 v 1) (bool_as_u8 false) =? (2 * v) mod 256 + Spec6502.bit false 1)) ];
  (exact Hv || (vm_compute; reflexivity)).
Qed.

Lemma ror_val v c : u8 v ->
  Z.lor (shr_u8 v 1) (shl_u8 (bool_as_u8 c) 7) = v / 2 + Spec6502.bit c 128.
Proof.
  intros Hv. apply Z.eqb_eq. destruct c;
  [ apply (u8_sweep (fun v => Z.lor (shr_u8 v 1) (shl_u8 (bool_as_u8 true) 7) =? v / 2 + Spec6502.bit true 128))
  | apply (u8_sweep (fun v => Z.lor (shr_u8 v 1) (shl_u8 (bool_as_u8 false) 7) =? v / 2 + Spec6502.bit false 128)) ];
  (exact Hv || (vm_compute; reflexivity)).
Qed.

Lemma operand_new_nf v : u8 v -> operand_new v = mkOperand false (128 <=? v) (v =? 0) v.
Proof. intros Hv. unfold operand_new. now rewrite bit7. Qed.

Lemma operand_add_nf c1 n1 z1 a c2 n2 z2 b : 
  operand_add (mkOperand c1 n1 z1 a) (mkOperand c2 n2 z2 b)
  = mkOperand (256 <=? a + b) (128 <=? (a + b) mod 256) ((a + b) mod 256 =? 0) ((a + b) mod 256).
Proof. 
  unfold operand_add, overflowing_add_u8, operand_with_flags, operand_unwrap; cbn [op_inner].
  rewrite bit7 by apply u8_mod. reflexivity.
Qed.

Lemma operand_sub_nf c1 n1 z1 a c2 n2 z2 b : 
  operand_sub (mkOperand c1 n1 z1 a) (mkOperand c2 n2 z2 b)
  = mkOperand (a - b <? 0) (128 <=? (a - b) mod 256) ((a - b) mod 256 =? 0) ((a - b) mod 256).
Proof. 
  unfold operand_sub, overflowing_sub_u8, operand_with_flags, operand_unwrap; cbn [op_inner].
  rewrite bit7 by apply u8_mod. reflexivity.
Qed.

Lemma operand_shl_nf v : u8 v ->
  operand_shl (operand_new v) (operand_new 1)
  = mkOperand (128 <=? v) (128 <=? (2 * v) mod 256) ((2 * v) mod 256 =? 0) ((2 * v) mod 256).
Proof.
  intros Hv. unfold operand_shl, operand_unwrap. cbn [op_inner operand_new].
  rewrite shl_1, bit_is_set_7, operand_new_nf by (auto using u8_mod). reflexivity.
Qed.

Lemma operand_shr_nf v : u8 v ->
  operand_shr (operand_new v) (operand_new 1)
  = mkOperand (v mod 2 =? 1) (128 <=? v / 2) (v / 2 =? 0) (v / 2).
Proof.
  intros Hv. unfold operand_shr, operand_unwrap. cbn [op_inner operand_new].
  rewrite shr_1, bit_is_set_0, operand_new_nf by (auto || (unfold u8 in *; lia)). reflexivity.
Qed.

Lemma u8_rol v c : u8 v -> u8 ((2 * v) mod 256 + Spec6502.bit c 1).
Proof. unfold u8, Spec6502.bit. destruct c; lia. Qed.
Lemma u8_ror v c : u8 v -> u8 (v / 2 + Spec6502.bit c 128).
Proof. unfold u8, Spec6502.bit. destruct c; lia. Qed.

Lemma operand_rol_nf v ci : u8 v ->
  operand_rol (operand_new v) (operand_new 1) ci
  = let w := (2 * v) mod 256 + Spec6502.bit ci 1 in mkOperand (128 <=? v) (128 <=? w) (w =? 0) w.
Proof.
  intros Hv. unfold operand_rol, operand_unwrap. cbn [op_inner operand_new].
  rewrite rol_val, bit_is_set_7, operand_new_nf by (auto using u8_rol). reflexivity.
Qed.

Lemma operand_ror_nf v ci : u8 v ->
  operand_ror (operand_new v) (operand_new 1) ci
  = let w := v / 2 + Spec6502.bit ci 128 in mkOperand (v mod 2 =? 1) (128 <=? w) (w =? 0) w.
Proof.
  intros Hv. unfold operand_ror, operand_unwrap. cbn [op_inner operand_new].
  rewrite ror_val, bit_is_set_0, operand_new_nf by (auto using u8_ror). reflexivity.
Qed.

Lemma operand_ge_nf a b : u8 a -> u8 b ->
  operand_ge (mkOperand false (128 <=? a) (a =? 0) a) (mkOperand false (128 <=? b) (b =? 0) b)
  = (Spec6502.compare_rank b <=? Spec6502.compare_rank a).
Proof.
  intros Ha Hb. apply eqb_prop.
  apply (u8_sweep2 (fun a b => Bool.eqb
    (operand_ge (mkOperand false (128 <=? a) (a =? 0) a) (mkOperand false (128 <=? b) (b =? 0) b))
    (Spec6502.compare_rank b <=? Spec6502.compare_rank a)));
    [vm_compute; reflexivity|exact Ha|exact Hb].
Qed.

Lemma tca_nf a b c : u8 a -> u8 b ->
  twos_complement_add (operand_new a) (operand_new b) c
  = (mkOperand (256 <=? a + b) (128 <=? (a + b) mod 256) ((a + b) mod 256 =? 0) ((a + b) mod 256),
     (negb (128 <=? a) && negb (128 <=? b) && c) || ((128 <=? a) && (128 <=? b) && negb c)).
Proof.
  intros Ha Hb. unfold twos_complement_add, operand_unwrap.
  rewrite !operand_new_nf by auto. rewrite operand_add_nf. cbn [op_inner].
  rewrite !bit_is_set_7 by auto. reflexivity.
Qed.

Lemma tcs_nf a b c : u8 a -> u8 b ->
  twos_complement_sub (operand_new a) (operand_new b) c
  = let m' := (255 - b + (if c then 1 else 0)) mod 256 in
    let v := (a - b - (if c then 0 else 1)) mod 256 in
    (mkOperand (256 <=? a + m') (128 <=? v) (v =? 0) v,
     (negb (128 <=? a) && negb (128 <=? m') && c) || ((128 <=? a) && (128 <=? m') && negb c)).
Proof.
  intros Ha Hb. unfold twos_complement_sub, operand_unwrap. cbn [op_inner operand_new].
  assert (Hb' : u8 (255 - b)) by (unfold u8 in *; lia).
  rewrite (operand_new_nf (255 - b)) by exact Hb'.
  rewrite (operand_new_nf (bool_as_u8 c)) by (unfold u8, bool_as_u8; destruct c; lia).
  rewrite operand_add_nf.
  unfold twos_complement_add, operand_unwrap.
  rewrite !operand_new_nf by auto. rewrite operand_add_nf. cbn [op_inner].
  rewrite !bit_is_set_7 by auto using u8_mod.
  cbv zeta. fold (bool_as_u8 c).
  replace ((a + (255 - b + bool_as_u8 c) mod 256) mod 256)
    with ((a - b - (if c then 0 else 1)) mod 256); [reflexivity|].
  unfold u8, bool_as_u8 in *. destruct c; lia.
Qed.

Lemma page_from_u16_nf p a : u16 a ->
  page_from_u16 p a = Ok (mkPage (256 * (a / 256)) (256 * (a / 256) + 255)).
Proof.
  intros Ha. unfold page_from_u16, add_u16, sub_u16, u16 in *.
  rewrite (checked_ok p 65536 (0xff + 1)) by lia. cbn [bind].
  rewrite checked_ok by lia. cbn [bind].
  rewrite checked_ok by lia. cbn [bind].
  rewrite checked_ok by lia. cbn [bind].
  f_equal. f_equal; lia.
Qed.

Lemma page_contains_nf a b : u16 b ->
  page_contains (mkPage (256 * (a / 256)) (256 * (a / 256) + 255)) b = (b / 256 =? a / 256).
Proof. intros Hb. unfold page_contains; cbn [page_lo page_hi]. unfold u16 in *. lia. Qed.

Lemma page0_contains_nf b : u16 b -> page_contains (page_from_u8 0) b = (b / 256 =? 0).
Proof. intros Hb. unfold page_contains, page_from_u8; cbn [page_lo page_hi]. unfold u16 in *. lia. Qed.

Lemma ps_read_byte s : ps_read s = Spec6502.status_byte s.
Proof. destruct s as [[] [] [] [] [] [] [] []]; vm_compute; reflexivity. Qed.

Lemma ps_with_value_byte v : u8 v -> ps_with_value v = Spec6502.status_of_byte v.
Proof.
  intros Hv. unfold ps_with_value, Spec6502.status_of_byte.
  rewrite !bit_is_set_testbit by (auto; lia). reflexivity.
Qed.

Lemma status_byte_u8 s : u8 (Spec6502.status_byte s).
Proof. destruct s as [[] [] [] [] [] [] [] []]; vm_compute; intuition discriminate. Qed.

Lemma status_round_byte b : u8 b -> Spec6502.status_byte (Spec6502.status_of_byte b) = b.
Proof.
  intros Hb. apply Z.eqb_eq.
  apply (u8_sweep (fun b => Spec6502.status_byte (Spec6502.status_of_byte b) =? b));
    [vm_compute; reflexivity|exact Hb].
Qed.
Lemma status_round s : Spec6502.status_of_byte (Spec6502.status_byte s) = s.
Proof. destruct s as [[] [] [] [] [] [] [] []]; reflexivity. Qed.
