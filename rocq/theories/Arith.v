(** Arithmetic facts about bytes and words used by the proofs. *)
From Coq Require Export Lia ZifyBool ZifyNat.
From Verif Require Export Base.

Ltac Zify.zify_post_hook ::= Z.div_mod_to_equations.

(** Exhaustive check over all bytes. *)
Definition bytes : list Z := map Z.of_nat (seq 0 256).

Lemma in_bytes v : u8 v -> In v bytes.
Proof.
  unfold u8, bytes. intros Hv. apply in_map_iff. exists (Z.to_nat v).
  split; [lia|]. apply in_seq. lia.
Qed.

Lemma u8_sweep (P : Z -> bool) :
  forallb P bytes = true -> forall v, u8 v -> P v = true.
Proof. intros Hf v Hv. exact (proj1 (forallb_forall P bytes) Hf v (in_bytes v Hv)). Qed.

Lemma u8_sweep2 (P : Z -> Z -> bool) :
  forallb (fun v => forallb (P v) bytes) bytes = true ->
  forall v w, u8 v -> u8 w -> P v w = true.
Proof.
  intros Hf v w Hv Hw.
  apply (u8_sweep (P v)); [|exact Hw].
  exact (u8_sweep (fun v => forallb (P v) bytes) Hf v Hv).
Qed.

Lemma u8_mod v : u8 (v mod 256).
Proof. unfold u8. lia. Qed.
Lemma u16_mod v : u16 (v mod 65536).
Proof. unfold u16. lia. Qed.
Lemma u8_u16 v : u8 v -> u16 v.
Proof. unfold u8, u16. lia. Qed.
Lemma u8_land a b : u8 a -> u8 b -> u8 (Z.land a b).
Proof.
  intros Ha Hb.
  assert (E : ((0 <=? Z.land a b) && (Z.land a b <? 256)) = true).
  { apply (u8_sweep2 (fun a b => (0 <=? Z.land a b) && (Z.land a b <? 256))); [vm_compute; reflexivity|exact Ha|exact Hb]. }
  unfold u8. lia.
Qed.
Lemma u8_lor a b : u8 a -> u8 b -> u8 (Z.lor a b).
Proof.
  intros Ha Hb.
  assert (E : ((0 <=? Z.lor a b) && (Z.lor a b <? 256)) = true).
  { apply (u8_sweep2 (fun a b => (0 <=? Z.lor a b) && (Z.lor a b <? 256))); [vm_compute; reflexivity|exact Ha|exact Hb]. }
  unfold u8. lia.
Qed.
Lemma u8_lxor a b : u8 a -> u8 b -> u8 (Z.lxor a b).
Proof.
  intros Ha Hb.
  assert (E : ((0 <=? Z.lxor a b) && (Z.lxor a b <? 256)) = true).
  { apply (u8_sweep2 (fun a b => (0 <=? Z.lxor a b) && (Z.lxor a b <? 256))); [vm_compute; reflexivity|exact Ha|exact Hb]. }
  unfold u8. lia.
Qed.

Lemma checked_ok p m v : 0 <= v < m -> checked p m v = Ok v.
Proof. intros Hv. unfold checked. replace ((0 <=? v) && (v <? m)) with true by lia. reflexivity. Qed.

Lemma checked_over p m v : m <= v ->
  checked p m v = match p with Debug => Panic | Release => Ok (v mod m) end.
Proof. intros Hv. unfold checked. replace ((0 <=? v) && (v <? m)) with false by lia. reflexivity. Qed.
