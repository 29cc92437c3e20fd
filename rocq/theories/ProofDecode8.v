(** CHIP-8 decoding proofs. *)

From Coq Require Import Lia ZifyBool ZifyNat.
From Verif Require Import Base ModelMap ModelU12 ModelDisplay ModelChip8 ModelOpsChip8 ModelRunChip8.
From Verif Require Import SpecMap ProofMap Link6502 ProofBus Arith SpecChip8.

(** ** Decoding *)
Definition all_registers : list gp_register :=
  [V0; V1; V2; V3; V4; V5; V6; V7; V8; V9; Va; Vb; Vc; Vd; Ve; Vf].
Definition below (n : nat) : list Z := map Z.of_nat (seq 0 n).

Lemma in_below n v : 0 <= v < Z.of_nat n -> In v (below n).
Proof.
  intros H. unfold below. apply in_map_iff. exists (Z.to_nat v). split; [lia|].
  apply in_seq. lia.
Qed.
Lemma in_registers r : In r all_registers.
Proof. destruct r; unfold all_registers; cbn [In]; tauto. Qed.

Lemma sweep_r (P : gp_register -> bool) : forallb P all_registers = true -> forall r, P r = true.
Proof. intros H r. exact (proj1 (forallb_forall _ _) H r (in_registers r)). Qed.
Lemma sweep_rr (P : gp_register -> gp_register -> bool) :
  forallb (fun r => forallb (P r) all_registers) all_registers = true -> forall r s, P r s = true.
Proof. intros H r. apply sweep_r. exact (sweep_r _ H r). Qed.
Lemma sweep_below n (P : Z -> bool) : forallb P (below n) = true ->
  forall v, 0 <= v < Z.of_nat n -> P v = true.
Proof. intros H v Hv. exact (proj1 (forallb_forall _ _) H v (in_below n v Hv)). Qed.
Lemma sweep_rk n (P : gp_register -> Z -> bool) :
  forallb (fun r => forallb (P r) (below n)) all_registers = true ->
  forall r v, 0 <= v < Z.of_nat n -> P r v = true.
Proof. intros H r. apply sweep_below. exact (sweep_r _ H r). Qed.
Lemma sweep_rrk n (P : gp_register -> gp_register -> Z -> bool) :
  forallb (fun r => forallb (fun s => forallb (P r s) (below n)) all_registers) all_registers = true ->
  forall r s v, 0 <= v < Z.of_nat n -> P r s v = true.
Proof. intros H r. apply sweep_rk. exact (sweep_r _ H r). Qed.

Definition gp_eqb a b := gp_index a =? gp_index b.
Lemma gp_index_inj a b : gp_index a = gp_index b -> a = b.
Proof. destruct a, b; cbn; intros H; try discriminate; reflexivity. Qed.
Lemma gp_eqb_eq a b : gp_eqb a b = true -> a = b.
Proof. unfold gp_eqb. intros H. apply gp_index_inj. lia. Qed.

Definition opcode_eqb (a b : opcode) : bool :=
  match a, b with
  | Cls, Cls | Ret, Ret => true
  | Drw x y n, Drw x' y' n' => gp_eqb x x' && gp_eqb y y' && (n =? n')
  | Sys x, Sys y | Call x, Call y | JpNonV0Indexed x, JpNonV0Indexed y
  | JpV0Indexed x, JpV0Indexed y | LdAbsolute x, LdAbsolute y => x =? y
  | LdImmediate r x, LdImmediate s y | AddImmediate r x, AddImmediate s y
  | SeImmediate r x, SeImmediate s y | SneImmediate r x, SneImmediate s y
  | Rnd r x, Rnd s y => gp_eqb r s && (x =? y)
  | LdVxVy r x, LdVxVy s y | AddVxVy r x, AddVxVy s y | Sub r x, Sub s y | Subn r x, Subn s y
  | And r x, And s y | Or r x, Or s y | Xor r x, Xor s y | Shl r x, Shl s y | Shr r x, Shr s y
  | SeVxVy r x, SeVxVy s y | SneVxVy r x, SneVxVy s y => gp_eqb r s && gp_eqb x y
  | LdSoundTimerDestTx r, LdSoundTimerDestTx s | LdDelayTimerDestTx r, LdDelayTimerDestTx s
  | LdDelayTimerSrcTx r, LdDelayTimerSrcTx s | LdBcd r, LdBcd s
  | LdSpriteLocation r, LdSpriteLocation s | LdK r, LdK s
  | AddIRegisterIndexed r, AddIRegisterIndexed s
  | ReadRegistersFromMemory r, ReadRegistersFromMemory s
  | StoreRegistersToMemory r, StoreRegistersToMemory s
  | Skp r, Skp s | Sknp r, Sknp s => gp_eqb r s
  | _, _ => false
  end.
Lemma opcode_eqb_eq a b : opcode_eqb a b = true -> a = b.
Proof.
  destruct a, b; cbn [opcode_eqb]; intros H; try discriminate; try reflexivity;
    repeat match goal with
    | K : _ && _ = true |- _ => apply andb_prop in K; destruct K
    | K : gp_eqb _ _ = true |- _ => apply gp_eqb_eq in K
    | K : (_ =? _) = true |- _ => apply Z.eqb_eq in K
    end; subst; reflexivity.
Qed.

(** Every instruction decodes from its own word. *)
Definition roundtrip (op : opcode) : bool :=
  match decode_bytes_to_opcode [encode op / 256; encode op mod 256] with
  | Ok (Some op') => opcode_eqb op' op && (0 <=? encode op) && (encode op <? 65536)
  | _ => false
  end.
Lemma roundtrip_all op : operands_ok op -> roundtrip op = true.
Proof.
  Local Ltac by_vm := vm_compute; reflexivity.
  destruct op as [ | |x y n|a|a|a|a|a|r k|r s|r|r|r|r|r|r|r k|r|r s|r s|r s|r s|r s|r s|r s|r s|r s|r k|r s|r k|r|r|r|r|r k];
    cbn [operands_ok]; unfold u8;
    [by_vm|by_vm|revert x y n; apply (sweep_rrk 16); by_vm| | | | | | | | | | | | | | | | | | | | | | | | | | | | | | | | ].
  { intros (H & N1 & N2).
    assert (K : forall v, 0 <= v < Z.of_nat 4096 -> (v =? 0x0e0) || (v =? 0x0ee) || roundtrip (Sys v) = true).
    { apply (sweep_below 4096). by_vm. }
    specialize (K a H). replace (a =? 224) with false in K by lia.
    replace (a =? 238) with false in K by lia. exact K. }
  all: lazymatch goal with
       | |- True -> roundtrip (_ ?r ?s) = true => intros _; revert r s; apply sweep_rr; by_vm
       | |- True -> roundtrip (_ ?r) = true => intros _; revert r; apply sweep_r; by_vm
       | |- _ -> roundtrip (_ ?r ?k) = true => revert r k; apply (sweep_rk 256); by_vm
       | |- _ -> roundtrip (_ ?a) = true => revert a; apply (sweep_below 4096); by_vm
       end.
Qed.
Lemma decode_encode op : operands_ok op ->
  u16 (encode op) /\ decode_bytes_to_opcode [encode op / 256; encode op mod 256] = Ok (Some op).
Proof.
  intros H. pose proof (roundtrip_all op H) as R. unfold roundtrip in R.
  destruct (decode_bytes_to_opcode _) as [[op'|]|]; try discriminate.
  apply andb_prop in R as [R R3]. apply andb_prop in R as [R R2].
  apply opcode_eqb_eq in R. subst op'. split; [unfold u16; lia|reflexivity].
Qed.

(** Every word that decodes is the word of the decoded instruction. *)
Definition operands_okb (op : opcode) : bool :=
  let nnn a := (0 <=? a) && (a <? 4096) in
  let kk a := (0 <=? a) && (a <? 256) in
  match op with
  | Sys a => nnn a && negb (a =? 0x0E0) && negb (a =? 0x0EE)
  | JpNonV0Indexed a | Call a | LdAbsolute a | JpV0Indexed a => nnn a
  | SeImmediate _ k | SneImmediate _ k | LdImmediate _ k | AddImmediate _ k | Rnd _ k => kk k
  | Drw _ _ n => (0 <=? n) && (n <? 16)
  | _ => true
  end.
Lemma operands_okb_ok op : operands_okb op = true -> operands_ok op.
Proof. destruct op; cbn [operands_okb operands_ok]; unfold u8; intros; auto; lia. Qed.

Definition decode_check (b0 b1 : Z) : bool :=
  match decode_bytes_to_opcode [b0; b1] with
  | Ok (Some op) => operands_okb op && (encode op =? 256 * b0 + b1)
  | Ok None => true
  | Panic => false
  end.
Lemma decode_sound b0 b1 : u8 b0 -> u8 b1 ->
  exists o, decode_bytes_to_opcode [b0; b1] = Ok o /\
    match o with Some op => operands_ok op /\ encode op = 256 * b0 + b1 | None => True end.
Proof.
  intros H0 H1.
  assert (K : decode_check b0 b1 = true).
  { revert b0 b1 H0 H1. apply u8_sweep2. vm_compute. reflexivity. }
  unfold decode_check in K. destruct (decode_bytes_to_opcode [b0; b1]) as [o|]; [|discriminate].
  exists o. split; [reflexivity|]. destruct o as [op|]; [|exact I].
  apply andb_prop in K as [K1 K2]. split; [apply operands_okb_ok, K1|lia].
Qed.
