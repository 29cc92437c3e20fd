(** C84-C85: the texts the library produces. *)
From Verif Require Import Base Arith ModelMap ModelU12 ModelChip8 ModelExamples ModelText SpecMap SpecText.
From Coq Require Import String Ascii.
Open Scope string_scope.
Open Scope Z_scope.

(** ** Digits *)
Lemma digit_range (P : Z -> Prop) : Forall P [0;1;2;3;4;5;6;7;8;9;10;11;12;13;14;15] -> forall d, 0 <= d < 16 -> P d.
Proof.
  intros F d Hd. rewrite Forall_forall in F. apply F. cbn [In]. lia.
Qed.
Lemma digit_char_value upper d : 0 <= d < 16 -> digit_value (digit_char upper d) = Some d.
Proof. revert d. apply digit_range. destruct upper; repeat constructor. Qed.
Lemma digit_char_zero upper d : 0 <= d < 16 -> digit_char upper d = "0"%char -> d = 0.
Proof. revert d. apply (digit_range (fun d => digit_char upper d = "0"%char -> d = 0)). destruct upper; repeat constructor; intros E; discriminate E. Qed.
Definition a_digit (c : ascii) : Prop := digit_value c <> None.
Lemma digit_char_case upper d : 0 <= d < 16 ->
  a_digit (digit_char upper d) /\ (if upper then ~ lower_letter (digit_char upper d) else ~ upper_letter (digit_char upper d)).
Proof.
  revert d. apply digit_range. destruct upper; repeat constructor; try (intros E; discriminate E);
    unfold lower_letter, upper_letter; vm_compute; intros [L1 L2]; lia.
Qed.

Lemma quotient_less base v k : 1 < base -> 0 <= v < base ^ (Z.of_nat (S k)) -> 0 <= v / base < base ^ (Z.of_nat k).
Proof.
  intros Hb Hv. rewrite Nat2Z.inj_succ, Z.pow_succ_r in Hv by lia. split; [apply Z.div_pos; lia|]. apply Z.div_lt_upper_bound; lia.
Qed.

Lemma number_loop upper base k : 1 < base <= 16 -> forall v acc, 0 <= v < base ^ (Z.of_nat k) -> (0 < k)%nat ->
  number_from base 0 (digits_loop k upper base v acc) = number_from base v acc.
Proof.
  intros Hb. induction k as [|k IH]; intros v acc Hv Hk; [lia|]. cbn [digits_loop]. cbv zeta.
  pose proof (Z.mod_pos_bound v base ltac:(lia)) as Hm. pose proof (Z.div_mod v base ltac:(lia)) as Hd.
  assert (Q := quotient_less base v k ltac:(lia) Hv).
  destruct (v / base =? 0) eqn:E.
  - apply Z.eqb_eq in E. cbn [number_from]. rewrite digit_char_value by lia. replace (v mod base <? base) with true by lia. f_equal. lia.
  - apply Z.eqb_neq in E. assert (Hk' : (0 < k)%nat) by (destruct k; [cbn in Q; lia|lia]).
    rewrite IH by assumption. cbn [number_from]. rewrite digit_char_value by lia.
    replace (v mod base <? base) with true by lia. f_equal. lia.
Qed.
Lemma loop_nonempty upper base k : (0 < k)%nat -> forall v acc, exists c s, digits_loop k upper base v acc = String c s.
Proof.
  induction k as [|k IH]; intros Hk v acc; [lia|]. cbn [digits_loop]. cbv zeta.
  destruct (v / base =? 0); [eauto|]. destruct k; [cbn [digits_loop]; eauto|]. apply IH. lia.
Qed.
Lemma loop_first upper base k : 1 < base <= 16 -> forall v acc, 0 < v < base ^ (Z.of_nat k) ->
  exists c s, digits_loop k upper base v acc = String c s /\ c <> "0"%char.
Proof.
  intros Hb. induction k as [|k IH]; intros v acc Hv; [cbn in Hv; lia|]. cbn [digits_loop]. cbv zeta.
  pose proof (Z.mod_pos_bound v base ltac:(lia)) as Hm. pose proof (Z.div_mod v base ltac:(lia)) as Hd.
  assert (Q := quotient_less base v k ltac:(lia) ltac:(lia)).
  destruct (v / base =? 0) eqn:E.
  - apply Z.eqb_eq in E. eexists _, _. split; [reflexivity|]. intros Z0. apply digit_char_zero in Z0; lia.
  - apply Z.eqb_neq in E. apply IH. lia.
Qed.
Lemma loop_every (P : ascii -> Prop) upper base k : 1 < base <= 16 -> (forall d, 0 <= d < 16 -> P (digit_char upper d)) ->
  forall v acc, every P acc -> every P (digits_loop k upper base v acc).
Proof.
  intros Hb HP. induction k as [|k IH]; intros v acc Ha; [exact Ha|]. cbn [digits_loop]. cbv zeta.
  pose proof (Z.mod_pos_bound v base ltac:(lia)) as Hm.
  assert (K : every P (String (digit_char upper (v mod base)) acc)) by (split; [apply HP; lia|exact Ha]).
  destruct (v / base =? 0); [exact K|apply IH, K].
Qed.
Lemma loop_length upper base k : 1 < base -> forall v acc n, 0 <= v < base ^ (Z.of_nat n) -> (0 < n)%nat ->
  (String.length (digits_loop k upper base v acc) <= n + String.length acc)%nat.
Proof.
  intros Hb. induction k as [|k IH]; intros v acc n Hv Hn; [cbn [digits_loop]; lia|]. cbn [digits_loop]. cbv zeta.
  destruct (v / base =? 0) eqn:E; [cbn [String.length]; lia|]. apply Z.eqb_neq in E.
  destruct n as [|n]; [lia|]. assert (Q := quotient_less base v n Hb Hv). assert (Hn' : (0 < n)%nat) by (destruct n; [cbn in Q; lia|lia]).
  specialize (IH (v / base) (String (digit_char upper (v mod base)) acc) n Q Hn'). cbn [String.length] in IH. lia.
Qed.

Lemma wide base v : 1 < base -> 0 <= v < 2 ^ 64 -> 0 <= v < base ^ (Z.of_nat 64).
Proof. intros Hb Hv. split; [lia|]. apply Z.lt_le_trans with (2 ^ 64); [lia|]. apply Z.pow_le_mono_l. lia. Qed.

Lemma digits_writes upper base v : 1 < base <= 16 -> 0 <= v < 2 ^ 64 -> writes_as base v (digits upper base v).
Proof.
  intros Hb Hv. unfold digits. assert (W := wide base v ltac:(lia) Hv). split.
  - unfold number. destruct (loop_nonempty upper base 64 ltac:(lia) v "") as (c & s & E). rewrite E, <- E.
    rewrite number_loop by (assumption || lia). reflexivity.
  - destruct (Z.eq_dec v 0) as [->|N]; [left|right; apply loop_first; [assumption|split; [lia|apply W]]].
    change 64%nat with (S 63). cbn [digits_loop]. cbv zeta. rewrite Z.mod_0_l, Z.div_0_l by lia. reflexivity.
Qed.
Lemma digits_every upper base v : 1 < base <= 16 -> every a_digit (digits upper base v).
Proof. intros Hb. apply loop_every; [exact Hb|intros d Hd; apply digit_char_case, Hd|exact I]. Qed.

Lemma writes_injective base v w s : writes_as base v s -> writes_as base w s -> v = w.
Proof. intros [E _] [E' _]. congruence. Qed.

(** A run of digits ends at the first character that is none. *)
Lemma digits_split s1 : forall s2 c1 c2 r1 r2, every a_digit s1 -> every a_digit s2 -> ~ a_digit c1 -> ~ a_digit c2 ->
  s1 ++ String c1 r1 = s2 ++ String c2 r2 -> s1 = s2 /\ c1 = c2 /\ r1 = r2.
Proof.
  induction s1 as [|d s1 IH]; intros [|d' s2] c1 c2 r1 r2 E1 E2 N1 N2 E; cbn [append] in E.
  - injection E as -> ->. auto.
  - injection E as -> _. cbn [every] in E2. tauto.
  - injection E as <- _. cbn [every] in E1. tauto.
  - injection E as <- E. cbn [every] in E1, E2. destruct (IH s2 c1 c2 r1 r2) as (-> & -> & ->); tauto.
Qed.
Lemma append_cancel_l p s1 : forall s2, p ++ s1 = p ++ s2 -> s1 = s2.
Proof. induction p as [|c p IH]; intros s2 E; cbn [append] in E; [exact E|]. injection E as E. apply IH, E. Qed.
Lemma decimal_injective v w : 0 <= v < 2 ^ 64 -> 0 <= w < 2 ^ 64 -> decimal v = decimal w -> v = w.
Proof.
  intros Hv Hw E. unfold decimal in E. apply (writes_injective 10 v w (digits false 10 v)); [apply digits_writes; lia|].
  rewrite E. apply digits_writes; lia.
Qed.
Lemma decimal_then v w c1 c2 r1 r2 : 0 <= v < 2 ^ 64 -> 0 <= w < 2 ^ 64 -> ~ a_digit c1 -> ~ a_digit c2 ->
  decimal v ++ String c1 r1 = decimal w ++ String c2 r2 -> v = w /\ c1 = c2 /\ r1 = r2.
Proof.
  intros Hv Hw N1 N2 E. apply digits_split in E; [|apply digits_every; lia|apply digits_every; lia|assumption|assumption].
  destruct E as (E & E'). split; [apply decimal_injective; assumption|exact E'].
Qed.

(** ** C84: numbers *)
Lemma pad_plain prefix s : pad_integral plain prefix s = s.
Proof. unfold pad_integral, plain. cbn [alternate zero_pad width Nat.sub copies append]. reflexivity. Qed.
Lemma append_assoc (a b c : string) : (a ++ b) ++ c = a ++ b ++ c.
Proof. induction a as [|x a IH]; cbn [append]; [reflexivity|]. rewrite IH. reflexivity. Qed.
Lemma length_append (a b : string) : String.length (a ++ b) = (String.length a + String.length b)%nat.
Proof. induction a as [|x a IH]; cbn [append String.length]; [reflexivity|]. rewrite IH. reflexivity. Qed.
Lemma length_copies n c : String.length (copies n c) = n.
Proof. induction n as [|n IH]; cbn [copies String.length]; [reflexivity|]. rewrite IH. reflexivity. Qed.
Lemma number_zeros base n s : 1 < base -> number_from base 0 (copies n "0" ++ s) = number_from base 0 s.
Proof.
  intros Hb. induction n as [|n IH]; cbn [copies append]; [reflexivity|]. cbn [number_from digit_value].
  replace (0 <? base) with true by lia. replace (0 * base + 0) with 0 by lia. exact IH.
Qed.
Lemma number_padded base n s v : 1 < base -> number base s = Some v -> number base (copies n "0" ++ s) = Some v.
Proof.
  intros Hb E. destruct s as [|c s]; [discriminate E|]. assert (Q := number_zeros base n (String c s) Hb).
  unfold number in *. destruct (copies n "0" ++ String c s) eqn:E0; [destruct n; discriminate E0|]. congruence.
Qed.

(** Without flags, each of the formats writes the number in its base. *)
Theorem C84_u12_texts : forall v, 0 <= v <= 0xFFF ->
  writes_as 10 v (u12_display plain v) /\ writes_as 10 v (u12_debug plain v) /\
  writes_as 16 v (u12_lower_hex plain v) /\ writes_as 16 v (u12_upper_hex plain v) /\
  writes_as 8 v (u12_octal plain v) /\ writes_as 2 v (u12_binary plain v).
Proof.
  intros v Hv. unfold u12_display, u12_debug, u12_lower_hex, u12_upper_hex, u12_octal, u12_binary. rewrite !pad_plain.
  repeat split; apply digits_writes; lia.
Qed.

(** Hexadecimal letters are of the requested case. *)
Theorem C84_letter_case : forall v,
  every (fun c => ~ upper_letter c) (u12_lower_hex plain v) /\ every (fun c => ~ lower_letter c) (u12_upper_hex plain v).
Proof.
  intros v. unfold u12_lower_hex, u12_upper_hex. rewrite !pad_plain. split.
  - apply (loop_every _ false); [lia| |exact I]. intros d Hd. apply (digit_char_case false d Hd).
  - apply (loop_every _ true); [lia| |exact I]. intros d Hd. apply (digit_char_case true d Hd).
Qed.

(** The texts are as long as 12 bits need at most. *)
Theorem C84_lengths : forall v, 0 <= v <= 0xFFF ->
  (String.length (u12_display plain v) <= 4)%nat /\ (String.length (u12_lower_hex plain v) <= 3)%nat /\
  (String.length (u12_upper_hex plain v) <= 3)%nat /\ (String.length (u12_octal plain v) <= 4)%nat /\
  (String.length (u12_binary plain v) <= 12)%nat.
Proof.
  intros v Hv. unfold u12_display, u12_lower_hex, u12_upper_hex, u12_octal, u12_binary. rewrite !pad_plain.
  unfold digits. refine (conj _ (conj _ (conj _ (conj _ _)))).
  - apply (loop_length false 10 64 ltac:(lia) v "" 4); lia.
  - apply (loop_length false 16 64 ltac:(lia) v "" 3); lia.
  - apply (loop_length true 16 64 ltac:(lia) v "" 3); lia.
  - apply (loop_length false 8 64 ltac:(lia) v "" 4); lia.
  - apply (loop_length false 2 64 ltac:(lia) v "" 12); lia.
Qed.

(** A width is a minimum: the text is as long as the longer of the two, and
    zero padding does not change the number. *)
Theorem C84_width : forall v alt zero w, 0 <= v <= 0xFFF ->
  let f := mkFlags alt zero w in let f0 := mkFlags alt false 0 in
  String.length (u12_display f v) = max w (String.length (u12_display f0 v)) /\
  String.length (u12_lower_hex f v) = max w (String.length (u12_lower_hex f0 v)) /\
  String.length (u12_upper_hex f v) = max w (String.length (u12_upper_hex f0 v)) /\
  String.length (u12_octal f v) = max w (String.length (u12_octal f0 v)) /\
  String.length (u12_binary f v) = max w (String.length (u12_binary f0 v)) /\
  String.length (u12_debug f v) = max w (String.length (u12_debug f0 v)).
Proof.
  intros v alt zero w Hv f f0.
  assert (K : forall prefix s, String.length (pad_integral f prefix s) = max w (String.length (pad_integral f0 prefix s))).
  { intros prefix s. unfold pad_integral, f, f0. cbn [alternate zero_pad width Nat.sub copies append].
    destruct zero; rewrite !length_append, length_copies; lia. }
  unfold u12_display, u12_debug, u12_lower_hex, u12_upper_hex, u12_octal, u12_binary. repeat split; apply K.
Qed.
Theorem C84_zero_padding : forall v w, 0 <= v <= 0xFFF ->
  let f := mkFlags false true w in
  number 10 (u12_display f v) = Some v /\ number 16 (u12_lower_hex f v) = Some v /\
  number 16 (u12_upper_hex f v) = Some v /\ number 8 (u12_octal f v) = Some v /\ number 2 (u12_binary f v) = Some v.
Proof.
  intros v w Hv f. unfold u12_display, u12_lower_hex, u12_upper_hex, u12_octal, u12_binary, pad_integral, f.
  cbn [alternate zero_pad append]. repeat split; apply number_padded; try lia; apply digits_writes; lia.
Qed.
Theorem C84_alternate : forall v, 0 <= v <= 0xFFF ->
  let f := mkFlags true false 0 in
  u12_lower_hex f v = "0x" ++ u12_lower_hex plain v /\ u12_upper_hex f v = "0x" ++ u12_upper_hex plain v /\
  u12_octal f v = "0o" ++ u12_octal plain v /\ u12_binary f v = "0b" ++ u12_binary plain v /\
  u12_display f v = u12_display plain v.
Proof. intros v Hv f. repeat split; reflexivity. Qed.

(** With a prefix the zeros stand between it and the digits. *)
Theorem C84_zero_padding_prefix : forall v w, 0 <= v <= 0xFFF ->
  let f := mkFlags true true w in
  (exists s, u12_lower_hex f v = "0x" ++ s /\ number 16 s = Some v) /\ (exists s, u12_upper_hex f v = "0x" ++ s /\ number 16 s = Some v) /\
  (exists s, u12_octal f v = "0o" ++ s /\ number 8 s = Some v) /\ (exists s, u12_binary f v = "0b" ++ s /\ number 2 s = Some v) /\
  number 10 (u12_display f v) = Some v /\ number 10 (u12_debug f v) = Some v.
Proof.
  intros v w Hv f. unfold u12_display, u12_debug, u12_lower_hex, u12_upper_hex, u12_octal, u12_binary, pad_integral, f.
  cbn [alternate zero_pad]. repeat split; try (eexists; split; [reflexivity|]); try change ("" ++ ?s) with s; apply number_padded; try lia; apply digits_writes; lia.
Qed.
(** Without zero padding there are blanks in front, and nothing else changes. *)
Theorem C84_blank_padding : forall v alt w,
  let f := mkFlags alt false w in let f0 := mkFlags alt false 0 in
  let pads (s s0 : string) := exists b, s = b ++ s0 /\ every (fun c => c = " "%char) b in
  pads (u12_display f v) (u12_display f0 v) /\ pads (u12_debug f v) (u12_debug f0 v) /\
  pads (u12_lower_hex f v) (u12_lower_hex f0 v) /\ pads (u12_upper_hex f v) (u12_upper_hex f0 v) /\
  pads (u12_octal f v) (u12_octal f0 v) /\ pads (u12_binary f v) (u12_binary f0 v).
Proof.
  intros v alt w f f0 pads.
  assert (K : forall prefix s, pads (pad_integral f prefix s) (pad_integral f0 prefix s)).
  { intros prefix s. unfold pads, pad_integral, f, f0. cbn [alternate zero_pad width Nat.sub copies append].
    eexists. split; [reflexivity|]. induction (w - _)%nat as [|n IH]; cbn [copies every]; [exact I|split; [reflexivity|exact IH]]. }
  unfold u12_display, u12_debug, u12_lower_hex, u12_upper_hex, u12_octal, u12_binary. repeat split; apply K.
Qed.

(** Different numbers have different texts. *)
Theorem C84_texts_differ : forall v w, 0 <= v <= 0xFFF -> 0 <= w <= 0xFFF ->
  (u12_display plain v = u12_display plain w \/ u12_lower_hex plain v = u12_lower_hex plain w \/
   u12_upper_hex plain v = u12_upper_hex plain w \/ u12_octal plain v = u12_octal plain w \/
   u12_binary plain v = u12_binary plain w) -> v = w.
Proof.
  intros v w Hv Hw E. destruct (C84_u12_texts v Hv) as (V1 & _ & V2 & V3 & V4 & V5). destruct (C84_u12_texts w Hw) as (W1 & _ & W2 & W3 & W4 & W5).
  destruct E as [E|[E|[E|[E|E]]]].
  - rewrite <- E in W1. exact (writes_injective _ _ _ _ V1 W1).
  - rewrite <- E in W2. exact (writes_injective _ _ _ _ V2 W2).
  - rewrite <- E in W3. exact (writes_injective _ _ _ _ V3 W3).
  - rewrite <- E in W4. exact (writes_injective _ _ _ _ V4 W4).
  - rewrite <- E in W5. exact (writes_injective _ _ _ _ V5 W5).
Qed.

(** The example peripheral prints a byte as eight binary digits and a line end. *)
Theorem C84_port_line : forall v, u8 v -> exists s, port_line v = s ++ String (ascii_of_nat 10) "" /\
  String.length s = 8%nat /\ number 2 s = Some v /\ every (fun c => c = "0"%char \/ c = "1"%char) s.
Proof.
  intros v Hv. unfold u8 in Hv. unfold port_line. eexists. split; [reflexivity|]. unfold pad_integral. cbn [alternate zero_pad width append].
  change (String.length "") with 0%nat.
  assert (L : (String.length (digits false 2 v) <= 8)%nat) by (apply (loop_length false 2 64 ltac:(lia) v "" 8); lia).
  split; [rewrite length_append, length_copies; cbn [Nat.add]; lia|]. split; [apply number_padded; [lia|]; apply digits_writes; lia|].
  assert (Dv : every (fun c => c = "0"%char \/ c = "1"%char) (digits false 2 v)).
  { unfold digits. assert (K : forall k v acc, every (fun c => c = "0"%char \/ c = "1"%char) acc ->
      every (fun c => c = "0"%char \/ c = "1"%char) (digits_loop k false 2 v acc)).
    { induction k as [|k IH]; intros u acc Ha; [exact Ha|]. cbn [digits_loop]. cbv zeta.
      assert (Hd : every (fun c => c = "0"%char \/ c = "1"%char) (String (digit_char false (u mod 2)) acc)).
      { split; [|exact Ha]. assert (C : u mod 2 = 0 \/ u mod 2 = 1) by lia. destruct C as [->| ->]; [left|right]; reflexivity. }
      destruct (u / 2 =? 0); [exact Hd|apply IH, Hd]. }
    apply K. exact I. }
  generalize (8 - (0 + String.length (digits false 2 v)))%nat as n.
  induction n as [|n IH]; cbn [copies append]; [exact Dv|]. split; [left; reflexivity|exact IH].
Qed.

Example C84_case : u12_display plain 0xabc = "2748" /\ u12_lower_hex plain 0xabc = "abc" /\ u12_upper_hex plain 0xabc = "ABC" /\
  u12_octal plain 0xabc = "5274" /\ u12_binary plain 0xabc = "101010111100" /\ u12_lower_hex (mkFlags true true 8) 0xabc = "0x000abc" /\
  u12_display (mkFlags false false 6) 0xabc = "  2748" /\ u12_display plain 0 = "0" /\
  port_line 0x55 = "01010101" ++ String (ascii_of_nat 10) "".
Proof. repeat split; vm_compute; reflexivity. Qed.

(** ** C85: messages *)
(** A device whose writes fail exactly when there is a message. *)
Class Speaks (D : Type) `{Device D} `{Messages D} : Prop := {
  speaks : forall p (d : D) a v,
    match dev_write p d a v, write_message p d a v with
    | Panic, Panic => True
    | Ok (_, WOk _), Ok None => True
    | Ok (_, WErr), Ok (Some _) => True
    | _, _ => False
    end
}.
#[export] Instance memory_speaks : Speaks memory.
Proof.
  constructor. intros p d a v. cbn [dev_write memory_device write_message memory_messages]. unfold memory_write.
  destruct (mem_kind d); [|exact I]. destruct (sub_u16 p a (start_address d)) as [o|]; cbn [bind]; [|exact I].
  destruct (vec_set (mem_inner d) o v); exact I.
Qed.
#[export] Instance via_speaks : Speaks via.
Proof.
  constructor. intros p d a v. cbn [dev_write via_device write_message via_messages]. unfold via_write.
  destruct (a =? port_a_addr d); [exact I|]. destruct (a =? port_b_addr d); [exact I|].
  destruct ((port_a_mask d <=? a) && (a <=? port_b_mask d)); exact I.
Qed.
#[export] Instance any_speaks : Speaks any_device.
Proof.
  constructor. intros p d a v. cbn [dev_write any_device_device write_message any_messages]. destruct d as [m|d].
  - assert (S1 := speaks p m a v). cbn [dev_write memory_device write_message memory_messages] in S1.
    destruct (memory_write p m a v) as [[m' [x|]]|]; cbn [bind]; exact S1.
  - assert (S1 := speaks p d a v). cbn [dev_write via_device write_message via_messages] in S1.
    destruct (via_write p d a v) as [[m' [x|]]|]; cbn [bind]; exact S1.
Qed.
#[export] Instance am_speaks {D} `{Speaks D} : Speaks (address_map D).
Proof.
  constructor. intros p m a v. cbn [dev_write am_device write_message am_messages].
  induction m as [|e m IH]; cbn [am_write am_write_message]; [exact I|]. destruct (key_contains e a).
  - assert (S1 := speaks p (device e) a v). destruct (dev_write p (device e) a v) as [[d' [x|]]|]; cbn [bind]; exact S1.
  - destruct (am_write p m a v) as [[m' [x|]]|]; cbn [bind]; exact IH.
Qed.

(** A write through an address map fails exactly when it gives a message, for
    maps of memories and of the example peripheral, nested to any depth. *)
Theorem C85_error_has_message : forall D (dev : Device D) (msg : Messages D), Speaks D ->
  forall p (m : address_map D) a v,
  ((exists m', am_write p m a v = Ok (m', WErr)) <-> (exists s, am_write_message p m a v = Ok (Some s))) /\
  ((exists m' x, am_write p m a v = Ok (m', WOk x)) <-> am_write_message p m a v = Ok None).
Proof.
  intros D dev msg Sp p m a v. assert (S1 := @speaks _ _ _ (@am_speaks D dev msg Sp) p m a v). cbn [dev_write am_device write_message am_messages] in S1.
  destruct (am_write p m a v) as [[m' [x|]]|]; destruct (am_write_message p m a v) as [[s|]|]; try contradiction;
    split; split; try (intros (? & ? & E); discriminate E); try (intros (? & E); discriminate E); try (intros E; discriminate E); eauto.
Qed.

(** A write nobody is registered for names the address. *)
Theorem C85_unallocated_names_address : forall D (msg : Messages D) p (m : address_map D) a v, u16 a -> unmapped m a ->
  exists s, am_write_message p m a v = Ok (Some ("address space " ++ s ++ " unallocated")) /\ writes_as 10 a s.
Proof.
  intros D msg p m a v Ha Hm. exists (decimal a). split; [|apply digits_writes; unfold u16 in Ha; lia].
  induction m as [|e m IH]; cbn [am_write_message]; [reflexivity|].
  assert (N : key_contains e a = false).
  { assert (N := Hm e (or_introl eq_refl)). unfold covers in N. unfold key_contains. lia. }
  rewrite N. apply IH. intros e' He'. apply Hm. right. exact He'.
Qed.
(** Writes to different unallocated addresses are told apart by their messages. *)
Theorem C85_unallocated_messages_differ : forall D (msg : Messages D) p (m m' : address_map D) a b v w, u16 a -> u16 b ->
  unmapped m a -> unmapped m' b -> am_write_message p m a v = am_write_message p m' b w -> a = b.
Proof.
  intros D msg p m m' a b v w Ha Hb Ma Mb E.
  destruct (C85_unallocated_names_address D msg p m a v Ha Ma) as (s & E1 & W1).
  destruct (C85_unallocated_names_address D msg p m' b w Hb Mb) as (s' & E2 & W2). rewrite E1, E2 in E.
  assert (Q : "address space " ++ s ++ " unallocated" = "address space " ++ s' ++ " unallocated") by congruence.
  apply append_cancel_l in Q. assert (L : forall t, (forall x, number 10 t = Some x -> every a_digit t)).
  { intros t x. unfold number. destruct t as [|c t]; [discriminate|]. generalize 0 as acc.
    assert (G : forall u acc y, number_from 10 acc u = Some y -> every a_digit u).
    { induction u as [|d u IH]; intros acc y Ey; [exact I|]. cbn [number_from] in Ey.
      destruct (digit_value d) eqn:Ed; [|discriminate]. destruct (z <? 10); [|discriminate]. split; [unfold a_digit; congruence|eapply IH, Ey]. }
    intros acc Ey. eapply G, Ey. }
  apply digits_split in Q; [|eapply L, W1|eapply L, W2|intros N; apply N; reflexivity|intros N; apply N; reflexivity].
  destruct Q as [<- _]. eapply writes_injective; eassumption.
Qed.

(** A refused registration names the new range and a registered range that
    covers one of its ends. *)
Lemma range_writes lo hi : u16 lo -> u16 hi -> writes_range lo hi (range_debug lo hi).
Proof. unfold u16. intros H1 H2. exists (decimal lo), (decimal hi). split; [apply digits_writes; lia|]. split; [apply digits_writes; lia|reflexivity]. Qed.
Definition addresses {D} (m : address_map D) : Prop := Forall (fun e => u16 (range_lo e) /\ u16 (range_hi e)) m.
Lemma register_message D (m : address_map D) lo hi text : am_register_message m lo hi = Some text ->
  exists e, In e m /\ (covers e lo \/ covers e hi) /\
     text = "address space " ++ range_debug lo hi ++ " overlaps with " ++ range_debug (range_lo e) (range_hi e).
Proof.
  induction m as [|e m IH]; cbn [am_register_message]; [discriminate|].
  destruct (key_contains e lo || key_contains e hi) eqn:E.
  - intros Q. exists e. split; [left; reflexivity|]. split; [unfold key_contains in E; unfold covers; lia|congruence].
  - intros Q. destruct (IH Q) as (e' & I' & K). exists e'. split; [right; exact I'|exact K].
Qed.
Theorem C85_register_message : forall D (m : address_map D) lo hi d, addresses m -> u16 lo -> u16 hi ->
  (am_register m lo hi d = None <-> am_register_message m lo hi <> None) /\
  (forall text, am_register_message m lo hi = Some text -> exists e s s', In e m /\ (covers e lo \/ covers e hi) /\
     writes_range lo hi s /\ writes_range (range_lo e) (range_hi e) s' /\
     text = "address space " ++ s ++ " overlaps with " ++ s').
Proof.
  intros D m lo hi d Hm Hl Hh. split.
  - unfold am_register. clear Hm. destruct (existsb (fun e => key_contains e lo || key_contains e hi) m) eqn:E; split; try congruence.
    + intros _. clear d. induction m as [|e m IH]; [discriminate E|]. cbn [existsb] in E. cbn [am_register_message].
      destruct (key_contains e lo || key_contains e hi); [discriminate|]. apply IH, E.
    + intros N. exfalso. apply N. clear N d. induction m as [|e m IH]; [reflexivity|]. cbn [existsb] in E. cbn [am_register_message].
      destruct (key_contains e lo || key_contains e hi); [discriminate E|]. apply IH, E.
  - intros text Q. destruct (register_message D m lo hi text Q) as (e & He & K & ->).
    unfold addresses in Hm. rewrite Forall_forall in Hm. destruct (Hm e He) as [H1 H2].
    exists e, (range_debug lo hi), (range_debug (range_lo e) (range_hi e)). split; [exact He|]. split; [exact K|].
    split; [apply range_writes; assumption|]. split; [apply range_writes; assumption|reflexivity].
Qed.

Lemma range_then lo hi lo' hi' r r' c c' : u16 lo -> u16 hi -> u16 lo' -> u16 hi' -> ~ a_digit c -> ~ a_digit c' ->
  range_debug lo hi ++ String c r = range_debug lo' hi' ++ String c' r' -> lo = lo' /\ hi = hi' /\ c = c' /\ r = r'.
Proof.
  unfold u16, range_debug. intros H1 H2 H3 H4 N N' E. rewrite !append_assoc in E. cbn [append] in E.
  apply decimal_then in E; [|lia|lia|intros Q; apply Q; reflexivity|intros Q; apply Q; reflexivity].
  destruct E as (-> & _ & E). injection E as E. apply decimal_then in E; [|lia|lia|assumption|assumption]. tauto.
Qed.

(** The message tells which two ranges it is about. *)
Theorem C85_register_messages_differ : forall D D' (m : address_map D) (m' : address_map D') lo hi lo' hi' text,
  addresses m -> addresses m' -> u16 lo -> u16 hi -> u16 lo' -> u16 hi' ->
  am_register_message m lo hi = Some text -> am_register_message m' lo' hi' = Some text ->
  lo = lo' /\ hi = hi' /\ exists e e', In e m /\ (covers e lo \/ covers e hi) /\ In e' m' /\ (covers e' lo \/ covers e' hi) /\
    range_lo e = range_lo e' /\ range_hi e = range_hi e'.
Proof.
  intros D D' m m' lo hi lo' hi' text Hm Hm' H1 H2 H3 H4 Q Q'.
  destruct (register_message D m lo hi text Q) as (e & He & K & T). destruct (register_message D' m' lo' hi' text Q') as (e' & He' & K' & T').
  unfold addresses in Hm, Hm'. rewrite Forall_forall in Hm, Hm'. destruct (Hm e He) as [H5 H6]. destruct (Hm' e' He') as [H7 H8]. rewrite T in T'. rename T' into E.
  apply append_cancel_l in E.
  change (range_debug lo hi ++ String " " ("overlaps with " ++ range_debug (range_lo e) (range_hi e)) = range_debug lo' hi' ++ String " " ("overlaps with " ++ range_debug (range_lo e') (range_hi e'))) in E.
  apply range_then in E; try assumption; try (intros X; apply X; reflexivity).
  destruct E as (-> & -> & _ & E). apply append_cancel_l in E.
  assert (E' : range_debug (range_lo e) (range_hi e) ++ String "." "" = range_debug (range_lo e') (range_hi e') ++ String "." "") by (rewrite E; reflexivity).
  apply range_then in E'; try assumption; try (intros X; apply X; reflexivity).
  split; [reflexivity|]. split; [reflexivity|]. exists e, e'. tauto.
Qed.

(** The debug text of an address map tells which ranges are registered. *)
Lemma comma_then (l : list (Z * Z)) : forall l',
  Forall (fun r => u16 (fst r) /\ u16 (snd r)) l -> Forall (fun r => u16 (fst r) /\ u16 (snd r)) l' ->
  comma_list (map (fun r => range_debug (fst r) (snd r)) l) ++ "]" = comma_list (map (fun r => range_debug (fst r) (snd r)) l') ++ "]" -> l = l'.
Proof.
  assert (N1 : ~ a_digit ","%char) by (intros Q; apply Q; reflexivity).
  assert (N2 : ~ a_digit "]"%char) by (intros Q; apply Q; reflexivity).
  assert (Step : forall (r : Z * Z) l, exists c s, ~ a_digit c /\ (l = [] -> c = "]"%char /\ s = "") /\ (l <> [] -> c = ","%char /\
     s = String " " (comma_list (map (fun r => range_debug (fst r) (snd r)) l) ++ "]")) /\
     comma_list (map (fun r => range_debug (fst r) (snd r)) (r :: l)) ++ "]" = range_debug (fst r) (snd r) ++ String c s).
  { intros r [|q m].
    - exists "]"%char, "". split; [exact N2|]. split; [auto|]. split; [congruence|reflexivity].
    - exists ","%char, (String " " (comma_list (map (fun r => range_debug (fst r) (snd r)) (q :: m)) ++ "]")).
      split; [exact N1|]. split; [discriminate|]. split; [auto|].
      change (comma_list (map (fun r => range_debug (fst r) (snd r)) (r :: q :: m))) with
        (range_debug (fst r) (snd r) ++ ", " ++ comma_list (map (fun r => range_debug (fst r) (snd r)) (q :: m))).
      rewrite !append_assoc. reflexivity. }
  assert (First : forall (r : Z * Z) t, u16 (fst r) -> range_debug (fst r) (snd r) ++ t <> "]").
  { intros r t Hr E. unfold range_debug in E. rewrite append_assoc in E. unfold u16 in Hr.
    assert (W := digits_every false 10 (fst r) ltac:(lia)). assert (Wn := digits_writes false 10 (fst r) ltac:(lia) ltac:(lia)).
    unfold decimal in E. destruct (digits false 10 (fst r)) as [|c s]; [destruct Wn as [Wn _]; discriminate Wn|].
    cbn [append] in E. injection E as -> _. destruct W as [W _]. contradiction. }
  induction l as [|r l IH]; intros [|r' l'] F F' E; [reflexivity| | |].
  - exfalso. destruct (Step r' l') as (c & s & _ & _ & _ & Q). rewrite Q in E. apply Forall_cons_iff in F' as [[H _] _].
    apply (First r' (String c s) H). symmetry. exact E.
  - exfalso. destruct (Step r l) as (c & s & _ & _ & _ & Q). rewrite Q in E. apply Forall_cons_iff in F as [[H _] _].
    apply (First r (String c s) H). exact E.
  - destruct (Step r l) as (c & s & Nc & B1 & B2 & Q). destruct (Step r' l') as (c' & s' & Nc' & B1' & B2' & Q'). rewrite Q, Q' in E.
    apply Forall_cons_iff in F as [[H1 H2] F]. apply Forall_cons_iff in F' as [[H1' H2'] F'].
    apply range_then in E; try assumption. destruct E as (E1 & E2 & Ec & Es).
    assert (r = r') by (destruct r, r'; cbn [fst snd] in *; congruence). subst r'. f_equal.
    destruct l as [|q l]; destruct l' as [|q' l'].
    + reflexivity.
    + destruct (B1 eq_refl) as [-> _]. destruct (B2' ltac:(discriminate)) as [-> _]. discriminate Ec.
    + destruct (B2 ltac:(discriminate)) as [-> _]. destruct (B1' eq_refl) as [-> _]. discriminate Ec.
    + apply IH; [assumption|assumption|]. destruct (B2 ltac:(discriminate)) as [_ ->]. destruct (B2' ltac:(discriminate)) as [_ ->].
      injection Es as Es. exact Es.
Qed.
Theorem C85_debug_names_ranges : forall D D' (m : address_map D) (m' : address_map D'),
  Forall (fun e => u16 (range_lo e) /\ u16 (range_hi e)) m -> Forall (fun e => u16 (range_lo e) /\ u16 (range_hi e)) m' ->
  am_debug m = am_debug m' -> layout m = layout m'.
Proof.
  intros D D' m m' F F' E. unfold am_debug in E. apply append_cancel_l in E.
  apply comma_then.
  - unfold layout. apply Forall_map. exact F.
  - unfold layout. apply Forall_map. exact F'.
  - unfold layout. rewrite !map_map. exact E.
Qed.

(** It is the list of the ranges, in the order of the map. *)
Theorem C85_debug_lists_ranges : forall D (m : address_map D), addresses m ->
  exists s, am_debug m = "AddressMap [" ++ s ++ "]" /\ writes_ranges (layout m) s.
Proof.
  intros D m Hm. eexists. split; [reflexivity|]. unfold layout. induction Hm as [|e m [H1 H2] Hm IH]; [reflexivity|].
  destruct m as [|e' m]; [apply range_writes; assumption|].
  exists (range_debug (range_lo e) (range_hi e)), (comma_list (map (fun e => range_debug (range_lo e) (range_hi e)) (e' :: m))).
  split; [apply range_writes; assumption|]. split; [exact IH|reflexivity].
Qed.

(** A CHIP-8 ring buffer that refuses a write names the offset as it was
    given, before wrapping; read-only memory says that it is read-only. *)
Theorem C85_ring_message : forall r offset v, 0 <= offset < 2 ^ 64 ->
  ((exists r', ring_write r offset v = Ok (r', WErr)) <-> ring_write_message r offset <> Panic /\ ring_write_message r offset <> Ok None) /\
  (forall text, ring_write_message r offset = Ok (Some text) -> exists s, text = "invalid addr: " ++ s /\ writes_as 10 offset s).
Proof.
  intros r offset v Ho. unfold ring_write, ring_write_message. destruct (ring_offset r offset) as [o|]; cbn [bind].
  - destruct (o <? Z.of_nat (List.length (ring_inner r))).
    + split; [split; [intros (r' & E); discriminate E|intros [_ N]; congruence]|discriminate].
    + split; [split; [intros _; split; discriminate|intros _; eauto]|]. intros text E. exists (decimal offset).
      split; [congruence|]. apply digits_writes; lia.
  - split; [split; [intros (r' & E); discriminate E|intros [N _]; congruence]|discriminate].
Qed.
Theorem C85_rom_message : forall p m a v, mem_kind m = ReadOnly -> write_message p m a v = Ok (Some "memory is read-only").
Proof. intros p m a v E. cbn [write_message memory_messages]. rewrite E. reflexivity. Qed.

(** Bytes that are no opcode are named, in decimal by the 6502 and as a
    hexadecimal word by the CHIP-8. *)
Theorem C85_decode_messages : forall b0 b1, u8 b0 -> u8 b1 ->
  (exists s, no_opcode_message b0 = "No match found for " ++ s /\ writes_as 10 b0 s) /\
  (exists s, no_instruction_message b0 b1 = "No match found for 0x" ++ s /\ writes_as 16 (256 * b0 + b1) s).
Proof.
  unfold u8. intros b0 b1 H0 H1. split.
  - exists (decimal b0). split; [reflexivity|]. apply digits_writes; lia.
  - exists (digits false 16 (256 * b0 + b1)). assert (W := digits_writes false 16 (256 * b0 + b1) ltac:(lia) ltac:(lia)). split; [|exact W].
    unfold no_instruction_message, pad_integral. cbn [alternate zero_pad width]. change (String.length "0x") with 2%nat. cbn [Nat.add Nat.sub copies append]. reflexivity.
Qed.

Print Assumptions C84_u12_texts.
Print Assumptions C84_letter_case.
Print Assumptions C84_lengths.
Print Assumptions C84_width.
Print Assumptions C84_zero_padding.
Print Assumptions C84_zero_padding_prefix.
Print Assumptions C84_blank_padding.
Print Assumptions C84_alternate.
Print Assumptions C84_texts_differ.
Print Assumptions C84_port_line.
Print Assumptions C85_error_has_message.
Print Assumptions C85_unallocated_names_address.
Print Assumptions C85_unallocated_messages_differ.
Print Assumptions C85_register_message.
Print Assumptions C85_register_messages_differ.
Print Assumptions C85_debug_names_ranges.
Print Assumptions C85_debug_lists_ranges.
Print Assumptions C85_ring_message.
Print Assumptions C85_rom_message.
Print Assumptions C85_decode_messages.

Definition text_map : address_map memory :=
  [mkEntry 0 1023 (mkMemory ReadWrite 0 1023 (repeat 0 1024)); mkEntry 0x8000 0x8001 (mkMemory ReadOnly 0x8000 0x8001 [1; 2])].
Example C85_ring_case : ring_write_message (mkRing 4 [0; 0]) 7 = Ok (Some "invalid addr: 7") /\ ring_write_message (mkRing 4 [0; 0]) 5 = Ok None.
Proof. split; vm_compute; reflexivity. Qed.
Example C85_case :
  am_debug text_map = "AddressMap [0..=1023, 32768..=32769]" /\
  am_write_message Debug text_map 0x4000 1 = Ok (Some "address space 16384 unallocated") /\
  am_write_message Debug text_map 0x8000 1 = Ok (Some "memory is read-only") /\ am_write_message Debug text_map 5 1 = Ok None /\
  am_register_message text_map 1000 2000 = Some "address space 1000..=2000 overlaps with 0..=1023" /\
  am_register_message text_map 1024 2000 = None /\
  no_instruction_message 0x80 0x09 = "No match found for 0x8009" /\ no_opcode_message 2 = "No match found for 2" /\
  unmapped text_map 0x4000 /\ Forall (fun e => u16 (range_lo e) /\ u16 (range_hi e)) text_map.
Proof.
  repeat split; try (vm_compute; reflexivity).
  - intros e [<-|[<-|[]]]; unfold covers; cbn; lia.
  - repeat constructor; cbn; lia.
Qed.
