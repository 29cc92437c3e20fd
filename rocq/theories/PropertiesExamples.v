(** Properties C63 and C64: a device written by a user, on the bus
    (examples/custom_peripheral_addr_space.rs) and behind a microcode filter
    (examples/custom_peripheral_microcode_hook.rs). *)
From Verif Require Import Base Arith ModelMap ModelStep ModelRegs6502 ModelCpu6502 ModelOperand
  ModelIsa6502 ModelRun6502 ModelTrace ModelExamples SpecMap ProofMap Link6502 ProofRun6502 ProofReplay.

(** ** Vocabulary *)
(** A list of (address, value) writes; the values written to one address. *)
Definition written_to (a : Z) (l : list (Z * Z)) : list Z :=
  flat_map (fun w => if fst w =? a then [snd w] else []) l.

(** Issue writes to a device one after the other, none of which is refused. *)
Fixpoint write_all {D} `{Device D} (p : profile) (d : D) (l : list (Z * Z)) : option D :=
  match l with
  | [] => Some d
  | (a, v) :: l' =>
      match dev_write p d a v with
      | Ok (d', WOk w) => if w =? v then write_all p d' l' else None
      | _ => None
      end
  end.

(** 0x55, 0xaa, 0x55, ...: the first [n] bytes of the blinking pattern. *)
Fixpoint blinking (n : nat) : list Z :=
  match n with
  | O => []
  | S n' => blinking n' ++ [if Nat.even n' then 0x55 else 0xaa]
  end.

(** ** C63 The device *)
Lemma via_history p : forall l v, port_b_addr v = port_a_addr v + 1 -> port_a_mask v = port_a_addr v + 2 ->
  port_b_mask v = port_a_addr v + 3 ->
  Forall (fun w => port_a_addr v <= fst w <= port_a_addr v + 3) l ->
  write_all p v l = Some
    (mkVia (port_a_addr v) (port_b_addr v) (port_a_mask v) (port_b_mask v)
       (last (written_to (port_a_addr v) l) (port_a v)) (last (written_to (port_b_addr v) l) (port_b v))
       (printed v ++ written_to (port_a_addr v) l)).
Proof.
  assert (Hl : forall (x : Z) l d, last (x :: l) d = last l x).
  { intros x l. revert x. induction l as [|y l IH]; intros x d; [reflexivity|].
    change (last (x :: y :: l) d) with (last (y :: l) d). rewrite IH. symmetry. apply IH. }
  induction l as [|[a x] l IH]; intros v H1 H2 H3 Hf.
  - cbn. rewrite app_nil_r. destruct v; reflexivity.
  - apply Forall_cons_iff in Hf as [Ha Hf]. cbn [fst] in Ha. cbn [write_all dev_write via_device].
    unfold via_write. cbn [written_to flat_map fst snd].
    fold (written_to (port_a_addr v) l). fold (written_to (port_b_addr v) l).
    destruct (a =? port_a_addr v) eqn:Ea.
    + rewrite Z.eqb_refl, IH by assumption. cbn [port_a_addr port_b_addr port_a_mask port_b_mask port_a port_b printed].
      replace (a =? port_b_addr v) with false by lia. cbn [app].
      rewrite Hl, <- app_assoc. reflexivity.
    + destruct (a =? port_b_addr v) eqn:Eb.
      * rewrite Z.eqb_refl, IH by assumption. cbn [port_a_addr port_b_addr port_a_mask port_b_mask port_a port_b printed].
        cbn [app]. rewrite Hl. reflexivity.
      * replace ((port_a_mask v <=? a) && (a <=? port_b_mask v)) with true by lia.
        rewrite Z.eqb_refl, IH by assumption. reflexivity.
Qed.

Lemma via_new_ok p base : u16 base -> base <= 0xfffc ->
  via_new p base = Ok (mkVia base (base + 1) (base + 2) (base + 3) 0 0 []).
Proof.
  unfold u16. intros Hb Hc. unfold via_new, add_u16, checked.
  replace ((0 <=? base + 1) && (base + 1 <? 65536)) with true by lia.
  replace ((0 <=? base + 2) && (base + 2 <? 65536)) with true by lia.
  replace ((0 <=? base + 3) && (base + 3 <? 65536)) with true by lia. reflexivity.
Qed.

(** Whatever is written to the four addresses of a VIA, no write is refused,
    each port holds the last value written to it and exactly the values
    written to port A were printed, in order. *)
Theorem C63_ports_follow_writes : forall p base v l, u16 base -> via_new p base = Ok v -> base <= 0xfffc ->
  Forall (fun w => base <= fst w <= base + 3) l ->
  exists v', write_all p v l = Some v' /\
    port_a v' = last (written_to base l) 0 /\
    port_b v' = last (written_to (base + 1) l) 0 /\
    printed v' = written_to base l.
Proof.
  intros p base v l Hu Hn Hb Hf. rewrite (via_new_ok p base Hu Hb) in Hn. injection Hn as <-.
  eexists. split; [apply via_history; cbn [port_a_addr port_b_addr port_a_mask port_b_mask]; auto|].
  cbn [port_a_addr port_b_addr port_a_mask port_b_mask port_a port_b printed app]. auto.
Qed.

(** Every other address is refused and nothing changes. *)
Theorem C63_other_addresses_refused : forall p base v a x, u16 base -> via_new p base = Ok v -> base <= 0xfffc ->
  ~ (base <= a <= base + 3) -> dev_write p v a x = Ok (v, WErr).
Proof.
  intros p base v a x Hu Hn Hb Ha. rewrite (via_new_ok p base Hu Hb) in Hn. injection Hn as <-.
  cbn [dev_write via_device]. unfold via_write. cbn [port_a_addr port_b_addr port_a_mask port_b_mask].
  replace (a =? base) with false by lia. replace (a =? base + 1) with false by lia.
  replace ((base + 2 <=? a) && (a <=? base + 3)) with false by lia. reflexivity.
Qed.

(** A VIA can be made at every base address whose four addresses exist; above
    that a debug build panics. *)
Theorem C63_new : forall p base, u16 base ->
  (base <= 0xfffc -> via_new p base = Ok (mkVia base (base + 1) (base + 2) (base + 3) 0 0 [])) /\
  (0xfffc < base -> via_new Debug base = Panic).
Proof.
  intros p base Hb. split; [exact (via_new_ok p base Hb)|]. unfold u16 in Hb. intros Hc.
  unfold via_new, add_u16, checked.
  replace ((0 <=? base + 3) && (base + 3 <? 65536)) with false by lia.
  destruct ((0 <=? base + 1) && _); cbn [bind]; [|reflexivity].
  destruct ((0 <=? base + 2) && _); reflexivity.
Qed.

(** Example: an interleaving of writes to both ports and a mask. *)
Example C63_ports_case :
  (do! v <- via_new Debug 0x8000 ;
   match write_all Debug v [(0x8002, 0xff); (0x8000, 1); (0x8001, 7); (0x8000, 2)] with
   | Some v' => Ok (port_a v', port_b v', printed v') | None => Panic end) = Ok (2, 7, [1; 2]).
Proof. reflexivity. Qed.

(** ** Pulling cycles *)
Section Pull.
Context {D : Type} `{Device D}.

Lemma drain_skip p : forall (c1 : list (list microcode)) n it,
  drain p (length c1 + n) c1 it = drain p n [] it.
Proof. induction c1 as [|c c1 IH]; intros n it; [reflexivity|]. exact (IH n it). Qed.

Lemma drain_within p : forall (c1 : list (list microcode)) n it, (n <= length c1)%nat -> drain p n c1 it = Ok it.
Proof.
  induction c1 as [|c c1 IH]; intros [|n] it Hn; try reflexivity; [cbn in Hn; lia|].
  cbn [drain]. apply IH. cbn in Hn. lia.
Qed.

(** One instruction of [c] cycles. *)
Lemma drain_step p cpu mops cpu' n : next p cpu = Ok (mops, cpu') ->
  drain p (S n) [] cpu =
  if Nat.leb (S n) (ops_cycles mops) then Ok cpu' else drain p (S n - ops_cycles mops) [] cpu'.
Proof.
  intros En. destruct (next_inv _ _ _ _ En) as (j & Ek & Ec & _). cbn [drain]. rewrite En. cbn [bind].
  rewrite Ec, Ek. cbn [bind].
  assert (L : forall c (b : list (list microcode)), repeat [] j ++ [ops_microcode mops ++ [Inc16bitRegister Pc (ops_offset mops mod 65536)]] = c :: b ->
    length b = j).
  { intros c b E. assert (K := f_equal (@length _) E). rewrite app_length, repeat_length in K. cbn in K. lia. }
  destruct (repeat [] j ++ _) as [|c b] eqn:Er; [destruct j; discriminate|].
  specialize (L c b eq_refl). cbn [Nat.leb]. destruct (Nat.leb n j) eqn:El.
  - apply drain_within. lia.
  - replace n with (length b + (n - j))%nat at 1 by lia. rewrite drain_skip. reflexivity.
Qed.

Lemma take_after p : forall k cpu ms cpu' cs n, iterate p k cpu = Ok (ms, cpu') -> expand ms = Ok cs ->
  take_cycles p (length cs + n) [] cpu = (do! rest <- take_cycles p n [] cpu' ; Ok (cs ++ rest)).
Proof.
  induction k as [|k IH]; intros cpu ms cpu' cs n Hi He; cbn [iterate] in Hi.
  - injection Hi as <- <-. cbn in He. injection He as <-. cbn [length Nat.add app].
    destruct (take_cycles p n [] cpu); reflexivity.
  - destruct (next p cpu) as [[m cpu1]|] eqn:En; cbn [bind] in Hi; [|discriminate].
    destruct (iterate p k cpu1) as [[ms' cpu2]|] eqn:Ei; cbn [bind] in Hi; [|discriminate].
    injection Hi as <- <-. cbn [expand] in He.
    destruct (operations_into_cycles m) as [c1|] eqn:Ec; cbn [bind] in He; [|discriminate].
    destruct (expand ms') as [c2|] eqn:E2; cbn [bind] in He; [|discriminate].
    injection He as <-. rewrite app_length.
    destruct (into_cycles_nonempty _ _ _ _ _ En Ec) as (c & l & ->). cbn [length Nat.add take_cycles].
    rewrite En. cbn [bind]. rewrite Ec. cbn [bind]. rewrite take_skip by lia.
    replace (length l + length c2 + n - length l)%nat with (length c2 + n)%nat by lia.
    rewrite (IH _ _ _ _ n Ei E2). destruct (take_cycles p n [] cpu2); cbn [bind]; [|reflexivity].
    cbn [app]. rewrite app_assoc. reflexivity.
Qed.
End Pull.

Section Timed.
Context {D : Type} `{Device D}.
Lemma drain_observed p (cpu : mos6502 D) c cpu' n : observed_step p cpu = Ok (c, cpu') ->
  drain p (S n) [] cpu = if Nat.leb (S n) c then Ok cpu' else drain p (S n - c) [] cpu'.
Proof.
  unfold observed_step. destruct (next p cpu) as [[m it]|] eqn:En; [|discriminate].
  intros E. injection E as <- <-. exact (drain_step p cpu m it n En).
Qed.

(** Whole instructions are consumed without a rest. *)
Lemma drain_steps p k t cpu cpu' n : steps p k t cpu cpu' ->
  drain p (t + n) [] cpu = drain p n [] cpu'.
Proof.
  induction 1 as [cpu|k t c cpu cpu1 cpu2 Es Hst IH]; [reflexivity|].
  assert (Hc := step_cycles_pos _ _ _ _ Es).
  destruct (c + t + n)%nat as [|q] eqn:Eq; [lia|]. rewrite (drain_observed _ _ _ _ _ Es).
  destruct (Nat.leb (S q) c) eqn:El.
  - assert (t = 0%nat) as -> by lia. assert (n = 0%nat) as -> by lia.
    rewrite <- IH. reflexivity.
  - replace (S q - c)%nat with (t + n)%nat by lia. exact IH.
Qed.
End Timed.

(** ** C63 The example program *)
(** The machine of the example, in terms of its devices and registers. *)
Definition blink_memories : address_map any_device :=
  [mkEntry 0xffea 0xffff (BoxMemory (mkMemory ReadOnly 0xffea 0xffff blink_rom));
   mkEntry 0x0100 0x01ff (BoxMemory (mkMemory ReadWrite 0x0100 0x01ff (repeat 0 (Z.to_nat 256))));
   mkEntry 0x0000 0x00ff (BoxMemory (mkMemory ReadWrite 0x0000 0x00ff (repeat 0 (Z.to_nat 256))))].
Definition blink_via (pa : Z) (l : list Z) : entry any_device :=
  mkEntry 0x8000 0x8003 (BoxVia (mkVia 0x8000 0x8001 0x8002 0x8003 pa 0 l)).
Definition blink_state (pa : Z) (l : list Z) (acc pc : Z) (neg : bool) : mos6502 any_device :=
  mkMos6502 (blink_via pa l :: blink_memories) acc 0 0 0xff pc
    (mkPs false false false false false true false neg).

(** What an observer of the devices sees. *)
Definition shows (cpu : mos6502 any_device) (pa : Z) (l : list Z) : Prop :=
  amap cpu = blink_via pa l :: blink_memories.

Lemma via_starts p : via_machine p = Ok (blink_state 0 [] 0 0xffea false).
Proof. destruct p; vm_compute; reflexivity. Qed.

(** The first twelve cycles, up to and including the first store to port A. *)
Lemma blink_intro p : steps p 4 12 (blink_state 0 [] 0 0xffea false) (blink_state 0x55 [0x55] 0x55 0xfff4 false).
Proof.
  refine (steps_cons p 3 10 2 _ (blink_state 0 [] 0xff 0xffec true) _ _ _); [destruct p; vm_compute; reflexivity|].
  refine (steps_cons p 2 6 4 _ (blink_state 0 [] 0xff 0xffef true) _ _ _); [destruct p; vm_compute; reflexivity|].
  refine (steps_cons p 1 4 2 _ (blink_state 0 [] 0x55 0xfff1 false) _ _ _); [destruct p; vm_compute; reflexivity|].
  refine (steps_cons p 0 0 4 _ (blink_state 0x55 [0x55] 0x55 0xfff4 false) _ _ _); [destruct p; vm_compute; reflexivity|].
  constructor.
Qed.

(** One turn of the loop, from one store of 0x55 to the next. *)
Lemma blink_turn p l :
  steps p 5 15 (blink_state 0x55 l 0x55 0xfff4 false) (blink_state 0x55 ((l ++ [0xaa]) ++ [0x55]) 0x55 0xfff4 false).
Proof.
  refine (steps_cons p 4 13 2 _ (blink_state 0x55 l 0xaa 0xfff6 true) _ _ _); [destruct p; vm_compute; reflexivity|].
  refine (steps_cons p 3 9 4 _ (blink_state 0xaa (l ++ [0xaa]) 0xaa 0xfff9 true) _ _ _); [destruct p; vm_compute; reflexivity|].
  refine (steps_cons p 2 6 3 _ (blink_state 0xaa (l ++ [0xaa]) 0xaa 0xffef true) _ _ _); [destruct p; vm_compute; reflexivity|].
  refine (steps_cons p 1 4 2 _ (blink_state 0xaa (l ++ [0xaa]) 0x55 0xfff1 false) _ _ _); [destruct p; vm_compute; reflexivity|].
  refine (steps_cons p 0 0 4 _ (blink_state 0x55 ((l ++ [0xaa]) ++ [0x55]) 0x55 0xfff4 false) _ _ _); [destruct p; vm_compute; reflexivity|].
  constructor.
Qed.

Lemma blinking_odd q : (blinking (2 * q + 1) ++ [0xaa]) ++ [0x55] = blinking (2 * S q + 1).
Proof.
  replace (2 * S q + 1)%nat with (S (S (2 * q + 1))) by lia. cbn [blinking].
  replace (Nat.even (2 * q + 1)) with false by (rewrite Nat.add_1_r, Nat.even_succ, Nat.odd_mul; reflexivity).
  replace (Nat.even (S (2 * q + 1))) with true
    by (rewrite Nat.add_1_r, Nat.even_succ, Nat.odd_succ, Nat.even_mul; reflexivity).
  reflexivity.
Qed.

Lemma blink_turns p q n :
  drain p (15 * q + n) [] (blink_state 0x55 (blinking 1) 0x55 0xfff4 false)
  = drain p n [] (blink_state 0x55 (blinking (2 * q + 1)) 0x55 0xfff4 false).
Proof.
  revert n. induction q as [|q IH]; intros n; [reflexivity|].
  replace (15 * S q + n)%nat with (15 * q + (15 + n))%nat by lia. rewrite IH.
  rewrite (drain_steps p 5 15 _ _ n (blink_turn p (blinking (2 * q + 1)))). rewrite blinking_odd. reflexivity.
Qed.

(** How many bytes were printed and what port A shows, [r] cycles into a turn. *)
Lemma blink_rest p l r : (r < 15)%nat ->
  exists cpu, drain p r [] (blink_state 0x55 l 0x55 0xfff4 false) = Ok cpu /\
    if Nat.leb 12 r then shows cpu 0x55 ((l ++ [0xaa]) ++ [0x55])
    else if Nat.leb 3 r then shows cpu 0xaa (l ++ [0xaa]) else shows cpu 0x55 l.
Proof.
  intros Hr.
  do 15 (destruct r as [|r]; [eexists; split; [destruct p; vm_compute; reflexivity|vm_compute; reflexivity]|]). lia.
Qed.

Lemma blink_intro_rest p n : (n < 12)%nat ->
  exists cpu, drain p n [] (blink_state 0 [] 0 0xffea false) = Ok cpu /\
    if Nat.leb 9 n then shows cpu 0x55 [0x55] else shows cpu 0 [].
Proof.
  intros Hn.
  do 12 (destruct n as [|n]; [eexists; split; [destruct p; vm_compute; reflexivity|vm_compute; reflexivity]|]). lia.
Qed.

Lemma blinking_last n : last (blinking n) 0 = if Nat.eqb n 0 then 0 else if Nat.odd n then 0x55 else 0xaa.
Proof.
  destruct n as [|n]; [reflexivity|]. cbn [blinking Nat.eqb]. rewrite last_last, Nat.odd_succ. reflexivity.
Qed.

(** For every number of cycles the example runs without a panic; the bytes
    printed so far are the blinking pattern, one byte per store whose
    instruction was reached: after [n] cycles (n+6)/15 times 0x55 and n/15
    times 0xaa. Port A shows the last byte printed, port B is never written
    and all memories are as they were after reset. *)
Theorem C63_example_blinks : forall p n, exists cpu v rest,
  via_main p n = Ok cpu /\
  amap cpu = mkEntry 0x8000 0x8003 (BoxVia v) :: rest /\
  printed v = blinking ((n + 6) / 15 + n / 15) /\
  port_a v = last (printed v) 0 /\ port_b v = 0 /\
  exists cpu0 v0, via_machine p = Ok cpu0 /\ amap cpu0 = mkEntry 0x8000 0x8003 (BoxVia v0) :: rest.
Proof.
  intros p n. unfold via_main. rewrite via_starts. cbn [bind].
  assert (G : forall cpu pa k, drain p n [] (blink_state 0 [] 0 0xffea false) = Ok cpu ->
    shows cpu pa (blinking k) -> k = ((n + 6) / 15 + n / 15)%nat ->
    pa = (if Nat.eqb k 0 then 0 else if Nat.odd k then 0x55 else 0xaa) ->
    exists cpu v rest, drain p n [] (blink_state 0 [] 0 0xffea false) = Ok cpu /\
      amap cpu = mkEntry 0x8000 0x8003 (BoxVia v) :: rest /\
      printed v = blinking ((n + 6) / 15 + n / 15) /\
      port_a v = last (printed v) 0 /\ port_b v = 0 /\
      exists cpu0 v0, Ok (blink_state 0 [] 0 0xffea false) = Ok cpu0 /\
        amap cpu0 = mkEntry 0x8000 0x8003 (BoxVia v0) :: rest).
  { intros cpu pa k Hd Hs Hk Hpa. exists cpu, (mkVia 0x8000 0x8001 0x8002 0x8003 pa 0 (blinking k)), blink_memories.
    split; [exact Hd|]. split; [exact Hs|]. cbn [printed port_a port_b]. rewrite <- Hk.
    split; [reflexivity|]. split; [rewrite blinking_last; exact Hpa|]. split; [reflexivity|].
    eexists. eexists. split; reflexivity. }
  destruct (Nat.ltb n 12) eqn:En.
  - destruct (blink_intro_rest p n ltac:(lia)) as (cpu & Hd & Hs).
    destruct (Nat.leb 9 n) eqn:E9.
    + apply (G cpu 0x55 1%nat Hd Hs); [|reflexivity].
      assert ((n + 6) / 15 = 1)%nat by (symmetry; apply Nat.div_unique with (n + 6 - 15)%nat; lia).
      assert (n / 15 = 0)%nat by (apply Nat.div_small; lia). lia.
    + apply (G cpu 0 0%nat Hd Hs); [|reflexivity].
      assert ((n + 6) / 15 = 0)%nat by (apply Nat.div_small; lia).
      assert (n / 15 = 0)%nat by (apply Nat.div_small; lia). lia.
  - assert (Er := Nat.div_mod (n - 12) 15 ltac:(lia)).
    assert (Hr := Nat.mod_upper_bound (n - 12) 15 ltac:(lia)).
    set (q := ((n - 12) / 15)%nat) in *. set (r := ((n - 12) mod 15)%nat) in *. clearbody q r.
    assert (Hn : n = (12 + (15 * q + r))%nat) by lia.
    assert (Hd0 : drain p n [] (blink_state 0 [] 0 0xffea false)
                  = drain p r [] (blink_state 0x55 (blinking (2 * q + 1)) 0x55 0xfff4 false)).
    { rewrite Hn, (drain_steps p 4 12 _ _ _ (blink_intro p)). exact (blink_turns p q r). }
    destruct (blink_rest p (blinking (2 * q + 1)) r Hr) as (cpu & Hd & Hs). rewrite <- Hd0 in Hd.
    assert (Ho : Nat.odd (2 * q + 1) = true)
      by (rewrite Nat.add_1_r, Nat.odd_succ, Nat.even_mul; reflexivity).
    assert (Hz : Nat.eqb (2 * q + 1) 0 = false) by (apply Nat.eqb_neq; lia).
    destruct (Nat.leb 12 r) eqn:E12; [|destruct (Nat.leb 3 r) eqn:E3].
    + apply (G cpu 0x55 (2 * S q + 1)%nat Hd).
      * rewrite <- blinking_odd. exact Hs.
      * assert ((n + 6) / 15 = S (S q))%nat by (symmetry; apply Nat.div_unique with (r - 12)%nat; lia).
        assert (n / 15 = S q)%nat by (symmetry; apply Nat.div_unique with (r - 3)%nat; lia). lia.
      * replace (Nat.odd (2 * S q + 1)) with true
          by (rewrite Nat.add_1_r, Nat.odd_succ, Nat.even_mul; reflexivity).
        replace (Nat.eqb (2 * S q + 1) 0) with false by (symmetry; apply Nat.eqb_neq; lia). reflexivity.
    + apply (G cpu 0xaa (S (2 * q + 1)) Hd).
      * cbn [blinking]. replace (Nat.even (2 * q + 1)) with false
          by (rewrite <- Nat.negb_odd, Ho; reflexivity). exact Hs.
      * assert ((n + 6) / 15 = S q)%nat by (symmetry; apply Nat.div_unique with (r + 3)%nat; lia).
        assert (n / 15 = S q)%nat by (symmetry; apply Nat.div_unique with (r - 3)%nat; lia). lia.
      * rewrite Nat.odd_succ, <- Nat.negb_odd, Ho. reflexivity.
    + apply (G cpu 0x55 (2 * q + 1)%nat Hd Hs).
      * assert ((n + 6) / 15 = S q)%nat by (symmetry; apply Nat.div_unique with (r + 3)%nat; lia).
        assert (n / 15 = q)%nat by (symmetry; apply Nat.div_unique with (r + 12)%nat; lia). lia.
      * rewrite Hz, Ho. reflexivity.
Qed.

(** The 80 cycles of the example print ten bytes. *)
Example C63_eighty : exists cpu v rest, via_main Debug 80 = Ok cpu /\
  amap cpu = mkEntry 0x8000 0x8003 (BoxVia v) :: rest /\
  printed v = [0x55; 0xaa; 0x55; 0xaa; 0x55; 0xaa; 0x55; 0xaa; 0x55; 0xaa].
Proof.
  destruct (C63_example_blinks Debug 80) as (cpu & v & rest & H1 & H2 & H3 & _).
  exists cpu, v, rest. split; [exact H1|]. split; [exact H2|exact H3].
Qed.

Print Assumptions C63_new.
Print Assumptions C63_ports_follow_writes.
Print Assumptions C63_other_addresses_refused.
Print Assumptions C63_example_blinks.

(** ** C64 Diverting a device's writes out of the microcode stream *)
Section Divert.
Context {D : Type} `{Device D}.
Implicit Type cpu : mos6502 D.

(** A write outside [lo..=hi] does not depend on the device registered there. *)
Lemma write_around p lo hi d0 d a v : ~ (lo <= a <= hi) -> forall before after m' r,
  am_write p (before ++ mkEntry lo hi d :: after) a v = Ok (m', r) ->
  exists before' after', m' = before' ++ mkEntry lo hi d :: after' /\
    layout before' = layout before /\
    am_write p (before ++ mkEntry lo hi d0 :: after) a v = Ok (before' ++ mkEntry lo hi d0 :: after', r).
Proof.
  intros Ha. assert (Hk : forall d1 : D, key_contains (mkEntry lo hi d1) a = false)
    by (intros d1; unfold key_contains; cbn [range_lo range_hi]; lia).
  induction before as [|f before IH]; intros after m' r Hw; cbn [app am_write] in Hw |- *.
  - rewrite Hk in Hw |- *. destruct (am_write p after a v) as [[m2 r2]|] eqn:E; cbn [bind] in Hw |- *; [|discriminate].
    injection Hw as <- <-. exists [], m2. auto.
  - destruct (key_contains f a).
    + destruct (dev_write p (device f) a v) as [[d' r2]|]; cbn [bind] in Hw |- *; [|discriminate].
      injection Hw as <- <-. exists (mkEntry (range_lo f) (range_hi f) d' :: before), after. auto.
    + destruct (am_write p (before ++ mkEntry lo hi d :: after) a v) as [[m2 r2]|] eqn:E;
        cbn [bind] in Hw |- *; [|discriminate].
      injection Hw as <- <-. destruct (IH after m2 r2 E) as (b' & a' & -> & El & E').
      rewrite E'. cbn [bind]. exists (f :: b'), a'. split; [reflexivity|]. split; [|reflexivity].
      unfold layout in *. cbn [map]. rewrite El. reflexivity.
Qed.

(** A write inside [lo..=hi] changes that device only. *)
Lemma write_inside p lo hi d a v before after m' r : lo <= a <= hi ->
  (forall e, In e before -> ~ covers e a) ->
  am_write p (before ++ mkEntry lo hi d :: after) a v = Ok (m', r) ->
  exists d', m' = before ++ mkEntry lo hi d' :: after.
Proof.
  intros Ha. revert m' r. induction before as [|f before IH]; intros m' r Hb Hw; cbn [app am_write] in Hw |- *.
  - replace (key_contains (mkEntry lo hi d) a) with true in Hw
      by (unfold key_contains; cbn [range_lo range_hi]; lia).
    cbn [device] in Hw. destruct (dev_write p d a v) as [[d' r2]|]; cbn [bind] in Hw; [|discriminate].
    injection Hw as <- <-. exists d'. reflexivity.
  - replace (key_contains f a) with false in Hw.
    2: { assert (K := Hb f (or_introl eq_refl)). unfold covers in K. unfold key_contains. lia. }
    destruct (am_write p (before ++ mkEntry lo hi d :: after) a v) as [[m2 r2]|] eqn:E; cbn [bind] in Hw; [|discriminate].
    injection Hw as <- <-. destruct (IH m2 r2 (fun e He => Hb e (or_intror He)) eq_refl) as [d' ->].
    exists d'. reflexivity.
Qed.

Lemma layout_uncovered (b b' : address_map D) a : layout b' = layout b ->
  (forall e, In e b -> ~ covers e a) -> forall e, In e b' -> ~ covers e a.
Proof.
  revert b. induction b' as [|f b' IH]; intros [|g b] El Hb e Hin; cbn in El; try discriminate; [destruct Hin|].
  injection El as E1 E2 E3. destruct Hin as [<-|Hin].
  - assert (K := Hb g (or_introl eq_refl)). unfold covers in *. lia.
  - exact (IH b E3 (fun x Hx => Hb x (or_intror Hx)) e Hin).
Qed.

(** Microcode other than a memory write does not look at the devices. *)
Lemma execute_registers p cpu mc am : (forall a v, mc <> WriteMemory a v) ->
  exists cpu', execute_mut p cpu mc = Ok cpu' /\ amap cpu' = amap cpu /\
    execute_mut p (set_amap cpu am) mc = Ok (set_amap cpu' am).
Proof.
  intros Hm. destruct mc as [a v|f v|r v|r v|r v|[] v|[] v|[] v]; [destruct (Hm a v eq_refl)|..];
    try (destruct f); try (destruct r); cbn [execute_mut]; eexists; split; try reflexivity; split; reflexivity.
Qed.

(** The ports as functions of the writes in a stream of microcode. *)
Definition ports_after (v : hook_via) (l : list (Z * Z)) : hook_via :=
  mkHookVia (hook_a_addr v) (hook_b_addr v)
    (last (written_to (hook_a_addr v) l) (hook_a v))
    (last (written_to (hook_b_addr v) l) (hook_b v))
    (hook_printed v ++ written_to (hook_a_addr v) l).

Lemma ports_after_nil v : ports_after v [] = v.
Proof. unfold ports_after. cbn. rewrite app_nil_r. destruct v; reflexivity. Qed.

Lemma last_cons_default (x : Z) l d : last (x :: l) d = last l x.
Proof.
  revert x d. induction l as [|y l IH]; intros x d; [reflexivity|].
  change (last (x :: y :: l) d) with (last (y :: l) d). rewrite !IH. reflexivity.
Qed.

Lemma ports_after_app v l1 l2 : ports_after v (l1 ++ l2) = ports_after (ports_after v l1) l2.
Proof.
  assert (La : forall (a b : list Z) d, last (a ++ b) d = last b (last a d)).
  { clear. induction a as [|x a IH]; intros b d; [reflexivity|]. cbn [app]. rewrite !last_cons_default. apply IH. }
  unfold ports_after. cbn [hook_a_addr hook_b_addr hook_a hook_b hook_printed].
  assert (W : forall a, written_to a (l1 ++ l2) = written_to a l1 ++ written_to a l2)
    by (intros a; unfold written_to; apply flat_map_app).
  rewrite !W, !La, app_assoc. reflexivity.
Qed.

Lemma hook_filter_ports lo hi v mc : hook_a_addr v <> hook_b_addr v ->
  lo <= hook_a_addr v <= hi -> lo <= hook_b_addr v <= hi ->
  fst (hook_filter lo hi v mc) = ports_after v (bus_writes mc).
Proof.
  intros Hne Ha Hb. destruct mc as [a x| | | | | | | ]; cbn [hook_filter bus_writes fst]; try (symmetry; apply ports_after_nil).
  unfold ports_after, written_to. cbn [flat_map fst snd].
  destruct ((lo <=? a) && (a <=? hi)) eqn:E; cbn [fst].
  - destruct (a =? hook_a_addr v) eqn:E1.
    + replace (a =? hook_b_addr v) with false by lia. cbn [app last]. reflexivity.
    + destruct (a =? hook_b_addr v) eqn:E2; cbn [app last]; rewrite app_nil_r; [reflexivity|].
      destruct v; reflexivity.
  - replace (a =? hook_a_addr v) with false by lia. replace (a =? hook_b_addr v) with false by lia.
    cbn [app last]. rewrite app_nil_r. destruct v; reflexivity.
Qed.

Lemma hook_fold p lo hi d0 : forall mcs cpu cpu' before d after via,
  hook_a_addr via <> hook_b_addr via -> lo <= hook_a_addr via <= hi -> lo <= hook_b_addr via <= hi ->
  amap cpu = before ++ mkEntry lo hi d :: after ->
  (forall a e, lo <= a <= hi -> In e before -> ~ covers e a) ->
  foldM (execute_mut p) mcs cpu = Ok cpu' ->
  exists before' d' after', amap cpu' = before' ++ mkEntry lo hi d' :: after' /\
    layout before' = layout before /\
    foldM (hook_step lo hi p) mcs (via, set_amap cpu (before ++ mkEntry lo hi d0 :: after))
    = Ok (ports_after via (flat_map bus_writes mcs),
          set_amap cpu' (before' ++ mkEntry lo hi d0 :: after')).
Proof.
  induction mcs as [|mc mcs IH]; intros cpu cpu' before d after via Hne Ha Hb Hm Hd Hf; cbn [foldM] in Hf |- *.
  - injection Hf as <-. exists before, d, after. split; [exact Hm|]. split; [reflexivity|].
    cbn [flat_map]. rewrite ports_after_nil. reflexivity.
  - destruct (execute_mut p cpu mc) as [cpu1|] eqn:Ex; cbn [bind] in Hf; [|discriminate].
    assert (Hp := hook_filter_ports lo hi via mc Hne Ha Hb).
    assert (Step : exists before1 d1 after1, amap cpu1 = before1 ++ mkEntry lo hi d1 :: after1 /\
      layout before1 = layout before /\
      hook_step lo hi p (via, set_amap cpu (before ++ mkEntry lo hi d0 :: after)) mc
      = Ok (ports_after via (bus_writes mc), set_amap cpu1 (before1 ++ mkEntry lo hi d0 :: after1))).
    { unfold hook_step. cbn [fst snd].
      destruct (hook_filter lo hi via mc) as [via1 keep] eqn:Ek. cbn [fst] in Hp. subst via1.
      assert (Reg : (forall a v, mc <> WriteMemory a v) -> keep = true /\
        exists before1 d1 after1, amap cpu1 = before1 ++ mkEntry lo hi d1 :: after1 /\
          layout before1 = layout before /\
          execute_mut p (set_amap cpu (before ++ mkEntry lo hi d0 :: after)) mc
          = Ok (set_amap cpu1 (before1 ++ mkEntry lo hi d0 :: after1))).
      { intros Hnw. split.
        - destruct mc as [a v| | | | | | | ]; [destruct (Hnw a v eq_refl)|..]; cbn in Ek; congruence.
        - destruct (execute_registers p cpu mc (before ++ mkEntry lo hi d0 :: after) Hnw) as (c & E1 & E2 & E3).
          assert (c = cpu1) as -> by congruence. exists before, d, after.
          split; [congruence|]. split; [reflexivity|exact E3]. }
      destruct mc as [a x|f x|r x|r x|r x|r x|r x|r x];
        [|destruct Reg as (-> & b1 & d1 & a1 & R1 & R2 & R3);
          [discriminate|]; exists b1, d1, a1; split; [exact R1|]; split; [exact R2|];
          rewrite R3; reflexivity..].
      clear Reg. cbn [hook_filter] in Ek. cbn [execute_mut] in Ex. unfold exec_write_memory in Ex.
      rewrite Hm in Ex.
      destruct (am_write p (before ++ mkEntry lo hi d :: after) a x) as [[m1 r1]|] eqn:Ew; cbn [bind] in Ex; [|discriminate].
      destruct r1 as [w|]; [|discriminate]. injection Ex as <-. cbn [amap set_amap].
      destruct ((lo <=? a) && (a <=? hi)) eqn:Er.
      - assert (keep = false) as -> by congruence.
        destruct (write_inside p lo hi d a x before after m1 (WOk w) ltac:(lia) (fun e He => Hd a e ltac:(lia) He) Ew) as [d1 ->].
        exists before, d1, after. split; [reflexivity|]. split; reflexivity.
      - assert (keep = true) as -> by congruence.
        destruct (write_around p lo hi d0 d a x ltac:(lia) before after m1 (WOk w) Ew) as (b1 & a1 & -> & El & E1).
        exists b1, d, a1. split; [reflexivity|]. split; [exact El|].
        cbn [execute_mut]. unfold exec_write_memory. cbn [amap set_amap]. rewrite E1. reflexivity. }
    destruct Step as (b1 & d1 & a1 & Hm1 & El & Es). rewrite Es. cbn [bind].
    destruct (IH cpu1 cpu' b1 d1 a1 (ports_after via (bus_writes mc))) as (b2 & d2 & a2 & Hm2 & El2 & Ef2); auto.
    + intros a e Hae Hin. exact (layout_uncovered before b1 a El (fun e' He' => Hd a e' Hae He') e Hin).
    + exists b2, d2, a2. split; [exact Hm2|]. split; [congruence|].
      cbn [flat_map]. rewrite ports_after_app. exact Ef2.
Qed.

(** Any program on any machine whose bus has some device at [lo..=hi]: if the
    machine can run for [n] cycles, then recording the microcode and replaying
    it with the writes to [lo..=hi] taken out succeeds. The replayed machine
    has the same registers and the same devices as the one that ran, except
    that the device at [lo..=hi] was never touched; and the ports received
    exactly the writes the program made to their addresses. *)
Theorem C64_diverted : forall p cpu n cpu' before lo hi d after via,
  run p cpu n = Ok (Ready cpu') ->
  amap cpu = before ++ mkEntry lo hi d :: after -> disjoint (amap cpu) ->
  hook_a_addr via <> hook_b_addr via -> lo <= hook_a_addr via <= hi -> lo <= hook_b_addr via <= hi ->
  exists cs before' d' after' via' cpu'',
    take_cycles p n [] cpu = Ok cs /\
    hook_replay lo hi p n via cpu = Ok (via', cpu'') /\
    amap cpu' = before' ++ mkEntry lo hi d' :: after' /\
    cpu'' = mkMos6502 (before' ++ mkEntry lo hi d :: after') (reg_acc cpu') (reg_x cpu') (reg_y cpu')
              (reg_sp cpu') (reg_pc cpu') (reg_ps cpu') /\
    length before' = length before /\
    let writes := flat_map bus_writes (concat cs) in
    hook_a via' = last (written_to (hook_a_addr via) writes) (hook_a via) /\
    hook_b via' = last (written_to (hook_b_addr via) writes) (hook_b via) /\
    hook_printed via' = hook_printed via ++ written_to (hook_a_addr via) writes.
Proof.
  intros p cpu n cpu' before lo hi d after via Hr Hm Hd Hne Ha Hb.
  unfold run in Hr. destruct (take_cycles p n [] cpu) as [cs|] eqn:Ec; cbn [bind] in Hr; [|discriminate].
  destruct (foldM (execute_mut p) (concat cs) cpu) as [s|] eqn:Ef; cbn [bind] in Hr; [|discriminate].
  injection Hr as ->.
  assert (Hc : forall a e, lo <= a <= hi -> In e before -> ~ covers e a).
  { intros a e Hae Hin. rewrite Hm in Hd. exact (proj1 (disjoint_split _ _ _ a Hd Hae) e Hin). }
  destruct (hook_fold p lo hi d (concat cs) cpu cpu' before d after via Hne Ha Hb Hm Hc Ef)
    as (b' & d' & a' & Hm' & El & Eh).
  exists cs, b', d', a', (ports_after via (flat_map bus_writes (concat cs))), (set_amap cpu' (b' ++ mkEntry lo hi d :: a')).
  split; [reflexivity|]. split.
  { unfold hook_replay. rewrite Ec. cbn [bind].
    replace (via, cpu) with (via, set_amap cpu (before ++ mkEntry lo hi d :: after)); [exact Eh|].
    rewrite <- Hm. destruct cpu; reflexivity. }
  split; [exact Hm'|]. split; [reflexivity|]. split.
  { assert (K := f_equal (@length _) El). unfold layout in K. rewrite !map_length in K. exact K. }
  cbn zeta. split; [reflexivity|]. split; reflexivity.
Qed.
End Divert.

Section Hooked.
Context {D : Type} `{Device D}.

(** Recording from [it] while replaying on [cpu]. *)
Definition hooked (lo hi : Z) p n (s : hook_via * mos6502 D * mos6502 D) : res (hook_via * mos6502 D) :=
  let '(via, it, cpu) := s in
  do! cs <- take_cycles p n [] it ; foldM (hook_step lo hi p) (concat cs) (via, cpu).

(** One instruction of both. *)
Definition hop (lo hi : Z) p (s : hook_via * mos6502 D * mos6502 D)
  : res (nat * (hook_via * mos6502 D * mos6502 D)) :=
  let '(via, it, cpu) := s in
  do! ' (m, it') <- next p it ;
  do! ' (via', cpu') <- foldM (hook_step lo hi p)
      (ops_microcode m ++ [Inc16bitRegister Pc (ops_offset m mod 65536)]) (via, cpu) ;
  Ok (ops_cycles m, (via', it', cpu')).

Inductive hops (lo hi : Z) p : nat -> hook_via * mos6502 D * mos6502 D -> hook_via * mos6502 D * mos6502 D -> Prop :=
| hops_refl s : hops lo hi p 0 s s
| hops_cons c t s s1 s2 : hop lo hi p s = Ok (c, s1) -> hops lo hi p t s1 s2 -> hops lo hi p (c + t) s s2.

Lemma hooked_hop lo hi p c s s' n : hop lo hi p s = Ok (c, s') ->
  hooked lo hi p n s = if Nat.ltb n c then Ok (fst (fst s), snd s) else hooked lo hi p (n - c) s'.
Proof.
  destruct s as [[via it] cpu]. cbn [hop hooked fst snd].
  destruct (next p it) as [[m it']|] eqn:En; cbn [bind]; [|discriminate].
  destruct (next_inv _ _ _ _ En) as (j & Ek & Ec & _).
  set (mc := ops_microcode m ++ _) in *.
  destruct (foldM (hook_step lo hi p) mc (via, cpu)) as [[via' cpu']|] eqn:Ef; cbn [bind]; [|discriminate].
  intros E. injection E as <- <-. rewrite Ek.
  destruct n as [|n]; [reflexivity|].
  assert (Et : take_cycles p (S n) [] it = take_cycles p (S n) (repeat [] j ++ [mc]) it').
  { cbn [take_cycles]. rewrite En. cbn [bind]. rewrite Ec. cbn [bind]. destruct j; reflexivity. }
  rewrite Et, take_buffer. change (Nat.ltb (S n) (S j)) with (Nat.leb (S n) j).
  destruct (Nat.leb (S n) j) eqn:El; cbn [bind].
  - rewrite concat_repeat_nil. reflexivity.
  - replace (S n - S j)%nat with (S n - j - 1)%nat by lia. cbn [hooked].
    destruct (take_cycles p (S n - j - 1) [] it') as [rest|]; cbn [bind]; [|reflexivity].
    rewrite concat_app, concat_repeat_nil. cbn [concat app].
    rewrite foldM_app, Ef. reflexivity.
Qed.

Lemma hooked_hops lo hi p t s s' n : hops lo hi p t s s' -> hooked lo hi p (t + n) s = hooked lo hi p n s'.
Proof.
  induction 1 as [s|c t s s1 s2 Hh Hs IH]; [reflexivity|].
  rewrite (hooked_hop lo hi p c s s1 _ Hh). replace (Nat.ltb (c + t + n) c) with false by lia.
  replace (c + t + n - c)%nat with (t + n)%nat by lia. exact IH.
Qed.
End Hooked.

Definition hook_state (r0 r2 acc pc : Z) (neg : bool) : mos6502 memory :=
  mkMos6502
    [mkEntry 0x8000 0x8003 (mkMemory ReadWrite 0x8000 0x8003 [r0; 0; r2; 0]);
     mkEntry 0xffea 0xffff (mkMemory ReadOnly 0xffea 0xffff blink_rom);
     mkEntry 0x0100 0x01ff (mkMemory ReadWrite 0x0100 0x01ff (repeat 0 (Z.to_nat 256)));
     mkEntry 0x0000 0x00ff (mkMemory ReadWrite 0x0000 0x00ff (repeat 0 (Z.to_nat 256)))]
    acc 0 0 0xff pc (mkPs false false false false false true false neg).

(** Recording machine, ports and replaying machine at an instruction boundary. *)
Definition hook_at (r0 r2 pa : Z) (l : list Z) (acc pc : Z) (neg : bool) :=
  (mkHookVia 0x8000 0x8001 pa 0 l, hook_state r0 r2 acc pc neg, hook_state 0 0 acc pc neg).

Lemma hook_starts p : hook_machine p = Ok (hook_state 0 0 0 0xffea false).
Proof. destruct p; vm_compute; reflexivity. Qed.

Lemma hook_intro p : hops 0x8000 0x8003 p 12 (hook_at 0 0 0 [] 0 0xffea false)
  (hook_at 0x55 0xff 0x55 [0x55] 0x55 0xfff4 false).
Proof.
  refine (hops_cons _ _ p 2 10 _ (hook_at 0 0 0 [] 0xff 0xffec true) _ _ _); [destruct p; vm_compute; reflexivity|].
  refine (hops_cons _ _ p 4 6 _ (hook_at 0 0xff 0 [] 0xff 0xffef true) _ _ _); [destruct p; vm_compute; reflexivity|].
  refine (hops_cons _ _ p 2 4 _ (hook_at 0 0xff 0 [] 0x55 0xfff1 false) _ _ _); [destruct p; vm_compute; reflexivity|].
  refine (hops_cons _ _ p 4 0 _ (hook_at 0x55 0xff 0x55 [0x55] 0x55 0xfff4 false) _ _ _); [destruct p; vm_compute; reflexivity|].
  constructor.
Qed.

Lemma hook_turn p l : hops 0x8000 0x8003 p 15 (hook_at 0x55 0xff 0x55 l 0x55 0xfff4 false)
  (hook_at 0x55 0xff 0x55 ((l ++ [0xaa]) ++ [0x55]) 0x55 0xfff4 false).
Proof.
  refine (hops_cons _ _ p 2 13 _ (hook_at 0x55 0xff 0x55 l 0xaa 0xfff6 true) _ _ _); [destruct p; vm_compute; reflexivity|].
  refine (hops_cons _ _ p 4 9 _ (hook_at 0xaa 0xff 0xaa (l ++ [0xaa]) 0xaa 0xfff9 true) _ _ _); [destruct p; vm_compute; reflexivity|].
  refine (hops_cons _ _ p 3 6 _ (hook_at 0xaa 0xff 0xaa (l ++ [0xaa]) 0xaa 0xffef true) _ _ _); [destruct p; vm_compute; reflexivity|].
  refine (hops_cons _ _ p 2 4 _ (hook_at 0xaa 0xff 0xaa (l ++ [0xaa]) 0x55 0xfff1 false) _ _ _); [destruct p; vm_compute; reflexivity|].
  refine (hops_cons _ _ p 4 0 _ (hook_at 0x55 0xff 0x55 ((l ++ [0xaa]) ++ [0x55]) 0x55 0xfff4 false) _ _ _); [destruct p; vm_compute; reflexivity|].
  constructor.
Qed.

Lemma hook_turns p q n :
  hooked 0x8000 0x8003 p (15 * q + n) (hook_at 0x55 0xff 0x55 (blinking 1) 0x55 0xfff4 false)
  = hooked 0x8000 0x8003 p n (hook_at 0x55 0xff 0x55 (blinking (2 * q + 1)) 0x55 0xfff4 false).
Proof.
  revert n. induction q as [|q IH]; intros n; [reflexivity|].
  replace (15 * S q + n)%nat with (15 * q + (15 + n))%nat by lia. rewrite IH.
  rewrite (hooked_hops _ _ p 15 _ _ n (hook_turn p (blinking (2 * q + 1)))). rewrite blinking_odd. reflexivity.
Qed.

(** What an observer of ports and memories sees. *)
Definition hook_shows (r : res (hook_via * mos6502 memory)) (pa : Z) (l : list Z) : Prop :=
  exists acc pc neg, r = Ok (mkHookVia 0x8000 0x8001 pa 0 l, hook_state 0 0 acc pc neg).

Lemma hook_rest p l r : (r < 15)%nat ->
  if Nat.leb 6 r then hook_shows (hooked 0x8000 0x8003 p r (hook_at 0x55 0xff 0x55 l 0x55 0xfff4 false)) 0xaa (l ++ [0xaa])
  else hook_shows (hooked 0x8000 0x8003 p r (hook_at 0x55 0xff 0x55 l 0x55 0xfff4 false)) 0x55 l.
Proof.
  intros Hr.
  do 15 (destruct r as [|r]; [cbn [Nat.leb]; eexists; eexists; eexists; unfold hook_state; destruct p; vm_compute; reflexivity|]). lia.
Qed.

Lemma hook_intro_rest p n : (n < 12)%nat ->
  hook_shows (hooked 0x8000 0x8003 p n (hook_at 0 0 0 [] 0 0xffea false)) 0 [].
Proof.
  intros Hn.
  do 12 (destruct n as [|n]; [eexists; eexists; eexists; unfold hook_state; destruct p; vm_compute; reflexivity|]). lia.
Qed.

(** The second example, for every number of cycles: no panic; a byte is
    printed when the last cycle of its store is taken, which makes (n+3)/15
    times 0x55 and (n-3)/15 times 0xaa (n-3 being 0 below 3 cycles); the
    placeholder RAM at 0x8000 stays zero and every memory is as after reset. *)
Theorem C64_example_blinks : forall p n, exists via cpu,
  hook_main p n = Ok (via, cpu) /\
  hook_printed via = blinking ((n + 3) / 15 + (n - 3) / 15) /\
  hook_a via = last (hook_printed via) 0 /\ hook_b via = 0 /\
  exists cpu0, hook_machine p = Ok cpu0 /\ amap cpu = amap cpu0.
Proof.
  intros p n. unfold hook_main.
  replace (hook_via_new p 0x8000) with (Ok (mkHookVia 0x8000 0x8001 0 0 [])) by (destruct p; reflexivity).
  cbn [bind]. rewrite hook_starts. cbn [bind].
  change (hook_replay 0x8000 0x8003 p n (mkHookVia 0x8000 0x8001 0 0 []) (hook_state 0 0 0 0xffea false))
    with (hooked 0x8000 0x8003 p n (hook_at 0 0 0 [] 0 0xffea false)).
  assert (G : forall pa k, hook_shows (hooked 0x8000 0x8003 p n (hook_at 0 0 0 [] 0 0xffea false)) pa (blinking k) ->
    k = ((n + 3) / 15 + (n - 3) / 15)%nat ->
    pa = (if Nat.eqb k 0 then 0 else if Nat.odd k then 0x55 else 0xaa) ->
    exists via cpu, hooked 0x8000 0x8003 p n (hook_at 0 0 0 [] 0 0xffea false) = Ok (via, cpu) /\
      hook_printed via = blinking ((n + 3) / 15 + (n - 3) / 15) /\
      hook_a via = last (hook_printed via) 0 /\ hook_b via = 0 /\
      exists cpu0, Ok (hook_state 0 0 0 0xffea false) = Ok cpu0 /\ amap cpu = amap cpu0).
  { intros pa k (acc & pc & neg & E) Hk Hpa. rewrite E. eexists. eexists. split; [reflexivity|].
    cbn [hook_printed hook_a hook_b]. rewrite <- Hk. split; [reflexivity|].
    split; [rewrite blinking_last; exact Hpa|]. split; [reflexivity|].
    eexists. split; [reflexivity|]. reflexivity. }
  destruct (Nat.ltb n 12) eqn:En.
  - apply (G 0 0%nat (hook_intro_rest p n ltac:(lia))); [|reflexivity].
    rewrite !Nat.div_small by lia. reflexivity.
  - assert (Er := Nat.div_mod (n - 12) 15 ltac:(lia)).
    assert (Hr := Nat.mod_upper_bound (n - 12) 15 ltac:(lia)).
    set (q := ((n - 12) / 15)%nat) in *. set (r := ((n - 12) mod 15)%nat) in *. clearbody q r.
    assert (Hn : n = (12 + (15 * q + r))%nat) by lia.
    assert (Hd0 : hooked 0x8000 0x8003 p n (hook_at 0 0 0 [] 0 0xffea false)
                  = hooked 0x8000 0x8003 p r (hook_at 0x55 0xff 0x55 (blinking (2 * q + 1)) 0x55 0xfff4 false)).
    { rewrite Hn, (hooked_hops _ _ p 12 _ _ _ (hook_intro p)). exact (hook_turns p q r). }
    assert (Hs := hook_rest p (blinking (2 * q + 1)) r Hr). rewrite <- Hd0 in Hs.
    assert (Ho : Nat.odd (2 * q + 1) = true)
      by (rewrite Nat.add_1_r, Nat.odd_succ, Nat.even_mul; reflexivity).
    assert (Hz : Nat.eqb (2 * q + 1) 0 = false) by (apply Nat.eqb_neq; lia).
    assert ((n + 3) / 15 = S q)%nat by (symmetry; apply Nat.div_unique with r; lia).
    destruct (Nat.leb 6 r) eqn:E6.
    + apply (G 0xaa (S (2 * q + 1))).
      * cbn [blinking]. replace (Nat.even (2 * q + 1)) with false
          by (rewrite <- Nat.negb_odd, Ho; reflexivity). exact Hs.
      * assert ((n - 3) / 15 = S q)%nat by (symmetry; apply Nat.div_unique with (r - 6)%nat; lia). lia.
      * rewrite Nat.odd_succ, <- Nat.negb_odd, Ho. reflexivity.
    + apply (G 0x55 (2 * q + 1)%nat Hs).
      * assert ((n - 3) / 15 = q)%nat by (symmetry; apply Nat.div_unique with (r + 9)%nat; lia). lia.
      * rewrite Hz, Ho. reflexivity.
Qed.

Print Assumptions C64_diverted.
Print Assumptions C64_example_blinks.

(** The example's machine meets the hypotheses of [C64_diverted]. *)
Example C64_nonvacuous : exists cpu, hook_machine Debug = Ok cpu /\ disjoint (amap cpu) /\
  exists d after cpu', amap cpu = [] ++ mkEntry 0x8000 0x8003 d :: after /\ run Debug cpu 12 = Ok (Ready cpu').
Proof.
  exists (hook_state 0 0 0 0xffea false). split; [apply hook_starts|]. split.
  { refine (proj1 (plain_mapb_ok (amap (hook_state 0 0 0 0xffea false)) _)). vm_compute. reflexivity. }
  eexists. eexists. eexists. split; [reflexivity|]. vm_compute. reflexivity.
Qed.
