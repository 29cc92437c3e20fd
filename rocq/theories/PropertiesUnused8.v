(** C104 (CHIP-8): an instruction whose results are not looked at can be
    replaced by one that does nothing. *)
From Verif Require Import Base Arith ModelMap ModelStep ModelDisplay ModelChip8 ModelOpsChip8 ModelRunChip8 SpecMap Link6502
  SpecChip8 SpecChip8Parts ProofChip8 ProofChip8Step ProofChip8Reach SpecReference8 ProofReference8 SpecLive8 PropertiesLive8 SpecMove8 PropertiesMove8 SpecUnused8.

(** The instruction itself. *)
Lemma unused_step e p c w op c1 w1 : env_ok e -> well_formed c -> operands_ok op -> fetches p c (encode op) ->
  names_no_place op = true -> may_skip op = false -> asks_clock op = false -> asks_random op = false ->
  step e p c w = Ok (c1, w1) ->
  well_formed c1 /\ w1 = w /\ observe c1 PPC = (observe c PPC + 2) mod 65536 /\
  forall q, sets8 (observe c) op q = false -> observe c1 q = observe c q.
Proof.
  intros He W Hop Hf Hn Hs Hc Hr E. pose proof (step_effect e p c w W He op Hop Hf) as K.
  pose proof (effect_moved e p w w (observe c) (observe c) op Hn (conj (fun _ => eq_refl) (fun _ => eq_refl)) (fun _ _ => eq_refl)) as X.
  unfold delivers in K. destruct (effect e p (observe c) w op) as [[f' w']|]; [|congruence].
  destruct K as (c' & E' & W' & L). rewrite E in E'. injection E' as <- <-. destruct X as (Xw & _ & (k & P1 & _ & _ & Pk) & X).
  split; [exact W'|]. split; [rewrite Xw; unfold world_after; rewrite Hc, Hr; apply world_eta|].
  split; [rewrite (L PPC), P1, (Pk Hs); reflexivity|]. intros q Hq. rewrite (L q). apply X; [|exact Hq]. intros ->. discriminate.
Qed.

(** 0nnn does nothing. *)
Lemma sys_step e p c w nnn : env_ok e -> well_formed c -> operands_ok (Sys nnn) -> fetches p c (encode (Sys nnn)) ->
  exists c1, step e p c w = Ok (c1, w) /\ well_formed c1 /\ observe c1 PPC = (observe c PPC + 2) mod 65536 /\
  forall q, q <> PPC -> observe c1 q = observe c q.
Proof.
  intros He W Hop Hf. pose proof (step_effect e p c w W He (Sys nnn) Hop Hf) as K. unfold delivers in K. cbn [effect] in K. unfold done in K.
  destruct K as (c1 & E & W1 & L). exists c1. split; [exact E|]. split; [exact W1|]. split.
  - rewrite (L PPC). reflexivity.
  - intros q Hq. rewrite (L q). unfold advance, upd. destruct q; cbn [part_eqb]; congruence.
Qed.

Theorem C104_nothing_instead : forall e p start op0 nnn known n c w c2 known' c' w',
  env_ok e -> 0 <= start <= 0xfffd -> operands_ok op0 -> operands_ok (Sys nnn) ->
  names_no_place op0 = true -> may_skip op0 = false -> asks_clock op0 = false -> asks_random op0 = false ->
  replaced start op0 (Sys nnn) known c c2 -> (forall q, known q -> ~ two_bytes start q) ->
  unused_run e p start op0 known c w n known' c' w' ->
  exists mcs mcs2 c2', iterate e p n c w = Ok (mcs, c', w') /\ iterate e p n c2 w = Ok (mcs2, c2', w') /\
    replaced start op0 (Sys nnn) known' c' c2'.
Proof.
  intros e p start op0 nnn known n c w c2 known' c' w' He Hs O0 O2 Nn Ns Nc Nr X Hk U.
  assert (G : exists h h2 c2', length h = n /\ length h2 = n /\ executes e p c w h c' w' /\ executes e p c2 w h2 c2' w' /\ replaced start op0 (Sys nnn) known' c' c2').
  { revert c2 X Hk. induction U as [known c w|known known1 known' n c w c1 w1 c' w' Hp Kp E Hw H1 U IH|known known1 known' op n c w c1 w1 c' w' Ho Hf E Hw Hq H1 U IH]; intros c2 X Hk.
    - exists [], [], c2. split; [reflexivity|]. split; [reflexivity|]. split; [constructor|]. split; [constructor|exact X].
    - destruct X as (W & W2 & Wc & Wc2 & Ag). assert (Hp2 : observe c2 PPC = start) by (rewrite (Ag _ Kp); exact Hp).
      assert (F : fetches p c (encode op0)) by (apply fetches_word; rewrite Hp; [lia|lia|exact Wc]).
      assert (F2 : fetches p c2 (encode (Sys nnn))) by (apply fetches_word; rewrite Hp2; [lia|lia|exact Wc2]).
      destruct (unused_step e p c w op0 c1 w1 He W O0 F Nn Ns Nc Nr E) as (W1 & -> & P1 & L1).
      destruct (sys_step e p c2 w nnn He W2 O2 F2) as (c21 & E2 & W21 & P2 & L2).
      destruct (IH c21) as (h & h2 & c2' & Hl & Hl2 & Y & Y2 & X').
      + split; [exact W1|]. split; [exact W21|]. split; [|split].
        * rewrite <- Wc. unfold word_at. rewrite !L1; [reflexivity| |]; apply Hw; [right|left]; reflexivity.
        * rewrite <- Wc2. unfold word_at. rewrite !L2 by discriminate. reflexivity.
        * intros q Hq. destruct (H1 q Hq) as [K1 K2]. destruct (part_eqb q PPC) eqn:Ep.
          -- apply part_eqb_true in Ep. subst q. rewrite P1, P2, Hp, Hp2. reflexivity.
          -- destruct K2 as [->|K2]; [discriminate|]. rewrite L2 by (intros ->; discriminate). rewrite (L1 q K2). exact (Ag q K1).
      + intros q Hq. apply Hk, H1, Hq.
      + exists ((start, encode op0) :: h), ((start, encode (Sys nnn)) :: h2), c2'. split; [cbn [length]; congruence|]. split; [cbn [length]; congruence|].
        split; [rewrite <- Hp; econstructor; eassumption|]. split; [rewrite <- Hp2; econstructor; eassumption|exact X'].
    - destruct X as (W & W2 & Wc & Wc2 & Ag).
      assert (Ag1 : forall q, looks_at8 (observe c) op q = true -> observe c2 q = observe c q) by (intros q K; apply Ag, Hq, K).
      pose proof (C87_one_instruction e p c c2 w op He W W2 Ho Hf Ag1) as Y. rewrite E in Y.
      destruct (step e p c2 w) as [[c21 w21]|] eqn:E2; [|contradiction]. destruct Y as (-> & Y1 & Y2).
      assert (F2 := fetches_known _ _ _ _ _ W Hf Ag1).
      destruct (IH c21) as (h & h2 & c2' & Hl & Hl2 & Z1 & Z2 & X').
      + split; [exact (step_well_formed _ _ _ _ _ _ _ He W Ho Hf E)|]. split; [exact (step_well_formed _ _ _ _ _ _ _ He W2 Ho F2 E2)|].
        assert (A1 := Hw (PMem start) (or_introl eq_refl)). assert (A2 := Hw (PMem (start + 1)) (or_intror eq_refl)).
        destruct (Y2 _ A1) as [B1 B2], (Y2 _ A2) as [B3 B4].
        split; [rewrite <- Wc; unfold word_at; rewrite B1, B3; reflexivity|]. split; [rewrite <- Wc2; unfold word_at; rewrite B2, B4; reflexivity|].
        intros q K. destruct (sets8 (observe c) op q) eqn:Eq; [apply Y1, Eq|]. destruct (Y2 q Eq) as [A B]. rewrite A, B. apply Ag.
        destruct (H1 q K) as [K1|K1]; [exact K1|congruence].
      + intros q K. destruct (H1 q K) as [K1|K1]; [exact (Hk q K1)|]. intros T. rewrite (Hw q T) in K1. discriminate.
      + assert (Pc : observe c2 PPC = observe c PPC) by (apply Ag1; reflexivity).
        exists ((observe c PPC, encode op) :: h), ((observe c PPC, encode op) :: h2), c2'.
        split; [cbn [length]; congruence|]. split; [cbn [length]; congruence|].
        split; [econstructor; eassumption|]. split; [rewrite <- Pc; econstructor; eassumption|exact X']. }
  destruct G as (h & h2 & c2' & Hl & Hl2 & Y & Y2 & X').
  destruct (executes_iterate _ _ _ _ _ _ _ Y) as (mcs & I1). destruct (executes_iterate _ _ _ _ _ _ _ Y2) as (mcs2 & I2).
  rewrite Hl in I1. rewrite Hl2 in I2. exists mcs, mcs2, c2'. split; [exact I1|]. split; [exact I2|exact X'].
Qed.
(** LD V1, 9 (or 0123), LD V1, 7 and JP 200, twice around; only the last two
    instructions are known. *)
Definition unused_program (sys : bool) : list Z := (if sys then [0x01; 0x23] else [0x61; 0x09]) ++ [0x61; 0x07; 0x12; 0x00].
Definition unused_at (n : nat) : chip8 * world :=
  match iterate env0 Debug n (demo (unused_program false) [] 0 None) w0 with Ok (_, c, w) => (c, w) | Panic => (demo [] [] 0 None, w0) end.
Definition second : chip8 := demo (unused_program true) [(V1, 200); (V2, 3)] 0x321 None.
Definition loop_known (v1 : bool) (q : part) : Prop := q = PPC \/ in_code 0x202 0x202 4 q = true \/ v1 = true /\ q = PV 1.

Lemma visit_at n : observe (fst (unused_at n)) PPC = 0x200 ->
  step env0 Debug (fst (unused_at n)) (snd (unused_at n)) = Ok (unused_at (Datatypes.S n)) ->
  forall b known' k c' w', unused_run env0 Debug 0x200 (LdImmediate V1 9) (loop_known false) (fst (unused_at (Datatypes.S n))) (snd (unused_at (Datatypes.S n))) k known' c' w' ->
  unused_run env0 Debug 0x200 (LdImmediate V1 9) (loop_known b) (fst (unused_at n)) (snd (unused_at n)) (Datatypes.S k) known' c' w'.
Proof.
  intros H1 H2 b known' k c' w' X. eapply unused_visit; [exact H1|left; reflexivity| | | |exact X].
  - rewrite H2. destruct (unused_at (Datatypes.S n)). reflexivity.
  - intros q [->| ->]; reflexivity.
  - intros q [->|[H|[H _]]]; [split; [left; reflexivity|left; reflexivity]| |discriminate].
    split; [right; left; exact H|right]. destruct q; try discriminate. reflexivity.
Qed.
Lemma other_at n op b b1 : operands_ok op -> fetches Debug (fst (unused_at n)) (encode op) ->
  step env0 Debug (fst (unused_at n)) (snd (unused_at n)) = Ok (unused_at (Datatypes.S n)) ->
  (forall q, two_bytes 0x200 q -> sets8 (observe (fst (unused_at n))) op q = false) ->
  (forall q, looks_at8 (observe (fst (unused_at n))) op q = true -> loop_known b q) ->
  (forall q, loop_known b1 q -> loop_known b q \/ sets8 (observe (fst (unused_at n))) op q = true) ->
  forall known' k c' w', unused_run env0 Debug 0x200 (LdImmediate V1 9) (loop_known b1) (fst (unused_at (Datatypes.S n))) (snd (unused_at (Datatypes.S n))) k known' c' w' ->
  unused_run env0 Debug 0x200 (LdImmediate V1 9) (loop_known b) (fst (unused_at n)) (snd (unused_at n)) (Datatypes.S k) known' c' w'.
Proof. intros H1 H2 H3. intros. eapply unused_other; try eassumption. rewrite H3. destruct (unused_at (Datatypes.S n)). reflexivity. Qed.

Lemma unused_pc1 : observe (fst (unused_at 1)) PPC = 0x202. Proof. vm_compute. reflexivity. Qed.
Lemma unused_pc2 : observe (fst (unused_at 2)) PPC = 0x204. Proof. vm_compute. reflexivity. Qed.
Lemma unused_pc4 : observe (fst (unused_at 4)) PPC = 0x202. Proof. vm_compute. reflexivity. Qed.
Lemma unused_pc5 : observe (fst (unused_at 5)) PPC = 0x204. Proof. vm_compute. reflexivity. Qed.
Lemma unused_0 : unused_at 0 = (demo (unused_program false) [] 0 None, w0). Proof. vm_compute. reflexivity. Qed.
Lemma unused_6 : observe (fst (unused_at 6)) (PV 1) = 7 /\ observe (fst (unused_at 6)) PPC = 0x200. Proof. split; vm_compute; reflexivity. Qed.

Local Ltac fetch8 := split; [right; vm_compute; reflexivity|vm_compute; reflexivity].
Local Ltac own8 L := let q := fresh "q" in intros q; unfold looks_at8, own_bytes, loop_known; rewrite L; cbn [beyond];
  destruct q; cbn [part_eqb is_reg orb in_code]; intros; try discriminate; auto; right; left; lia.
Local Ltac load_v1 n L := apply other_at with (op := LdImmediate V1 7) (b1 := true);
  [cbn; unfold u8; lia|fetch8|vm_compute; reflexivity|intros q [->| ->]; reflexivity|own8 L
  |let q := fresh "q" in let H := fresh "H" in intros q [H|[H|[_ ->]]]; [left; left; exact H|left; right; left; exact H|right; reflexivity]|].
Local Ltac jump_back L := apply other_at with (op := JpNonV0Indexed 0x200) (b1 := true);
  [cbn; lia|fetch8|vm_compute; reflexivity|intros q [->| ->]; reflexivity|own8 L|intros q H; left; exact H|].

Lemma unused_loop : unused_run env0 Debug 0x200 (LdImmediate V1 9) (loop_known false) (fst (unused_at 0)) (snd (unused_at 0)) 6
  (loop_known true) (fst (unused_at 6)) (snd (unused_at 6)).
Proof.
  apply visit_at; [vm_compute; reflexivity|vm_compute; reflexivity|].
  load_v1 1%nat unused_pc1. jump_back unused_pc2.
  apply visit_at; [vm_compute; reflexivity|vm_compute; reflexivity|].
  load_v1 4%nat unused_pc4. jump_back unused_pc5. apply unused_none.
Qed.

Example C104_case : exists mcs c2' w', iterate env0 Debug 6 second w0 = Ok (mcs, c2', w') /\
  observe c2' (PV 1) = 7 /\ observe c2' PPC = 0x200.
Proof.
  pose proof unused_loop as X. pose proof unused_6 as V.
  assert (R : replaced 0x200 (LdImmediate V1 9) (Sys 0x123) (loop_known false) (fst (unused_at 0)) second).
  { split; [rewrite unused_0; apply demo_wf; vm_compute; reflexivity|]. split; [apply demo_wf; vm_compute; reflexivity|].
    split; [vm_compute; reflexivity|]. split; [vm_compute; reflexivity|].
    intros q [->|[H|[H _]]]; [vm_compute; reflexivity| |discriminate]. destruct q; try discriminate. cbn [in_code] in H.
    assert (C : a = 0x202 \/ a = 0x203 \/ a = 0x204 \/ a = 0x205) by lia.
    destruct C as [->|[->|[->| ->]]]; vm_compute; reflexivity. }
  replace w0 with (snd (unused_at 0)) by (rewrite unused_0; reflexivity).
  revert X V R. generalize (unused_at 0) (unused_at 6) second. intros [c w] [c6 w6] c2 X [Q1 Q2] R. cbn [fst snd] in *.
  assert (O1 : operands_ok (LdImmediate V1 9)) by (cbn; unfold u8; lia). assert (O2 : operands_ok (Sys 0x123)) by (cbn; lia).
  assert (N : forall q, loop_known false q -> ~ two_bytes 0x200 q).
  { intros q [->|[H|[H _]]] [K|K]; try discriminate; subst q; cbn [in_code] in H; lia. }
  destruct (C104_nothing_instead env0 Debug 0x200 (LdImmediate V1 9) 0x123 _ 6 c w c2 _ c6 w6 env0_ok ltac:(lia) O1 O2 eq_refl eq_refl eq_refl eq_refl R N X)
    as (mcs & mcs2 & c2' & _ & I2 & (_ & _ & _ & _ & Ag)).
  exists mcs2, c2', w6. split; [exact I2|]. rewrite (Ag (PV 1)), (Ag PPC); [split; [exact Q1|exact Q2]|left; reflexivity|right; right; split; reflexivity].
Qed.

Print Assumptions C104_nothing_instead.
