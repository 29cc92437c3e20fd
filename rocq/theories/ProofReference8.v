(** Lemmas for PropertiesReference8.v. *)
From Verif Require Import Base Arith ModelMap ModelU12 ModelDisplay ModelChip8 ModelOpsChip8 ModelRunChip8.
From Verif Require Import SpecMap Link6502 SpecChip8 SpecChip8Parts SpecChip8Run ProofDecode8 ProofChip8 ProofChip8Step
  SpecReference8.

Lemma has_not_vf r : r <> Vf <-> has r = true.
Proof. destruct r; unfold has; cbn; intuition congruence. Qed.
Lemma not_has_vf r : has r = false <-> r = Vf.
Proof. destruct r; unfold has; cbn; intuition congruence. Qed.

Ltac injection_ref E := try (injection E as <- <-).

Section Step.
Variables (e : environment) (p : profile) (c : chip8) (w : world) (f : part -> Z).
Hypotheses (W : well_formed c) (He : env_ok e) (L : looks c f).

Lemma f_v r : r <> Vf -> u8 (f (PV (gp_index r))).
Proof. intros H. rewrite <- L. apply observe_v_u8; [exact W|]. destruct r; cbn; try lia; congruence. Qed.
Lemma f_sp : 0 <= f PSP < 16.
Proof. rewrite <- L. exact (wf_sp c W). Qed.
Lemma f_i : u16 (f PI).
Proof. rewrite <- L. exact (wf_i c W). Qed.

Lemma agrees8 op g w1 : operands_ok op -> reference e f w op = Some (g, w1) -> ~ departs8 e f w op ->
  exists f', effect e p (observe c) w op = Some (f', w1) /\ forall q, f' q = g q.
Proof.
  intros Hop E Hd. unfold departs8 in Hd. assert (Hi := f_i). unfold u16 in Hi.
  assert (A : forall k q, advance (observe c) k q = upd f PPC ((f PPC + k) mod 65536) q).
  { intros k q. unfold advance, upd. rewrite !L. reflexivity. }
  destruct op; cbn [registers_named] in Hd; try (exfalso; apply Hd; right; exact I);
    cbn [reference effect] in *; unfold same_world, needs, done, tick in *;
    repeat match goal with
    | r : gp_register |- _ =>
        lazymatch goal with
        | K : has r = true |- _ => fail
        | _ => let K := fresh "K" in assert (K : has r = true) by (apply has_not_vf; intros ->; apply Hd; left; cbn; auto);
            try rewrite K
        end
    end; cbn [andb];
    try (injection E as <- <-; eexists; split; [reflexivity|]; intros q;
         unfold onward, skip, goto, set, rv, v, upd in *; rewrite ?A; unfold upd; rewrite ?L;
         solve [destruct q; cbn [part_eqb]; rewrite ?L; try reflexivity; repeat destruct (_ =? _); reflexivity]).
  all: injection_ref E.
  - (* JP V0 *)
    eexists. split; [reflexivity|]. intros q. unfold goto, rv, v, upd in *. rewrite !L.
    assert (B := f_v V0 ltac:(discriminate)). unfold u8 in B. cbn [operands_ok gp_index] in *.
    rewrite (Z.mod_small (a + f (PV 0))) by lia. reflexivity.
  - (* timer *)
    eexists. split; [reflexivity|]. intros q. unfold onward, goto, set, upd. rewrite A, !L. unfold upd.
    destruct (Z.eq_dec (ref_timer (f PDelay) (f PDelayAt) (env_time e (w_time w)))
                       (clocked (f PDelay) (f PDelayAt) (env_time e (w_time w)))) as [Et|Et];
      [|exfalso; apply Hd; right; exact Et].
    rewrite <- Et. destruct q; reflexivity.
  - (* BCD *)
    rewrite L. destruct (f PI + 2 <=? 4095) eqn:B; [|discriminate]. injection E as <- <-.
    eexists. split; [reflexivity|]. intros q. unfold onward, goto, rv, v, upd. rewrite A, !L. unfold upd.
    destruct q; cbn [part_eqb]; try reflexivity.
    rewrite !(Z.eqb_sym _ a). destruct (Z.eqb_spec a (f PI)), (Z.eqb_spec a (f PI + 1)), (Z.eqb_spec a (f PI + 2));
      try lia; reflexivity.
  - (* sprite location *)
    assert (B := f_v r ltac:(apply has_not_vf; assumption)). unfold u8, rv in *.
    assert (Hs : f (PV (gp_index r)) < 16) by lia.
    replace (match p with Debug => _ | Release => _ end) with true by (destruct p; unfold v; rewrite ?L; lia).
    eexists. split; [reflexivity|]. intros q. unfold onward, goto, v, upd. rewrite A, !L. unfold upd.
    rewrite (Z.mod_small (5 * _)) by lia. rewrite (Z.mod_small (f (PV (gp_index r)))) by lia.
    destruct q; reflexivity.
  - (* LD K *)
    rewrite L. destruct (f PKey =? -1) eqn:B; [exfalso; apply Hd; right; lia|].
    eexists. split; [reflexivity|]. intros q. unfold onward, goto, set, upd. rewrite A. unfold upd.
    destruct q; reflexivity.
  - (* LD Vx, [I] *)
    assert (B : 0 <= gp_index r < 16) by (destruct r; cbn; lia).
    destruct (f PI + gp_index r <=? 4095) eqn:C; [|discriminate]. injection E as <- <-.
    replace (match p with Debug => _ | Release => _ end) with true by (destruct p; rewrite ?L; lia).
    eexists. split; [reflexivity|]. intros q. unfold onward, goto, upd. destruct q; rewrite ?A, ?L; unfold upd; cbn [part_eqb]; try reflexivity.
    destruct ((0 <=? x) && (x <=? gp_index r)) eqn:D; [|reflexivity].
    rewrite (Z.mod_small (f PI + x)) by lia. reflexivity.
  - (* LD [I], Vx *)
    rewrite L. destruct (f PI + gp_index r <=? 4095) eqn:C; [|discriminate]. injection E as <- <-.
    eexists. split; [reflexivity|]. intros q. unfold onward, goto, upd. destruct q; rewrite ?A, ?L; unfold upd; cbn [part_eqb]; try reflexivity.
Qed.

Lemma departs_seen op g w1 : operands_ok op -> reference e f w op = Some (g, w1) -> departs8 e f w op ->
  forall f', effect e p (observe c) w op = Some (f', w1) -> ~ (forall q, f' q = g q).
Proof.
  intros Hop E Hd f' E' Hq. assert (Hsp := f_sp).
  destruct op; cbn [reference effect] in *; unfold same_world, needs, done, tick in *; try discriminate.
  all: destruct Hd as [Hd|Hd]; [cbn [registers_named In] in Hd|].
  all: try contradiction.
  all: try (repeat (destruct Hd as [->|Hd]); try contradiction; change (has Vf) with false in E';
    rewrite ?andb_false_r in E'; cbn [andb] in E'; discriminate).
  - (* RET *)
    injection E as <- <-. injection E' as <-. specialize (Hq PSP). unfold goto, upd in Hq. cbn [part_eqb] in Hq.
    rewrite L in Hq. lia.
  - (* CALL *)
    injection E as <- <-. injection E' as <-. specialize (Hq PSP). unfold goto, upd in Hq. cbn [part_eqb] in Hq.
    rewrite L in Hq. lia.
  - (* JP V0 *)
    injection E as <- <-. injection E' as <-. specialize (Hq PPC). unfold goto, upd in Hq. cbn [part_eqb] in Hq.
    unfold rv, v in *. rewrite L in Hq. assert (B := f_v V0 ltac:(discriminate)). unfold u8 in B.
    cbn [operands_ok gp_index] in *. lia.
  - (* timer *)
    destruct (has r) eqn:K; [|discriminate]. injection E as <- <-. rewrite !L in E'. injection E' as <-.
    specialize (Hq (PV (gp_index r))). unfold onward, goto, set, upd in Hq. cbn [part_eqb] in Hq.
    rewrite Z.eqb_refl in Hq. congruence.
  - (* sprite location *)
    destruct (has r) eqn:K; [|discriminate]. apply has_not_vf in K. assert (B := f_v r K). unfold u8 in B.
    cbn [andb] in E'. destruct (match p with Debug => _ | Release => _ end); [|discriminate].
    assert (inj : forall (a a' : part -> Z) (b b' : world), Some (a, b) = Some (a', b') -> a = a') by congruence.
    apply inj in E. apply inj in E'. assert (X : f' PI = g PI) by apply Hq. rewrite <- E, <- E' in X.
    unfold onward, goto, upd, rv, v in X, Hd. rewrite !L in X. cbn [part_eqb] in X. lia.
  - (* LD K, VF *)
    destruct Hd as [->|[]]. change (has Vf) with false in E'. rewrite L in E'.
    destruct (f PKey =? -1); [|discriminate]. injection E as <- <-. injection E' as <-.
    specialize (Hq PPC). unfold advance, upd in Hq. cbn [part_eqb] in Hq. rewrite L in Hq.
    assert (B : u16 (f PPC)) by (rewrite <- L; exact (wf_pc c W)). unfold u16 in B. lia.
  - (* LD K *)
    rewrite L, Hd in E'. cbn [Z.eqb] in E'. rewrite Hd in E. cbn [Z.eqb] in E. injection E as <- <-. injection E' as <-.
    specialize (Hq PPC). unfold advance, upd in Hq. cbn [part_eqb] in Hq. rewrite L in Hq.
    assert (B : u16 (f PPC)) by (rewrite <- L; exact (wf_pc c W)). unfold u16 in B. lia.
Qed.

Lemma ref_fetched op : ref_fetches f op -> fetches p c (encode op).
Proof.
  intros (_ & Hp & E). assert (B : u16 (f PPC)) by (rewrite <- L; exact (wf_pc c W)). unfold u16 in B.
  unfold fetches. rewrite !L. split; [right; lia|]. rewrite (Z.mod_small (f PPC + 1)) by lia. exact E.
Qed.

Lemma step_iff8 op g w1 : ref_fetches f op -> reference e f w op = Some (g, w1) ->
  ((exists c', step e p c w = Ok (c', w1) /\ looks c' g) <-> ~ departs8 e f w op).
Proof.
  intros Hf E. pose proof (step_effect e p c w W He op (proj1 Hf) (ref_fetched op Hf)) as K. unfold delivers in K.
  split.
  - intros (c' & Es & Lc) Hd. destruct (effect e p (observe c) w op) as [[f' w']|] eqn:Ee; [|congruence].
    destruct K as (c2 & E2 & _ & L2). rewrite E2 in Es. assert (c2 = c') as -> by congruence. assert (w' = w1) as -> by congruence.
    apply (departs_seen op g w1 (proj1 Hf) E Hd f' Ee). intros q. rewrite <- L2. apply Lc.
  - intros Hd. destruct (agrees8 op g w1 (proj1 Hf) E Hd) as (f' & Ee & Hq). rewrite Ee in K.
    destruct K as (c' & E2 & _ & L2). exists c'. split; [exact E2|]. intros q. rewrite L2. apply Hq.
Qed.
End Step.

(** ** Runs *)
Lemma ref_run_executes e p ops st st' : env_ok e -> ref_run e ops st st' -> forall c,
  well_formed c -> looks c (fst st) ->
  exists c' h, executes e p c (snd st) h c' (snd st') /\ looks c' (fst st') /\ well_formed c' /\
    map snd h = map encode ops.
Proof.
  intros He X. induction X as [st|op ops f w f1 w1 st Hf E Hd X IH]; intros c W Lc.
  - exists c, []. split; [constructor|auto].
  - cbn [fst snd] in *. destruct (proj2 (step_iff8 e p c w f W He Lc op f1 w1 Hf E) Hd) as (c1 & Es & L1).
    assert (W1 : well_formed c1).
    { pose proof (step_effect e p c w W He op (proj1 Hf) (ref_fetched p c f W Lc op Hf)) as K. unfold delivers in K.
      destruct (effect e p (observe c) w op) as [[f' w']|]; [|congruence].
      destruct K as (c2 & E2 & W2 & _). rewrite E2 in Es. assert (c2 = c1) as <- by congruence. exact W2. }
    destruct (IH c1 W1 L1) as (c' & h & Hx & L' & W' & Hm).
    exists c', ((observe c PPC, encode op) :: h). split; [|split; [exact L'|split; [exact W'|cbn [map snd]; congruence]]].
    econstructor; [exact (ref_fetched p c f W Lc op Hf)|exact Es|exact Hx].
Qed.

Lemma executes_iterate e p c w h c' w' : executes e p c w h c' w' ->
  exists mcs, iterate e p (length h) c w = Ok (mcs, c', w').
Proof.
  induction 1 as [c w|c w word c1 w1 h c2 w2 Hf Es X [mcs IH]].
  - exists []. reflexivity.
  - unfold step in Es. destruct (next e p c w) as [[[m c1'] w1']|] eqn:En; [|discriminate].
    injection Es as -> ->. eexists. cbn [length iterate]. rewrite En. cbn [bind]. rewrite IH. reflexivity.
Qed.
