(** Soundness of the check of SpecPort8.v. *)
From Verif Require Import Base Arith ModelMap ModelStep ModelDisplay ModelChip8 ModelOpsChip8 ModelRunChip8 SpecMap Link6502
  SpecChip8 SpecChip8Parts SpecChip8Run ProofChip8 ProofChip8Step ProofChip8Reach ProofChip8Run PropertiesChip8Parts PropertiesChip8Run
  SpecReference8 ProofReference8 SpecRoutines8 ProofRoutines8 SpecReplace8 SpecLanguage8 SpecHost8 ProofHost8 SpecCheck8 ProofCheck8 SpecPort8.

Section Port8.
Variables (e : environment) (p : profile) (held : bool) (l : listing8) (text : Z -> Z).
Hypothesis He : env_ok e.
Hypothesis Hpass : passes8 p text l = true.
Hypothesis Hport : portable_code held l = true.

(** One instruction: the reference says what it does, and it does not depart. *)
Lemma ported_defined c f w : sane l text c -> looks c f -> (held = true -> f PKey <> -1) ->
  exists op g w', (exists n, In n l /\ op8 n = op) /\ ref_fetches f op /\ reference e f w op = Some (g, w') /\ ~ departs8 e f w op.
Proof.
  intros (Wf & (n & En & Wn) & Hm) Lf Hk. destruct (noted8_ok p l text Hpass _ _ En) as (Ha & Hin & Hok). unfold instruction_ok8 in Hok.
  rewrite !andb_true_iff in Hok. destruct Hok as ((((((B1 & B2) & B3) & B4) & B5) & _) & _). apply operands_okb_ok in B3.
  unfold portable_code in Hport. rewrite forallb_forall in Hport. pose proof (Hport n Hin) as Hc.
  assert (Hf : ref_fetches f (op8 n)).
  { split; [exact B3|]. rewrite <- !Lf. split; [lia|]. rewrite <- Ha, !(code_kept8 p l text Hpass c n) by (assumption || lia). lia. }
  unfold safe in B5. apply andb_prop in B5 as [Bv B5]. destruct Wn as (Wi & Wv & _). rewrite (Lf PI) in Wi.
  assert (Nv : ~ In Vf (registers_named (op8 n))).
  { intros H. destruct (op8 n); cbn [registers_named In] in H; try contradiction H; try discriminate Hc;
      repeat match goal with H : _ \/ _ |- _ => destruct H as [H|H] end; try contradiction H; subst; cbn in Bv; try discriminate Bv;
      rewrite ?orb_true_r in Bv; discriminate Bv. }
  assert (Rv : forall x, x <> Vf -> inside (f (PV (gp_index x))) (rng (known n) x)).
  { intros x Hx. rewrite <- Lf. apply Wv. destruct x; cbn; try lia. contradiction. }
  assert (X : (exists g w', reference e f w (op8 n) = Some (g, w')) /\ ~ departs8 e f w (op8 n)).
  { unfold inside in *. unfold departs8. split.
    - destruct (op8 n); cbn [common] in Hc; try discriminate Hc; cbn [reference]; unfold same_world; try (eexists; eexists; reflexivity).
      + replace (f PI + 2 <=? 0xfff) with true by lia. eexists; eexists; reflexivity.
      + match goal with |- context [f PI + ?z <=? 0xfff] => replace (f PI + z <=? 0xfff) with true by lia end. eexists; eexists; reflexivity.
      + match goal with |- context [f PI + ?z <=? 0xfff] => replace (f PI + z <=? 0xfff) with true by lia end. eexists; eexists; reflexivity.
    - intros [H|H]; [exact (Nv H)|]. destruct (op8 n) as [] eqn:Eop; cbn [common] in Hc; try discriminate Hc; try contradiction H.
      + specialize (Rv V0 ltac:(discriminate)). unfold rv in H. lia.
      + unfold rv in H. match goal with H : 16 <= f (PV (gp_index ?x)) |- _ => assert (Hx : x <> Vf) by (intros ->; apply Nv; left; reflexivity); specialize (Rv x Hx) end. lia.
      + exact (Hk Hc H). }
  destruct X as ((g & w' & E) & Hd). exists (op8 n), g, w'. split; [exists n; auto|auto].
Qed.

Lemma ported_step c f w : sane l text c -> looks c f -> (held = true -> f PKey <> -1) ->
  exists op g w' c', (exists n, In n l /\ op8 n = op) /\ ref_fetches f op /\ reference e f w op = Some (g, w') /\ ~ departs8 e f w op /\
    step e p c w = Ok (c', w') /\ looks c' g /\ sane l text c'.
Proof.
  intros S Lf Hk. destruct (ported_defined c f w S Lf Hk) as (op & g & w' & Ho & Hf & E & Hd).
  destruct (proj2 (step_iff8 e p c w f (proj1 S) He Lf op g w' Hf E) Hd) as (c' & Es & Lg).
  destruct (sane_step e p l text He Hpass c w S) as (c2 & w2 & E2 & S2). exists op, g, w', c'. split; [exact Ho|]. repeat (split; [assumption|]).
  assert (c2 = c') as <- by congruence. exact S2.
Qed.

Lemma looks_seen c f k : looks c f -> looks (with_interrupt c k) (seen f k).
Proof. intros H q. rewrite (observe_key c k). unfold seen, upd. destruct (part_eqb PKey q); [reflexivity|apply H]. Qed.
Lemma key_seen f k : k <> None -> seen f k PKey <> -1.
Proof. intros H. unfold seen, upd. cbn [part_eqb]. destruct k as [[k]|]; [destruct k; cbn; discriminate|contradiction]. Qed.

Lemma ported_plays K m : keeps_held held K -> forall n c f w, sane l text c -> looks c f ->
  exists c' f' w', play e p K n m c w = Ok (c', w') /\ ref_plays e K n m (f, w) (f', w') /\ looks c' f' /\ sane l text c'.
Proof.
  intros HK. induction m as [|m IH]; intros n c f w S Lf.
  - exists c, f, w. split; [reflexivity|]. split; [constructor|auto].
  - destruct (ported_step (with_interrupt c (K n)) (seen f (K n)) w (sane_key l text c (K n) S) (looks_seen c f (K n) Lf)) as (op & g & w1 & c1 & _ & Hf & E & _ & Es & Lg & S1).
    { intros H. apply key_seen. exact (HK H n). }
    destruct (IH (Datatypes.S n) c1 g w1 S1 Lg) as (c' & f' & w' & Ep & X & L' & S'). exists c', f', w'. cbn [play]. rewrite Es. cbn [bind].
    split; [exact Ep|]. split; [econstructor; eassumption|auto].
Qed.

Lemma ported_ref_run m : forall c f w, sane l text c -> looks c f -> (held = true -> f PKey <> -1) ->
  exists ops f' w', length ops = m /\ ref_run e ops (f, w) (f', w') /\ Forall (fun op => exists n, In n l /\ op8 n = op) ops.
Proof.
  induction m as [|m IH]; intros c f w S Lf Hk.
  - exists [], f, w. split; [reflexivity|]. split; constructor.
  - destruct (ported_step c f w S Lf Hk) as (op & g & w1 & c1 & Ho & Hf & E & Hd & Es & Lg & S1).
    destruct (IH c1 g w1 S1 Lg) as (ops & f' & w' & Hl & X & F).
    + assert (Eg : g PKey = f PKey); [|rewrite Eg; exact Hk].
      clear - E. destruct op; cbn [reference] in E; unfold same_world in E;
        repeat match type of E with (if ?b then _ else _) = _ => destruct b; [|discriminate E] end;
        assert (Eg := f_equal (option_map (fun r => fst r PKey)) E); cbn [option_map fst] in Eg;
        assert (Eg' : forall a b : Z, Some a = Some b -> b = a) by congruence; apply Eg' in Eg; rewrite Eg;
        unfold skip, onward, goto, flagged, set, upd; cbn [part_eqb]; try reflexivity.
      destruct (f PKey =? -1); reflexivity.
    + exists (op :: ops), f', w'. split; [cbn [length]; congruence|]. split; [econstructor; eassumption|constructor; assumption].
Qed.
End Port8.

(** The reference machine does one thing only. *)
Lemma ref_plays_det e K n m st st1 : ref_plays e K n m st st1 -> forall st2, ref_plays e K n m st st2 -> st2 = st1.
Proof.
  induction 1 as [n st|n m f w op f1 w1 st Hf E X IH]; intros st2 Y; inversion Y; subst; [reflexivity|].
  match goal with H : ref_fetches _ ?o |- _ => assert (o = op) as ->
    by (destruct Hf as (Ho & _ & Ee); destruct H as (Ho' & _ & Ee'); apply C38_encode_injective; [assumption|assumption|congruence]) end.
  apply IH. match goal with H : reference _ _ _ op = Some (?a, ?b), Y : ref_plays _ _ _ _ (?a, ?b) _ |- _ => rewrite E in H; assert (a = f1) as -> by congruence; assert (b = w1) as -> by congruence; exact Y end.
Qed.
