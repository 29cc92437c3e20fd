(** Soundness of the range check for CHIP-8 code. *)
From Verif Require Import Base Arith ModelMap ModelDisplay ModelChip8 ModelOpsChip8 ModelRunChip8 SpecChip8 SpecChip8Parts ProofChip8 ProofChip8Step SpecHost8 ProofHost8 SpecCheck8.

Lemma operands_okb_ok op : operands_okb op = true -> operands_ok op.
Proof. destruct op; cbn [operands_okb operands_ok]; unfold u8; try tauto; lia. Qed.

Lemma in_registers15 k : In k registers15 <-> 0 <= k < 15.
Proof.
  unfold registers15. rewrite in_map_iff. split.
  - intros (n & <- & H). apply in_seq in H. lia.
  - intros H. exists (Z.to_nat k). split; [lia|]. apply in_seq. lia.
Qed.
Lemma narrower_inside r r' x : narrower r r' = true -> inside x r -> inside x r'.
Proof. unfold narrower, inside. lia. Qed.
Lemma implies_within s g g' : implies g g' = true -> within s g -> within s g'.
Proof.
  unfold implies. rewrite !andb_true_iff. intros [[Hi Hv] Hb] (A & B & C). split; [|split].
  - exact (narrower_inside _ _ _ Hi A).
  - intros k Hk. rewrite forallb_forall in Hv. exact (narrower_inside _ _ _ (Hv k (proj2 (in_registers15 k) Hk)) (B k Hk)).
  - destruct (g_back g') as [b|]; [|exact I]. destruct (g_back g) as [b'|]; [|discriminate]. lia.
Qed.

Lemma has_range x : has x = true -> 0 <= gp_index x < 15.
Proof. destruct x; cbn [has gp_index]; unfold has; cbn [gp_index]; lia. Qed.
Lemma index_range x : 0 <= gp_index x <= 15.
Proof. destruct x; cbn [gp_index]; lia. Qed.
Lemma index_has x : (gp_index x =? 0xf) = false -> has x = true.
Proof. unfold has. pose proof (index_range x). lia. Qed.

Section Within.
Variables (s : part -> Z) (g : ranges).
Hypothesis W : within s g.
Lemma within_rng x : has x = true -> inside (s (PV (gp_index x))) (rng g x).
Proof. intros H. destruct W as (_ & V & _). apply V. apply has_range. exact H. Qed.
End Within.

(** States that agree on what ranges speak of. *)
Lemma within_alike s s' g : s' PI = s PI -> (forall k, 0 <= k < 15 -> s' (PV k) = s (PV k)) -> s' (PStack (s' PSP)) = s (PStack (s PSP)) ->
  within s g -> within s' g.
Proof.
  intros E1 E2 E3 (A & B & C). split; [rewrite E1; exact A|]. split; [intros k Hk; rewrite E2 by exact Hk; apply B; exact Hk|].
  destruct (g_back g); [congruence|exact I].
Qed.
Lemma within_set_v s s' g x r : s' PI = s PI -> (forall k, 0 <= k < 15 -> k <> gp_index x -> s' (PV k) = s (PV k)) -> s' (PStack (s' PSP)) = s (PStack (s PSP)) ->
  inside (s' (PV (gp_index x))) r -> within s g -> within s' (set_v g x r).
Proof.
  intros E1 E2 E3 Hx (A & B & C). split; [cbn [set_v g_i]; rewrite E1; exact A|]. split.
  - intros k Hk. cbn [set_v g_v]. destruct (Z.eqb_spec k (gp_index x)) as [->|N]; [exact Hx|]. rewrite E2 by assumption. apply B. exact Hk.
  - cbn [set_v g_back]. destruct (g_back g); [congruence|exact I].
Qed.
Lemma within_set_i s s' g r : (forall k, 0 <= k < 15 -> s' (PV k) = s (PV k)) -> s' (PStack (s' PSP)) = s (PStack (s PSP)) ->
  inside (s' PI) r -> within s g -> within s' (set_i g r).
Proof.
  intros E2 E3 Hx (A & B & C). split; [exact Hx|]. split; [intros k Hk; cbn [set_i g_v]; rewrite E2 by exact Hk; apply B; exact Hk|].
  cbn [set_i g_back]. destruct (g_back g); [congruence|exact I].
Qed.

Lemma some_pair {A B} (a c : A) (b d : B) : Some (a, b) = Some (c, d) -> a = c /\ b = d.
Proof. intros E. split; congruence. Qed.
Lemma land_first x y : 0 <= x -> Z.land x y <= x.
Proof.
  intros Hx. apply Z.ldiff_le; [exact Hx|]. apply Z.bits_inj'. intros n Hn. rewrite Z.ldiff_spec, Z.land_spec, Z.bits_0.
  destruct (Z.testbit x n), (Z.testbit y n); reflexivity.
Qed.
Lemma land_le a b : 0 <= a -> 0 <= b -> Z.land a b <= a /\ Z.land a b <= b.
Proof.
  intros Ha Hb. split; [apply land_first; assumption|]. rewrite Z.land_comm. apply land_first; assumption.
Qed.

Section Sound.
Variables (e : environment) (p : profile) (s : part -> Z) (w : world) (g : ranges).
Hypothesis W : within s g.

(** A checked instruction has an effect. *)
Lemma safe_effect op : safe p op g = true -> exists s' w', effect e p s w op = Some (s', w').
Proof.
  unfold safe. rewrite andb_true_iff, Bool.negb_true_iff. intros [Hv Hs]. pose proof W as (Wi & _). unfold inside in Wi.
  destruct op; cbn [involves_vf] in Hv; try discriminate Hv; cbn [effect];
    try (apply Bool.orb_false_iff in Hv as [Hv1 Hv2]; pose proof (index_has _ Hv1) as H1; pose proof (index_has _ Hv2) as H2; rewrite H1, H2);
    try (pose proof (index_has _ Hv) as H1; rewrite H1); cbn [needs andb];
    try (eexists; eexists; reflexivity).
  - replace (s PI + 2 <=? 0xfff) with true by lia. eexists; eexists; reflexivity.
  - pose proof (within_rng s g W _ H1) as Hx. unfold inside in Hx. unfold v. destruct p; cbn [needs];
      [match goal with |- context [?x <? 256] => replace (x <? 256) with true by lia end|]; eexists; eexists; reflexivity.
  - destruct (s PKey =? -1); eexists; eexists; reflexivity.
  - destruct p; [match goal with |- context [s PI + ?k <? 65536] => replace (s PI + k <? 65536) with true by lia end|]; eexists; eexists; reflexivity.
  - match goal with |- context [s PI + ?k <=? 0xfff] => replace (s PI + k <=? 0xfff) with true by lia end. eexists; eexists; reflexivity.
Qed.

Lemma needs_some b k r : needs b k = Some r -> b = true /\ k = Some r.
Proof. destruct b; cbn [needs]; [auto|discriminate]. Qed.

Hypothesis Hpc : 0 <= s PPC <= 0xffe.
Hypothesis Hbytes : forall k, 0 <= k < 15 -> u8 (s (PV k)).
Hypothesis Hword : u16 (s PI).

Lemma pc_plus k : 0 <= k <= 4 -> advance s k PPC = s PPC + k.
Proof. intros Hk. unfold advance, upd. cbn [part_eqb]. lia. Qed.

Definition comes_out (op : opcode) (s' : part -> Z) : Prop :=
  (exists g', In (s' PPC, g') (outcomes (s PPC) op g) /\ within s' g') /\
  forall a, s' (PMem a) <> s (PMem a) -> exists r, written op g = Some r /\ inside a r.

(** Only the program counter changes. *)
Lemma moves_on op s' k g' : 0 <= k <= 4 -> (forall q, s' q = advance s k q) ->
  In (s PPC + k, g') (outcomes (s PPC) op g) -> within s g' -> comes_out op s'.
Proof.
  intros Hk E Hin Hw. split.
  - exists g'. split; [rewrite E, pc_plus by exact Hk; exact Hin|]. apply within_alike with s; [rewrite E; reflexivity|intros j _; rewrite E; reflexivity|rewrite !E; reflexivity|exact Hw].
  - intros a Ha. exfalso. apply Ha. rewrite E. reflexivity.
Qed.
(** One register changes. *)
Lemma sets_v op s' x z r : (forall q, s' q = upd (advance s 2) (PV (gp_index x)) z q) ->
  In (s PPC + 2, set_v g x r) (outcomes (s PPC) op g) -> inside z r -> comes_out op s'.
Proof.
  intros E Hin Hz. split.
  - exists (set_v g x r). split; [rewrite E; change (upd (advance s 2) (PV (gp_index x)) z PPC) with (advance s 2 PPC); rewrite pc_plus by lia; exact Hin|].
    apply within_set_v with s; [rewrite E; reflexivity| |rewrite !E; reflexivity| |exact W].
    + intros k _ N. rewrite E. unfold upd at 1. cbn [part_eqb]. replace (gp_index x =? k) with false by lia. reflexivity.
    + rewrite E. unfold upd at 1. cbn [part_eqb]. rewrite Z.eqb_refl. exact Hz.
  - intros a Ha. exfalso. apply Ha. rewrite E. reflexivity.
Qed.
Lemma sets_i op s' z r : (forall q, s' q = upd (advance s 2) PI z q) ->
  In (s PPC + 2, set_i g r) (outcomes (s PPC) op g) -> inside z r -> comes_out op s'.
Proof.
  intros E Hin Hz. split.
  - exists (set_i g r). split; [rewrite E; change (upd (advance s 2) PI z PPC) with (advance s 2 PPC); rewrite pc_plus by lia; exact Hin|].
    apply within_set_i with s; [intros k _; rewrite E; reflexivity|rewrite !E; reflexivity|rewrite E; exact Hz|exact W].
  - intros a Ha. exfalso. apply Ha. rewrite E. reflexivity.
Qed.

(** What a comparison tells. *)
Lemma within_refined x r : has x = true -> inside (s (PV (gp_index x))) r -> within s (set_v g x r).
Proof. intros _ Hx. apply within_set_v with s; auto. Qed.
Lemma is_byte_in x k : has x = true -> s (PV (gp_index x)) = k -> In (set_v g x (k, k)) (is_byte g x k) /\ within s (set_v g x (k, k)).
Proof.
  intros H E. pose proof (within_rng s g W x H) as Hx. unfold inside in Hx. unfold is_byte. replace ((_ <=? k) && (k <=? _)) with true by lia.
  split; [left; reflexivity|]. apply within_refined; [exact H|unfold inside; cbn [fst snd]; lia].
Qed.
Lemma not_byte_in x k : has x = true -> s (PV (gp_index x)) <> k -> exists g', In g' (not_byte g x k) /\ within s g'.
Proof.
  intros H N. pose proof (within_rng s g W x H) as Hx. unfold inside in Hx. unfold not_byte. destruct (rng g x) as [lo hi]. cbn [fst snd] in Hx.
  destruct ((lo =? k) && (hi =? k)) eqn:E1; [lia|]. destruct (lo =? k) eqn:E2; [|destruct (hi =? k) eqn:E3].
  - eexists. split; [left; reflexivity|]. apply within_refined; [exact H|unfold inside; cbn [fst snd]; lia].
  - eexists. split; [left; reflexivity|]. apply within_refined; [exact H|unfold inside; cbn [fst snd]; lia].
  - exists g. split; [left; reflexivity|exact W].
Qed.
Lemma are_same_in x y : has x = true -> has y = true -> s (PV (gp_index x)) = s (PV (gp_index y)) -> exists g', In g' (are_same g x y) /\ within s g'.
Proof.
  intros H1 H2 E. pose proof (within_rng s g W x H1) as Hx. pose proof (within_rng s g W y H2) as Hy. unfold inside in *. unfold are_same. cbn [fst snd].
  destruct (_ <=? _) eqn:L; [|lia]. eexists. split; [left; reflexivity|]. apply within_set_v with s; auto; [unfold inside; cbn [fst snd]; lia|].
  apply within_refined; [exact H1|unfold inside; cbn [fst snd]; lia].
Qed.

Lemma sum_byte_in x k : has x = true -> u8 k -> inside ((s (PV (gp_index x)) + k) mod 256) (sum_byte (rng g x) k).
Proof.
  intros H Hk. pose proof (within_rng s g W x H) as Hx. pose proof (Hbytes _ (has_range x H)) as Hb. unfold u8, inside, sum_byte, any_byte in *. destruct (rng g x) as [lo hi]. cbn [fst snd] in *.
  destruct (hi + k <=? 255) eqn:E1; [cbn [fst snd]; lia|]. destruct (256 <=? lo + k) eqn:E2; cbn [fst snd]; lia.
Qed.

Lemma moves_to op s' t g' : (forall q, s' q = upd s PPC t q) -> In (t, g') (outcomes (s PPC) op g) -> within s g' -> comes_out op s'.
Proof.
  intros E Hin Hw. split.
  - exists g'. split; [rewrite E; exact Hin|]. apply within_alike with s; [rewrite E; reflexivity|intros j _; rewrite E; reflexivity|rewrite !E; reflexivity|exact Hw].
  - intros a Ha. exfalso. apply Ha. rewrite E. reflexivity.
Qed.
(** Things ranges do not speak of change. *)
Lemma quietly op s' : s' PPC = s PPC + 2 -> s' PI = s PI -> (forall k, s' (PV k) = s (PV k)) -> s' PSP = s PSP -> (forall k, s' (PStack k) = s (PStack k)) ->
  In (s PPC + 2, g) (outcomes (s PPC) op g) -> (forall a, s' (PMem a) <> s (PMem a) -> exists r, written op g = Some r /\ inside a r) -> comes_out op s'.
Proof.
  intros E1 E2 E3 E4 E5 Hin Hm. split; [|exact Hm]. exists g. rewrite E1. split; [exact Hin|].
  apply within_alike with s; [exact E2|intros k _; apply E3|rewrite E4, E5; reflexivity|exact W].
Qed.

Lemma in_to k x (L : list ranges) g' : In g' L -> x = s PPC + k -> In (x, g') (map (fun y => (s PPC + k, y)) L).
Proof. intros Hin ->. apply in_map_iff. exists g'. auto. Qed.

Lemma effect_outcome op s' w' : operands_ok op -> safe p op g = true -> effect e p s w op = Some (s', w') -> (forall k, 0 <= k < 15 -> u8 (s' (PV k))) -> comes_out op s'.
Proof.
  intros Ho Hs E Hb'. pose proof W as (Wi & _ & Wb). unfold inside in Wi. unfold safe in Hs. apply andb_prop in Hs as [_ Hs].
  destruct op; cbn [effect] in E; try discriminate E;
    try (apply needs_some in E as [Hn E]); unfold done in E; try (apply some_pair in E as [<- <-]); cbn [operands_ok] in Ho.
  - (* Cls *) apply quietly; try reflexivity; [exact (pc_plus 2 ltac:(lia))|left; reflexivity|]. intros a Ha. exfalso. apply Ha. reflexivity.
  - (* Ret *) destruct (g_back g) as [b|] eqn:Eb; [|discriminate Hs]. apply moves_to with (s (PStack (s PSP))) g; [reflexivity| |exact W].
    cbn [outcomes]. rewrite Eb, Wb. left. reflexivity.
  - (* Sys *) apply moves_on with 2 g; [lia|reflexivity|left; reflexivity|exact W].
  - (* Call *) split.
    + exists (set_back g (s PPC)). split; [left; reflexivity|]. pose proof W as (A & B & _). split; [exact A|]. split; [exact B|].
      cbn [set_back g_back]. unfold upd. cbn [part_eqb]. rewrite Z.eqb_refl. reflexivity.
    + intros a0 Ha. exfalso. apply Ha. reflexivity.
  - (* Jp *) apply moves_to with a g; [reflexivity|left; reflexivity|exact W].
  - (* JpV0 *) assert (H0 : has V0 = true) by reflexivity. pose proof (within_rng s g W V0 H0) as H1. unfold inside in H1. unfold v.
    apply moves_to with ((a + s (PV (gp_index V0))) mod 4096) (set_v g V0 (s (PV (gp_index V0)), s (PV (gp_index V0)))); [reflexivity| |apply within_refined; [exact H0|unfold inside; cbn [fst snd]; lia]].
    cbn [outcomes]. apply in_map_iff. exists (Z.to_nat (s (PV (gp_index V0)) - fst (rng g V0))).
    replace (fst (rng g V0) + Z.of_nat (Z.to_nat (s (PV (gp_index V0)) - fst (rng g V0)))) with (s (PV (gp_index V0))) by lia.
    split; [reflexivity|]. apply in_seq. lia.
  - (* Annn *) eapply sets_i; [reflexivity|left; reflexivity|unfold inside; cbn [fst snd]; lia].
  - (* 6xkk *) eapply sets_v; [reflexivity|left; reflexivity|unfold inside; cbn [fst snd]; lia].
  - (* 8xy0 *) apply andb_prop in Hn as [H1 H2]. eapply sets_v; [reflexivity|left; reflexivity|exact (within_rng s g W _ H2)].
  - (* Fx18 *) apply quietly; try reflexivity; [exact (pc_plus 2 ltac:(lia))|left; reflexivity|]. intros a Ha. exfalso. apply Ha. reflexivity.
  - (* Fx15 *) apply quietly; try reflexivity; [exact (pc_plus 2 ltac:(lia))|left; reflexivity|]. intros a Ha. exfalso. apply Ha. reflexivity.
  - (* Fx07 *) specialize (Hb' _ (has_range _ Hn)). unfold upd in Hb' at 1. cbn [part_eqb] in Hb'. rewrite Z.eqb_refl in Hb'.
    eapply sets_v; [reflexivity|left; reflexivity|unfold inside, any_byte, u8 in *; cbn [fst snd]; lia].
  - (* Fx33 *) apply quietly; try reflexivity; [exact (pc_plus 2 ltac:(lia))|left; reflexivity|]. intros a Ha. eexists. split; [reflexivity|].
    cbn [part_eqb] in Ha. unfold inside. cbn [fst snd].
    destruct (a =? s PI) eqn:E1; [lia|]. destruct (a =? s PI + 1) eqn:E2; [lia|]. destruct (a =? s PI + 2) eqn:E3; [lia|]. exfalso. apply Ha. reflexivity.
  - (* Fx29 *) apply andb_prop in Hn as [H1 H2]. pose proof (within_rng s g W _ H1) as Hx. pose proof (Hbytes _ (has_range _ H1)) as Hy. unfold inside, u8, v in *.
    eapply sets_i; [reflexivity|left; reflexivity|]. unfold inside. destruct (5 * snd (rng g r) <? 256) eqn:El; cbn [fst snd]; lia.
  - (* Fx0A *) split.
    + destruct (s PKey =? -1).
      * apply some_pair in E as [<- <-]. exists (set_v g r any_byte). rewrite pc_plus by lia. split; [left; reflexivity|]. pose proof W as (A & B & C).
        split; [exact A|]. split; [|exact C]. intros k Hk. cbn [set_v g_v]. specialize (Hbytes k Hk). specialize (B k Hk).
        change (advance s 2 (PV k)) with (s (PV k)). destruct (k =? gp_index r); [unfold inside, any_byte, u8 in *; cbn [fst snd]; lia|exact B].
      * apply needs_some in E as [Hn E]. apply some_pair in E as [<- <-]. specialize (Hb' _ (has_range _ Hn)). unfold upd in Hb' at 1. cbn [part_eqb] in Hb'. rewrite Z.eqb_refl in Hb'.
        eapply (sets_v (LdK r)); [reflexivity|left; reflexivity|unfold inside, any_byte, u8 in *; cbn [fst snd]; lia].
    + intros a Ha. exfalso. apply Ha. destruct (s PKey =? -1); [|apply needs_some in E as [Hn E]]; apply some_pair in E as [<- <-]; reflexivity.
  - (* 7xkk *) eapply sets_v; [reflexivity|left; reflexivity|apply sum_byte_in; assumption].
  - (* Fx1E *) pose proof (within_rng s g W _ Hn) as Hx. pose proof (Hbytes _ (has_range _ Hn)) as Hy. unfold inside, u8, u16, v in *.
    eapply sets_i; [reflexivity|left; reflexivity|]. unfold inside. destruct (snd (g_i g) + snd (rng g r) <=? 65535) eqn:El; cbn [fst snd]; lia.
  - (* And *) apply andb_prop in Hn as [H1 H2]. pose proof (within_rng s g W _ H1) as Hx. pose proof (within_rng s g W _ H2) as Hy.
    pose proof (Hbytes _ (has_range _ H1)) as Bx. pose proof (Hbytes _ (has_range _ H2)) as By.
    eapply sets_v; [reflexivity|left; reflexivity|]. unfold inside, u8, v in *. cbn [fst snd].
    pose proof (Z.land_nonneg (s (PV (gp_index dest))) (s (PV (gp_index src)))) as [_ L1]. specialize (L1 ltac:(lia)).
    pose proof (land_le (s (PV (gp_index dest))) (s (PV (gp_index src))) ltac:(lia) ltac:(lia)). lia.
  - (* Or *) apply andb_prop in Hn as [H1 H2]. specialize (Hb' _ (has_range _ H1)). unfold upd in Hb' at 1. cbn [part_eqb] in Hb'. rewrite Z.eqb_refl in Hb'.
    eapply sets_v; [reflexivity|left; reflexivity|unfold inside, any_byte, u8 in *; cbn [fst snd]; lia].
  - (* Xor *) apply andb_prop in Hn as [H1 H2]. specialize (Hb' _ (has_range _ H1)). unfold upd in Hb' at 1. cbn [part_eqb] in Hb'. rewrite Z.eqb_refl in Hb'.
    eapply sets_v; [reflexivity|left; reflexivity|unfold inside, any_byte, u8 in *; cbn [fst snd]; lia].
  - (* 5xy0 *) apply andb_prop in Hn as [H1 H2]. unfold v in *. destruct (s (PV (gp_index dest)) =? s (PV (gp_index src))) eqn:Eq.
    + destruct (are_same_in dest src H1 H2 ltac:(lia)) as (g' & Hg & Wg). apply moves_on with 4 g'; [lia|reflexivity| |exact Wg]. apply in_or_app. left. apply in_to; auto.
    + apply moves_on with 2 g; [lia|reflexivity| |exact W]. apply in_or_app. right. left. reflexivity.
  - (* 3xkk *) unfold v in *. destruct (s (PV (gp_index r)) =? value) eqn:Eq.
    + destruct (is_byte_in r value Hn ltac:(lia)) as (Hg & Wg). apply moves_on with 4 (set_v g r (value, value)); [lia|reflexivity| |exact Wg]. apply in_or_app. left. apply in_to; auto.
    + destruct (not_byte_in r value Hn ltac:(lia)) as (g' & Hg & Wg). apply moves_on with 2 g'; [lia|reflexivity| |exact Wg]. apply in_or_app. right. apply in_to; auto.
  - (* 9xy0 *) apply andb_prop in Hn as [H1 H2]. unfold v in *. destruct (s (PV (gp_index dest)) =? s (PV (gp_index src))) eqn:Eq.
    + destruct (are_same_in dest src H1 H2 ltac:(lia)) as (g' & Hg & Wg). apply moves_on with 2 g'; [lia|reflexivity| |exact Wg]. apply in_or_app. left. apply in_to; auto.
    + apply moves_on with 4 g; [lia|reflexivity| |exact W]. apply in_or_app. right. left. reflexivity.
  - (* 4xkk *) unfold v in *. destruct (s (PV (gp_index r)) =? value) eqn:Eq.
    + destruct (is_byte_in r value Hn ltac:(lia)) as (Hg & Wg). apply moves_on with 2 (set_v g r (value, value)); [lia|reflexivity| |exact Wg]. apply in_or_app. left. apply in_to; auto.
    + destruct (not_byte_in r value Hn ltac:(lia)) as (g' & Hg & Wg). apply moves_on with 4 g'; [lia|reflexivity| |exact Wg]. apply in_or_app. right. apply in_to; auto.
  - (* Fx65 *) split; [|intros a Ha; exfalso; apply Ha; reflexivity].
    eexists. split; [left; rewrite pc_plus by lia; reflexivity|]. pose proof W as (A & B & C). split; [exact A|]. split; [|exact C].
    intros k Hk. specialize (Hb' k Hk). cbn [g_v]. destruct (k <=? gp_index r) eqn:El; [unfold inside, any_byte, u8 in *; cbn [fst snd]; lia|].
    rewrite Bool.andb_false_r. apply B. exact Hk.
  - (* Fx55 *) apply quietly; try reflexivity; [exact (pc_plus 2 ltac:(lia))|left; reflexivity|]. intros a Ha. eexists. split; [reflexivity|].
    unfold inside. cbn [fst snd]. destruct ((s PI <=? a) && (a <=? s PI + gp_index r)) eqn:E1; [lia|]. exfalso. apply Ha. reflexivity.
  - (* Ex9E *) destruct (s PKey =? v s r); [apply moves_on with 4 g|apply moves_on with 2 g]; try lia; try reflexivity; try exact W; [left|right; left]; reflexivity.
  - (* ExA1 *) destruct (s PKey =? v s r); [apply moves_on with 2 g|apply moves_on with 4 g]; try lia; try reflexivity; try exact W; [right; left|left]; reflexivity.
  - (* Cxkk *) specialize (Hb' _ (has_range _ Hn)). unfold upd in Hb' at 1. cbn [part_eqb] in Hb'. rewrite Z.eqb_refl in Hb'.
    eapply sets_v; [reflexivity|left; reflexivity|]. unfold inside. cbn [fst snd]. unfold u8 in *. split; [lia|]. rewrite Z.land_comm. apply land_first. lia.
Qed.
End Sound.

(** ** Any number of instructions *)
Section Run.
Variables (e : environment) (p : profile) (l : listing8) (text : Z -> Z).
Hypothesis He : env_ok e.
Hypothesis Hpass : passes8 p text l = true.

Definition sane (c : chip8) : Prop :=
  well_formed c /\ (exists n, noted8 l (observe c PPC) = Some n /\ within (observe c) (known n)) /\
  forall a, observe c (PMem a) <> text a -> may_write l a.

Lemma noted8_ok a n : noted8 l a = Some n -> at8 n = a /\ In n l /\ instruction_ok8 p text l n = true.
Proof.
  intros E. unfold noted8 in E. apply find_some in E as [Hin Ha]. apply Z.eqb_eq in Ha. split; [exact Ha|]. split; [exact Hin|].
  unfold passes8 in Hpass. rewrite forallb_forall in Hpass. exact (Hpass n Hin).
Qed.

Lemma code_kept8 c n a : (forall a, observe c (PMem a) <> text a -> may_write l a) -> In n l -> at8 n <= a <= at8 n + 1 -> observe c (PMem a) = text a.
Proof.
  intros K Hin Ha. destruct (Z.eq_dec (observe c (PMem a)) (text a)) as [E|N]; [exact E|]. exfalso.
  destruct (K a N) as (n1 & [lo hi] & Hin1 & Ew & Hw). unfold passes8 in Hpass. rewrite forallb_forall in Hpass. specialize (Hpass n1 Hin1).
  unfold instruction_ok8 in Hpass. rewrite Ew in Hpass. apply andb_prop in Hpass as [H1 _]. apply andb_prop in H1 as [_ H1].
  rewrite forallb_forall in H1. specialize (H1 n Hin). unfold inside in Hw. cbn [fst snd] in Hw. lia.
Qed.

Lemma wf_bytes c k : well_formed c -> 0 <= k < 15 -> u8 (observe c (PV k)).
Proof.
  intros W Hk. destruct (wf_gp c W) as [L F]. cbn [observe]. unfold item. replace (k <? 0) with false by lia.
  rewrite Forall_forall in F. apply F. apply nth_In. lia.
Qed.

Lemma sane_step c w : sane c -> exists c' w', step e p c w = Ok (c', w') /\ sane c'.
Proof.
  intros (Wf & (n & En & Wn) & Hm). destruct (noted8_ok _ _ En) as (Ha & Hin & Hok). unfold instruction_ok8 in Hok.
  rewrite !andb_true_iff in Hok. destruct Hok as ((((((B1 & B2) & B3) & B4) & B5) & B6) & B7). apply operands_okb_ok in B3.
  destruct (safe_effect e p (observe c) w (known n) Wn (op8 n) B5) as (s' & w' & E).
  assert (F : fetches p c (encode (op8 n))).
  { split; [right; lia|]. rewrite <- Ha. rewrite (Z.mod_small (at8 n + 1)) by lia. rewrite !(code_kept8 c n) by (assumption || lia). lia. }
  pose proof (step_effect e p c w Wf He (op8 n) B3 F) as X. rewrite E in X. destruct X as (c' & Es & W' & Lk).
  exists c', w'. split; [exact Es|]. split; [exact W'|].
  destruct (effect_outcome e p (observe c) w (known n) Wn ltac:(lia) (fun k Hk => wf_bytes c k Wf Hk) (wf_i c Wf) (op8 n) s' w' B3 B5 E) as ((g' & Hg & Wg) & Hw).
  { intros k Hk. rewrite <- (Lk (PV k)). apply wf_bytes; assumption. }
  rewrite Ha in B7. rewrite forallb_forall in B7. specialize (B7 _ Hg). unfold goes8 in B7. cbn [fst snd] in B7.
  rewrite <- (Lk PPC) in B7. destruct (noted8 l (observe c' PPC)) as [n'|] eqn:En'; [|discriminate].
  assert (Wc : within (observe c') g').
  { apply within_alike with s'; [apply Lk|intros k _; apply Lk|rewrite !Lk; reflexivity|exact Wg]. }
  split; [exists n'; split; [reflexivity|exact (implies_within _ _ _ B7 Wc)]|].
  intros a Na. rewrite (Lk (PMem a)) in Na. destruct (Z.eq_dec (s' (PMem a)) (observe c (PMem a))) as [Eq|N]; [apply Hm; congruence|].
  destruct (Hw a N) as (r & Er & Hr). exists n, r. auto.
Qed.
Lemma sane_key c k : sane c -> sane (with_interrupt c k).
Proof.
  intros (Wf & (n & En & Wn) & Hm). split; [apply key_wf; exact Wf|]. split; [|intros a Ha; apply Hm; rewrite (observe_key c k) in Ha; exact Ha].
  exists n. rewrite (observe_key c k). split; [exact En|].
  apply within_alike with (observe c); [apply (observe_key c k)|intros j _; apply (observe_key c k)|rewrite !(observe_key c k); reflexivity|exact Wn].
Qed.
Lemma sane_plays K m : forall n c w, sane c -> exists c' w', play e p K n m c w = Ok (c', w') /\ sane c'.
Proof.
  induction m as [|m IH]; intros n c w H; [exists c, w; split; [reflexivity|exact H]|].
  destruct (sane_step (with_interrupt c (K n)) w (sane_key c (K n) H)) as (c1 & w1 & Es & H1). cbn [play]. rewrite Es. cbn [bind]. apply IH. exact H1.
Qed.
End Run.
