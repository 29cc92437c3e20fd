(** C77 (CHIP-8): what each microcode operation does, and where that is not
    what its documentation says. *)
From Verif Require Import Base Arith ModelMap ModelU12 ModelDisplay ModelChip8 ModelOpsChip8 ModelRunChip8 SpecMap Link6502.
From Verif Require Import SpecChip8 SpecChip8Parts ProofChip8 ProofChip8Parts ProofChip8Step ProofChip8Reach SpecMicrocode8 ProofMicrocode8.

(** Every operation on every machine: exactly the effect [actual] on every
    part of the machine and on the clock, or a panic where it has none. *)
Theorem C77_chip8_effect : forall e p c w mc g w', well_formed c -> mc_operands mc ->
  actual e p (observe c) w mc = Some (g, w') ->
  exists c', execute_mut e p (c, w) mc = Ok (c', w') /\ well_formed c' /\ looks c' g.
Proof. intros e p c w mc g w' W Hm E. pose proof (exact e p c w W mc Hm) as X. rewrite E in X. exact X. Qed.

Theorem C77_chip8_panics_iff : forall e p c w mc, well_formed c -> mc_operands mc ->
  (execute_mut e p (c, w) mc = Panic <-> actual e p (observe c) w mc = None).
Proof.
  intros e p c w mc W Hm. pose proof (exact e p c w W mc Hm) as X. split; intros E.
  - destruct (actual e p (observe c) w mc) as [[g w']|]; [|reflexivity]. destruct X as (c' & E1 & _). congruence.
  - rewrite E in X. exact X.
Qed.

(** The operations that do not do what is documented. *)
Definition departs_mc (p : profile) (f : part -> Z) (mc : microcode) : Prop :=
  match mc with
  | Write8bitRegister (ByteGp Vf) _ | Inc8bitRegister (ByteGp Vf) _ => True
  | Dec8bitRegister (ByteGp _) v | Dec16bitRegister _ v => v <> 0
  | Dec8bitRegister (ByteTimer _) _ => True
  | PushStack _ | PopStack _ => True
  | SetDisplayRange (x, y) (x', y') on =>
      (p = Debug /\ (x' < x \/ y' < y)) \/
      (exists a b, on_screen a b = true /\ f (PPixel a b) <> (if on then 1 else 0) /\
         in_rectangle (x, y) (x', y') a b <>
         in_reading_order (x, y) ((64 * (y' - y) + (x' - x) + 1) mod 2 ^ 64) a b)
  | _ => False
  end.

Lemma observe_gp_u8 c r : well_formed c -> u8 (observe c (PV (gp_index r))).
Proof.
  intros W. cbn [observe]. destruct (wf_gp c W) as [_ G]. unfold item.
  destruct (_ <? 0); [unfold u8; lia|]. destruct (nth_in_or_default (Z.to_nat (gp_index r)) (c8_gp c) 0) as [H|H].
  - rewrite Forall_forall in G. exact (G _ H).
  - rewrite H. unfold u8; lia.
Qed.

Lemma observe_word_u16 c r : well_formed c -> u16 (observe c (register_name r)).
Proof. intros W. destruct r; cbn [observe register_name]; apply W. Qed.

Lemma upd_same f q v q' : v = f q -> upd f q v q' = f q'.
Proof.
  intros ->. unfold upd. destruct (part_eqb q q') eqn:E; [|reflexivity]. f_equal.
  destruct q, q'; cbn [part_eqb] in E; (discriminate || reflexivity || (f_equal; lia)).
Qed.

(** An operation does what is documented if and only if it is not in that
    list. *)
Theorem C77_chip8_documented_iff : forall e p c w mc g w', well_formed c -> mc_operands mc ->
  documented e (observe c) w mc = Some (g, w') ->
  ((exists c', execute_mut e p (c, w) mc = Ok (c', w') /\ looks c' g) <-> ~ departs_mc p (observe c) mc).
Proof.
  intros e p c w mc g w' W Hm E. pose proof (exact e p c w W mc Hm) as X.
  assert (Same : actual e p (observe c) w mc = documented e (observe c) w mc -> exists c', execute_mut e p (c, w) mc = Ok (c', w') /\ looks c' g).
  { intros EE. rewrite EE, E in X. destruct X as (c' & E1 & _ & L). exists c'. auto. }
  assert (inj : forall (a a' : part -> Z) (b b' : world), Some (a, b) = Some (a', b') -> a' = a /\ b' = b)
    by (intros; split; congruence).
  assert (Tick : forall k, after_reads w (Datatypes.S k) <> w).
  { intros k H. apply (f_equal w_time) in H. cbn [after_reads w_time] in H. lia. }
  destruct mc as [a v|[r|[|]] v|[r|[|]] v|[r|[|]] v|r v|r v|r v|v|v|k| |[x y] v|[x y] [x' y'] v]; cbn [departs_mc mc_operands] in *;
    try (split; [intros _ H; exact H|intros _; apply Same; reflexivity]).
  - destruct r; try (split; [intros _ H; exact H|intros _; apply Same; reflexivity]).
    split; [|tauto]. intros (c' & E1 & _). cbn [actual meets] in X. congruence.
  - destruct r; try (split; [intros _ H; exact H|intros _; apply Same; reflexivity]).
    split; [|tauto]. intros (c' & E1 & _). cbn [actual meets] in X. congruence.
  - cbn [documented] in E. apply inj in E as [-> ->]. cbn [actual meets execute_mut] in *.
    pose proof (observe_gp_u8 c r W) as Hu. unfold u8 in *. split.
    + intros (c' & E1 & L) Hv. assert (c' = c) as -> by congruence. specialize (L (PV (gp_index r))).
      unfold upd in L. replace (part_eqb (PV (gp_index r)) (PV (gp_index r))) with true in L by (cbn [part_eqb]; lia).
      set (o := observe c (PV (gp_index r))) in *. clearbody o. lia.
    + intros Hv. assert (v = 0) as -> by lia. exists c. split; [reflexivity|]. intros q. symmetry. apply upd_same.
      rewrite Z.sub_0_r. apply Z.mod_small. lia.
  - split; [|tauto]. intros (c' & E1 & _). cbn [documented] in E. apply inj in E as [_ ->]. cbn [execute_mut] in E1.
    exfalso. apply (Tick 1%nat). congruence.
  - split; [|tauto]. intros (c' & E1 & _). cbn [documented] in E. apply inj in E as [_ ->]. cbn [execute_mut] in E1.
    exfalso. apply (Tick 1%nat). congruence.
  - cbn [documented] in E. apply inj in E as [-> ->]. cbn [actual meets execute_mut] in *.
    pose proof (observe_word_u16 c r W) as Hu. unfold u16 in *. split.
    + intros (c' & E1 & L) Hv. assert (c' = c) as -> by congruence. specialize (L (register_name r)).
      unfold upd in L. replace (part_eqb (register_name r) (register_name r)) with true in L by (destruct r; reflexivity).
      set (o := observe c (register_name r)) in *. clearbody o. lia.
    + intros Hv. assert (v = 0) as -> by lia. exists c. split; [reflexivity|]. intros q. symmetry. apply upd_same.
      rewrite Z.sub_0_r. apply Z.mod_small. lia.
  - split; [|tauto]. intros (c' & E1 & L). cbn [documented] in E. apply inj in E as [-> ->].
    cbn [actual meets] in X. destruct X as (c2 & E2 & _ & L2). assert (c2 = c') as -> by congruence.
    specialize (L PSP). rewrite L2 in L. unfold upd in L. cbn [part_eqb observe] in L. pose proof (wf_sp c W). exfalso. lia.
  - split; [|tauto]. intros (c' & E1 & L). cbn [documented] in E. apply inj in E as [-> ->].
    cbn [actual meets] in X. destruct X as (c2 & E2 & _ & L2). assert (c2 = c') as -> by congruence.
    specialize (L PSP). rewrite L2 in L. unfold upd in L. cbn [part_eqb observe] in L. pose proof (wf_sp c W). exfalso. lia.
  - cbn [documented] in E. apply inj in E as [-> ->]. cbn [actual] in X.
    set (n := (64 * (y' - y) + (x' - x) + 1) mod 2 ^ 64) in *. clearbody n.
    destruct (match p with Debug => _ | Release => _ end) eqn:Eb; cbn [meets] in X.
    + assert (Hb : ~ (p = Debug /\ (x' < x \/ y' < y))) by (destruct p; [lia|intros [? _]; discriminate]).
      destruct X as (c2 & E2 & _ & L2). split.
      * intros (c' & E1 & L) [H|(a & b & Hs & Hd & Hne)]; [tauto|]. assert (c2 = c') as -> by congruence.
        specialize (L (PPixel a b)). rewrite L2 in L. unfold paint in L. rewrite Hs in L. cbn [andb] in L.
        destruct (in_rectangle _ _ a b), (in_reading_order _ _ a b); congruence.
      * intros H. exists c2. split; [exact E2|]. intros q. rewrite L2. destruct q as [| | |?|?|?|a b| | | | |]; try reflexivity.
        unfold paint. destruct (on_screen a b) eqn:Hs; [|reflexivity]. cbn [andb].
        destruct (Z.eq_dec (observe c (PPixel a b)) (if v then 1 else 0)) as [Ho|Ho].
        { rewrite Ho. destruct (in_rectangle _ _ a b), (in_reading_order _ _ a b); reflexivity. }
        destruct (Bool.bool_dec (in_rectangle (x, y) (x', y') a b) (in_reading_order (x, y) n a b)) as [K|K].
        { rewrite K. reflexivity. }
        exfalso. apply H. right. exists a, b. auto.
    + split.
      * intros (c' & E1 & _). congruence.
      * intros H. exfalso. apply H. left. destruct p; [split; [reflexivity|lia]|discriminate].
Qed.

(** Ranges that are documented rectangles: within one row, or of whole rows. *)
Theorem C77_chip8_rows : forall p f x y x' y' on,
  0 <= x <= x' -> x' < 64 -> 0 <= y <= y' -> y' < 32 -> y = y' \/ (x = 0 /\ x' = 63) ->
  ~ departs_mc p f (SetDisplayRange (x, y) (x', y') on).
Proof.
  intros p f x y x' y' on Hx Hx' Hy Hy' H [[_ K]|(a & b & Hs & _ & K)]; [lia|]. apply K. clear K.
  rewrite Z.mod_small by (lia). unfold on_screen in Hs. unfold in_rectangle, in_reading_order. cbn [fst snd]. lia.
Qed.

(** Pushing, popping and decrementing do not do what is documented, on any
    machine. *)
Theorem C77_chip8_departures : forall e p c w mc g w', well_formed c -> mc_operands mc ->
  (exists v, mc = PushStack v \/ mc = PopStack v \/
     (v <> 0 /\ ((exists r, mc = Dec8bitRegister r v) \/ exists r, mc = Dec16bitRegister r v))) ->
  documented e (observe c) w mc = Some (g, w') ->
  ~ exists c', execute_mut e p (c, w) mc = Ok (c', w') /\ looks c' g.
Proof.
  intros e p c w mc g w' W Hm (v & H) E X. apply (C77_chip8_documented_iff e p c w mc g w' W Hm E) in X. apply X.
  destruct H as [->|[->|[Hv [[[r|t] ->]|[r ->]]]]]; cbn [departs_mc]; exact Hv || exact I.
Qed.

(** Nothing else of the machine changes: an operation changes only the parts
    it names. *)
Definition names (mc : microcode) (q : part) : Prop :=
  match mc, q with
  | WriteMemory a _, PMem b => a = b
  | Write8bitRegister (ByteGp r) _, PV k | Inc8bitRegister (ByteGp r) _, PV k => gp_index r = k
  | Write8bitRegister (ByteTimer Delay) _, (PDelay | PDelayAt) => True
  | Inc8bitRegister (ByteTimer Delay) _, (PDelay | PDelayAt) => True
  | Write8bitRegister (ByteTimer Sound) _, (PSound | PSoundAt) => True
  | Inc8bitRegister (ByteTimer Sound) _, (PSound | PSoundAt) => True
  | Write16bitRegister r _, PI | Inc16bitRegister r _, PI => r = WordI
  | Write16bitRegister r _, PPC | Inc16bitRegister r _, PPC => r = WordPc
  | PushStack _, PStack _ => True
  | KeyPress _, PKey | KeyRelease, PKey => True
  | SetDisplayPixel (x, y) _, PPixel a b => a = x /\ b = y
  | SetDisplayRange _ _ _, PPixel _ _ => True
  | _, _ => False
  end.
Theorem C77_chip8_frame : forall e p c w mc c' w' q, well_formed c -> mc_operands mc ->
  execute_mut e p (c, w) mc = Ok (c', w') -> ~ names mc q -> observe c' q = observe c q.
Proof.
  intros e p c w mc c' w' q W Hm E N. pose proof (exact e p c w W mc Hm) as X.
  destruct (actual e p (observe c) w mc) as [[g w2]|] eqn:Ea; cbn [meets] in X; [|congruence].
  destruct X as (c2 & E2 & _ & L). assert (c2 = c') as -> by congruence. rewrite L.
  assert (inj : forall (a a' : part -> Z) (b b' : world), Some (a, b) = Some (a', b') -> a' = a) by (intros; congruence).
  destruct mc as [a v|[r|[|]] v|[r|[|]] v|[r|[|]] v|r v|r v|r v|v|v|k| |[x y] v|[x y] [x' y'] v]; cbn [actual documented] in Ea;
    try (destruct (_ <=? 0xfff); [|discriminate]);
    try (destruct (match p with Debug => _ | Release => _ end); [|discriminate]);
    try (destruct r; try discriminate; apply inj in Ea as ->); try (apply inj in Ea as ->); try reflexivity;
    destruct q; cbn [names gp_index] in N; unfold upd, stamped, upd, paint; cbn [register_name part_eqb gp_index]; try reflexivity; try tauto;
    try (match goal with |- (if ?b then _ else _) = _ => replace b with false by lia end; reflexivity).
Qed.

(** ** Concrete cases *)
Definition shown := demo [0x12; 0x00] [] 0 None.
Example C77_chip8_case : well_formed shown /\ mc_operands (SetDisplayRange (60, 2) (61, 3) true).
Proof. split; [apply demo_wf; reflexivity|cbn; lia]. Qed.

(** A two-by-two square at column 60 is not set: the run of pixels goes
    across the right edge. *)
Example C77_chip8_square : departs_mc Debug (observe shown) (SetDisplayRange (60, 2) (61, 3) true).
Proof. right. exists 62, 2. vm_compute. repeat split; discriminate. Qed.

(** Releasing a key: none is held afterwards; pressing it: that one. *)
Example C77_chip8_keys : forall e p c w, well_formed c ->
  (exists c', execute_mut e p (c, w) KeyRelease = Ok (c', w) /\ observe c' PKey = -1) /\
  (exists c', execute_mut e p (c, w) (KeyPress Key7) = Ok (c', w) /\ observe c' PKey = 7).
Proof.
  intros e p c w W. split.
  - destruct (C77_chip8_effect e p c w KeyRelease _ _ W I eq_refl) as (c' & E & _ & L). exists c'. split; [exact E|apply (L PKey)].
  - destruct (C77_chip8_effect e p c w (KeyPress Key7) _ _ W I eq_refl) as (c' & E & _ & L). exists c'. split; [exact E|apply (L PKey)].
Qed.

Print Assumptions C77_chip8_effect.
Print Assumptions C77_chip8_panics_iff.
Print Assumptions C77_chip8_documented_iff.
Print Assumptions C77_chip8_rows.
Print Assumptions C77_chip8_departures.
Print Assumptions C77_chip8_frame.
