(** Every machine that can be built is well formed; case analysis of a step;
    the example machines. *)
From Verif Require Import Base Arith ModelMap ModelU12 ModelDisplay ModelChip8 ModelOpsChip8 ModelRunChip8.
From Verif Require Import SpecMap ProofMap Link6502 ProofBus ProofReplay SpecChip8 SpecChip8Parts ProofDecode8 ProofChip8
  ProofChip8Step ProofChip8Parts.

(** ** A new machine *)
Definition space0 : address_map memory :=
  [mkEntry 0x200 0xfff (mkMemory ReadWrite 0x200 0xfff (repeat 0 (Z.to_nat 3584)));
   mkEntry 0 0x1ff (mkMemory ReadWrite 0 0x1ff (repeat 0 (Z.to_nat 512)))].
Lemma default_eq e p w : chip8_default e p w =
  Ok (mkChip8 (ring_new 16) space0 (mkClock (env_time e (w_time w)) 0) (mkClock (env_time e (S (w_time w))) 0)
        0x200 0 0 (repeat 0 15) display_default None,
      mkWorld (S (S (w_time w))) (w_random w)).
Proof. reflexivity. Qed.

Lemma space0_ok : space_ok space0.
Proof.
  split; [apply plain_mapb_ok; vm_compute; reflexivity|]. split.
  - intros a Ha. unfold space0. destruct (Z.ltb_spec a 0x200).
    + eexists. split; [right; left; reflexivity|]. cbn. split; [lia|reflexivity].
    + eexists. split; [left; reflexivity|]. cbn. split; [lia|reflexivity].
  - intros a Ha e [<-|[<-|[]]]; unfold covers; cbn; lia.
Qed.

Lemma default_wf e p w c w' : chip8_default e p w = Ok (c, w') -> well_formed c.
Proof.
  rewrite default_eq. intros E. assert (c = fst (c, w')) as -> by reflexivity.
  assert (K : forall A (x y : A), Ok x = Ok y -> x = y) by (intros; congruence). apply K in E. rewrite <- E. cbn [fst].
  constructor; cbn [c8_pc c8_i c8_sp c8_gp c8_stack c8_space c8_display c8_dt c8_st clock_inner].
  - unfold u16; lia.
  - unfold u16; lia.
  - lia.
  - split; [reflexivity|]. apply Forall_forall. intros x Hx. apply repeat_spec in Hx as ->. unfold u8; lia.
  - split; [reflexivity|]. split; [reflexivity|]. apply Forall_forall. intros x Hx. apply repeat_spec in Hx as ->. unfold u16; lia.
  - exact space0_ok.
  - exact display_default_ok.
  - unfold u8; lia.
  - unfold u8; lia.
Qed.
Lemma default_looks e p w c w' : chip8_default e p w = Ok (c, w') ->
  looks c (fun q => match q with
    | PPC => 0x200 | PKey => -1 | PDelayAt => env_time e (w_time w) | PSoundAt => env_time e (S (w_time w))
    | _ => 0 end).
Proof.
  rewrite default_eq. intros E.
  assert (K : forall A (x y : A), Ok x = Ok y -> x = y) by (intros; congruence). apply K in E.
  assert (c = fst (c, w')) as -> by reflexivity. rewrite <- E. cbn [fst]. clear E K.
  assert (R : forall n i, item (repeat 0 n) i 0 = 0).
  { intros n i. unfold item. destruct (i <? 0); [reflexivity|]. apply nth_repeat. }
  intros q. destruct q; cbn [observe c8_pc c8_i c8_sp c8_gp c8_stack c8_space c8_display c8_dt c8_st clock_inner
     written_at c8_interrupt key_number ring_new ring_inner]; try reflexivity; try apply R.
  - unfold peek. assert (Z0 : forall k, nth_error (repeat 0 k) = nth_error (repeat 0 k)) by reflexivity. clear Z0.
    unfold space0. cbn [am_read]. unfold key_contains. cbn [range_lo range_hi device].
    assert (M : forall lo hi k, match memory_read Debug (mkMemory ReadWrite lo hi (repeat 0 k)) a with Ok v => v | Panic => 0 end = 0).
    { intros lo hi k. unfold memory_read. destruct (sub_u16 _ _ _) as [o|]; cbn [bind]; [|reflexivity].
      cbn [mem_inner]. unfold vec_get. destruct (o <? 0); [reflexivity|].
      destruct (nth_error (repeat 0 k) (Z.to_nat o)) as [z|] eqn:Ez; [|reflexivity].
      apply nth_error_In, repeat_spec in Ez. exact Ez. }
    destruct (_ && _); [apply M|]. destruct (_ && _); [apply M|reflexivity].
  - rewrite lit_blank. reflexivity.
Qed.

(** ** Microcode keeps machines well formed *)

(** In-width arguments, as every value of the Rust types has. *)
Definition mc_ok (mc : microcode) : Prop :=
  match mc with
  | WriteMemory a v => u16 a /\ u8 v
  | Write8bitRegister _ v | Inc8bitRegister _ v | Dec8bitRegister _ v => u8 v
  | Write16bitRegister _ v | Inc16bitRegister _ v | Dec16bitRegister _ v => u16 v
  | PushStack v | PopStack v => u16 v
  | KeyPress _ | KeyRelease => True
  | SetDisplayPixel (x, y) _ => 0 <= x /\ 0 <= y
  | SetDisplayRange _ _ _ => True
  end.

Lemma fill_row_length v row : forall skip take, length (fst (fill_row skip take v row)) = length row.
Proof.
  induction row as [|b row IH]; intros skip take; [reflexivity|]. cbn [fill_row].
  destruct (0 <? skip); [|destruct (0 <? take); [|reflexivity]].
  - specialize (IH (skip - 1) take). destruct (fill_row (skip - 1) take v row). cbn [fst length] in *. lia.
  - specialize (IH skip (take - 1)). destruct (fill_row skip (take - 1) v row). cbn [fst length] in *. lia.
Qed.
Lemma fill_rows_shape v d : forall skip take,
  map (@length bool) (fill_rows skip take v d) = map (@length bool) d.
Proof.
  induction d as [|row d IH]; intros skip take; [reflexivity|]. cbn [fill_rows].
  pose proof (fill_row_length v row skip take) as L.
  destruct (fill_row skip take v row) as [r [s t]]. cbn [fst] in L. cbn [map]. rewrite IH, L. reflexivity.
Qed.
Lemma shape_display_ok d d' : map (@length bool) d' = map (@length bool) d -> display_ok d -> display_ok d'.
Proof.
  intros E [L F]. split.
  - rewrite <- L, <- (map_length (@length bool) d'), E, map_length. reflexivity.
  - apply Forall_forall. intros row Hr. apply (in_map (@length bool)) in Hr. rewrite E in Hr.
    apply in_map_iff in Hr as (row' & <- & Hr'). rewrite Forall_forall in F. symmetry. rewrite <- (F row' Hr'). reflexivity.
Qed.

Lemma execute_wf e p c w mc c' w' : well_formed c -> mc_ok mc ->
  execute_mut e p (c, w) mc = Ok (c', w') -> well_formed c' /\ layout (c8_space c') = layout (c8_space c).
Proof.
  intros W Hm E.
  assert (K : forall A (x y : A), Ok x = Ok y -> x = y) by (intros; congruence).
  assert (K2 : forall (a b : chip8) (u v : world), Ok (a, u) = Ok (b, v) -> b = a) by (intros; congruence).
  destruct mc as [a v|[r|[|]] v|[r|[|]] v|r v|[|] v|[|] v|r v|v|v|k| |[x y] v|s t v]; cbn [execute_mut mc_ok] in *.
  - (* WriteMemory *) destruct Hm as [Ha Hv]. unfold u16 in Ha.
    destruct (Z.leb_spec a 0xfff).
    + destruct (ex_mem p c a v W ltac:(lia) Hv) as (c1 & E1 & [W1 _] & L). rewrite E1 in E. cbn [bind] in E.
      apply K2 in E as ->. split; [exact W1|exact L].
    + rewrite (ex_mem_out p c a v W) in E by lia. discriminate.
  - (* gp *) cbn [exec_write8] in E. destruct (has r) eqn:Hr.
    + destruct (ex_gp c (gp_index r) v W (has_index r Hr) Hm) as (gp & E1 & [W1 _]). rewrite E1 in E. cbn [bind] in E.
      apply K2 in E as ->. split; [exact W1|reflexivity].
    + apply has_not in Hr as ->. rewrite (ex_gp_vf c v W) in E. discriminate.
  - cbn [exec_write8] in E. unfold clock_with_value, now in E. apply K2 in E as ->.
    split; [destruct W; constructor; cbn; assumption|reflexivity].
  - cbn [exec_write8] in E. unfold clock_with_value, now in E. apply K2 in E as ->.
    split; [destruct W; constructor; cbn; assumption|reflexivity].
  - cbn [exec_inc8] in E. destruct (read_gp_register c r); [|discriminate]. cbn [bind] in E. destruct (has r) eqn:Hr.
    + destruct (ex_gp c (gp_index r) (wrapping_add_u8 a v) W (has_index r Hr) (u8_mod _)) as (gp & E1 & [W1 _]).
      rewrite E1 in E. cbn [bind] in E. apply K2 in E as ->. split; [exact W1|reflexivity].
    + apply has_not in Hr as ->. rewrite (ex_gp_vf c _ W) in E. discriminate.
  - cbn [exec_inc8] in E. destruct (clock_read e p (c8_st c) w) as [[z w1]|]; [|discriminate]. cbn [bind] in E.
    unfold clock_with_value, now in E. apply K2 in E as ->.
    split; [destruct W; constructor; cbn; try assumption; apply u8_mod|reflexivity].
  - cbn [exec_inc8] in E. destruct (clock_read e p (c8_dt c) w) as [[z w1]|]; [|discriminate]. cbn [bind] in E.
    unfold clock_with_value, now in E. apply K2 in E as ->.
    split; [destruct W; constructor; cbn; try assumption; apply u8_mod|reflexivity].
  - apply K2 in E as ->. split; [exact W|reflexivity].
  - apply K2 in E as ->. split; [destruct W; constructor; cbn; assumption|reflexivity].
  - apply K2 in E as ->. split; [destruct W; constructor; cbn; assumption|reflexivity].
  - apply K2 in E as ->. split; [destruct W; constructor; cbn; try assumption; apply u16_mod|reflexivity].
  - apply K2 in E as ->. split; [destruct W; constructor; cbn; try assumption; apply u16_mod|reflexivity].
  - apply K2 in E as ->. split; [exact W|reflexivity].
  - destruct (ex_push c v W Hm) as (c1 & E1 & [W1 _] & L). rewrite E1 in E. cbn [bind] in E.
    apply K2 in E as ->. split; [exact W1|exact L].
  - apply K2 in E as ->. split; [exact W|reflexivity].
  - apply K2 in E as ->. split; [destruct W; constructor; cbn; assumption|reflexivity].
  - apply K2 in E as ->. split; [destruct W; constructor; cbn; assumption|reflexivity].
  - destruct Hm as [Hx Hy]. destruct (write_pixel_spec (c8_display c) x y v (wf_display c W) Hx Hy) as (d & E1 & D1 & _).
    rewrite E1 in E. cbn [bind] in E. apply K2 in E as ->. split; [destruct W; constructor; cbn; assumption|reflexivity].
  - destruct (exec_set_range p c s t v) as [c1|] eqn:E1; [|discriminate]. cbn [bind] in E. apply K2 in E as ->.
    unfold exec_set_range in E1. destruct s as [sx sy], t as [tx ty].
    repeat match type of E1 with
    | bind ?x _ = _ => let z := fresh in destruct x as [z|]; [|discriminate]; cbn [bind] in E1
    end. apply K in E1. subst c1. split; [|reflexivity].
    destruct W; constructor; cbn; try assumption. eapply shape_display_ok; [|eassumption]. apply fill_rows_shape.
Qed.

(** ** Case analysis of a step *)
Lemma step_cases e p c w : well_formed c -> env_ok e ->
  (step e p c w = Panic) \/
  exists op f w', operands_ok op /\ fetches p c (encode op) /\ effect e p (observe c) w op = Some (f, w') /\
    becomes e p c w f w'.
Proof.
  intros W He. pose proof (wf_pc c W) as Hp. unfold u16 in Hp.
  assert (Hc : (p = Release \/ observe c PPC < 65535) \/ (p = Debug /\ c8_pc c = 65535)).
  { destruct p; [|left; left; reflexivity]. cbn [observe]. destruct (Z.ltb_spec (c8_pc c) 65535); [left; right; lia|right; split; [reflexivity|lia]]. }
  destruct Hc as [Hc|[-> Epc]].
  2:{ left. unfold step, next. rewrite (read_mem Debug c _ W). cbn [bind]. rewrite Epc. reflexivity. }
  set (b0 := observe c (PMem (observe c PPC))). set (b1 := observe c (PMem ((observe c PPC + 1) mod 65536))).
  assert (Hf : fetches p c (256 * b0 + b1)) by (split; [exact Hc|reflexivity]).
  destruct (decode_sound b0 b1 (observe_mem_u8 c _ W) (observe_mem_u8 c _ W)) as (o & Eo & Ho).
  destruct o as [op|].
  - destruct Ho as [Hop Ew]. rewrite <- Ew in Hf.
    pose proof (step_effect e p c w W He op Hop Hf) as K. unfold delivers in K.
    destruct (effect e p (observe c) w op) as [[f w']|] eqn:Ee; [|left; exact K].
    right. exists op, f, w'. split; [exact Hop|]. split; [exact Hf|]. split; [exact Ee|exact K].
  - left. apply (step_undocumented e p c w _ W Hf).
    pose proof (decode_cases b0 b1 (observe_mem_u8 c _ W) (observe_mem_u8 c _ W)) as K.
    destruct (undocumented (256 * b0 + b1)); [reflexivity|]. destruct K as (op & K). congruence.
Qed.

Lemma step_pc_end e c w : well_formed c -> observe c PPC = 0xffff -> step e Debug c w = Panic.
Proof.
  intros W E. cbn [observe] in E. unfold step, next. rewrite (read_mem Debug c _ W). cbn [bind]. rewrite E. reflexivity.
Qed.
Lemma step_panic_cases e p c w : well_formed c -> env_ok e -> step e p c w = Panic ->
  (p = Debug /\ observe c PPC = 0xffff) \/
  exists word, fetches p c word /\
    (undocumented word = true \/
     exists op, word = encode op /\ operands_ok op /\ effect e p (observe c) w op = None).
Proof.
  intros W He E. pose proof (wf_pc c W) as Hp. unfold u16 in Hp.
  assert (Hc : (p = Release \/ observe c PPC < 65535) \/ (p = Debug /\ c8_pc c = 65535)).
  { destruct p; [|left; left; reflexivity]. cbn [observe]. destruct (Z.ltb_spec (c8_pc c) 65535); [left; right; lia|right; split; [reflexivity|lia]]. }
  destruct Hc as [Hc|Hc]; [|left; exact Hc]. right.
  set (b0 := observe c (PMem (observe c PPC))). set (b1 := observe c (PMem ((observe c PPC + 1) mod 65536))).
  exists (256 * b0 + b1). assert (Hf : fetches p c (256 * b0 + b1)) by (split; [exact Hc|reflexivity]).
  split; [exact Hf|].
  destruct (decode_sound b0 b1 (observe_mem_u8 c _ W) (observe_mem_u8 c _ W)) as (o & Eo & Ho).
  destruct o as [op|].
  - destruct Ho as [Hop Ew]. right. exists op. split; [symmetry; exact Ew|]. split; [exact Hop|].
    rewrite <- Ew in Hf. pose proof (step_effect e p c w W He op Hop Hf) as K. unfold delivers in K.
    destruct (effect e p (observe c) w op) as [[f w']|]; [|reflexivity]. destruct K as (c' & K & _). congruence.
  - left. pose proof (decode_cases b0 b1 (observe_mem_u8 c _ W) (observe_mem_u8 c _ W)) as K.
    destruct (undocumented (256 * b0 + b1)); [reflexivity|]. destruct K as (op & K). congruence.
Qed.
Lemma effect_none e p f w op : effect e p f w op = None ->
  ((involves_vf op = true /\ forall x, op = LdK x -> f PKey <> -1) \/
   (exists x, op = LdBcd x /\ 0xfff < f PI + 2) \/
   (exists x, op = StoreRegistersToMemory x /\ 0xfff < f PI + gp_index x) \/
   (exists x, op = ReadRegistersFromMemory x /\ p = Debug /\ 0xffff < f PI + gp_index x) \/
   (exists x, op = LdSpriteLocation x /\ p = Debug /\ 51 < f (PV (gp_index x)))).
Proof.
  assert (N : forall r, has r = false -> (gp_index r =? 15) = true).
  { intros r Hr. apply has_not in Hr as ->. reflexivity. }
  intros E. destruct op; cbn [effect] in E; unfold needs, done in E; cbv beta in E; try discriminate;
    try (left; split; [reflexivity|intros; discriminate]);
    cbn [involves_vf];
    repeat match type of E with
    | (if has ?a && has ?b then _ else _) = _ => destruct (has a) eqn:?; destruct (has b) eqn:?; cbn [andb] in E; try discriminate
    | (if has ?a && _ then _ else _) = _ => destruct (has a) eqn:?; cbn [andb] in E
    | (if has ?a then _ else _) = _ => destruct (has a) eqn:?; try discriminate
    end;
    try (left; split; [repeat match goal with H : has _ = false |- _ => apply N in H; rewrite H end; rewrite ?Bool.orb_true_r; reflexivity
                      |intros; discriminate]).
  all: match goal with
    | |- context [LdK ?x = _] => 
        destruct (f PKey =? -1) eqn:Ek; [discriminate|]; destruct (has x) eqn:Hx; [discriminate|];
        left; split; [exact (N _ Hx)|intros x' Hx'; lia]
    | |- context [LdSpriteLocation ?x = _] =>
        right; right; right; right; exists x; split; [reflexivity|]; destruct p; [|discriminate]; split; [reflexivity|];
        unfold SpecChip8.v in E; destruct (Z.ltb_spec (5 * f (PV (gp_index x))) 256); [discriminate|lia]
    | |- context [LdBcd ?x = _] =>
        right; left; exists x; split; [reflexivity|]; destruct (Z.leb_spec (f PI + 2) 0xfff); [discriminate|lia]
    | |- context [StoreRegistersToMemory ?x = _] =>
        right; right; left; exists x; split; [reflexivity|]; destruct (Z.leb_spec (f PI + gp_index x) 0xfff); [discriminate|lia]
    | |- context [ReadRegistersFromMemory ?x = _] =>
        right; right; right; left; exists x; split; [reflexivity|]; destruct p; [|discriminate]; split; [reflexivity|];
        destruct (Z.ltb_spec (f PI + gp_index x) 65536); [discriminate|lia]
    end.
Qed.

Lemma step_ok_inv e p c w c' w' : well_formed c -> env_ok e -> step e p c w = Ok (c', w') ->
  exists op f, operands_ok op /\ fetches p c (encode op) /\ effect e p (observe c) w op = Some (f, w') /\
    well_formed c' /\ looks c' f.
Proof.
  intros W He E. destruct (step_cases e p c w W He) as [K|(op & f & w1 & H1 & H2 & H3 & (c1 & E1 & W1 & L1))]; [congruence|].
  rewrite E in E1. assert (c' = c1) as -> by congruence. assert (w' = w1) as -> by congruence.
  exists op, f. split; [exact H1|]. split; [exact H2|]. split; [exact H3|]. split; [exact W1|exact L1].
Qed.

Lemma step_wf e p c w c' w' : well_formed c -> env_ok e -> step e p c w = Ok (c', w') -> well_formed c'.
Proof. intros W He E. destruct (step_ok_inv e p c w c' w' W He E) as (op & f & _ & _ & _ & W' & _). exact W'. Qed.

(** ** Example machines: a new machine with bytes stored at 0x200 and a few
    registers set. *)
Definition env0 : environment := mkEnv (fun k => Z.of_nat k) (fun k => (37 + 101 * Z.of_nat k) mod 256).
Definition w0 : world := mkWorld 0 0.
Lemma env0_ok : env_ok env0.
Proof. intros k. cbn. apply u8_mod. Qed.

Definition load (prog : list (Z * Z)) (c : chip8) : res chip8 :=
  foldM (fun c '(a, b) => exec_write_memory Debug c a b) prog c.
Definition setup (prog : list (Z * Z)) (regs : list (gp_register * Z)) (i : Z) (key : option interrupt) : res chip8 :=
  do! ' (c, _) <- chip8_default env0 Debug w0 ;
  do! c <- load prog c ;
  do! c <- foldM (fun c '(r, b) => with_gp_register c r b) regs c ;
  Ok (with_interrupt (with_i_register c i) key).
Definition bytes_at (a : Z) (l : list Z) : list (Z * Z) :=
  map (fun '(k, b) => (a + Z.of_nat k, b)) (combine (seq 0 (length l)) l).
Definition demo (prog : list Z) (regs : list (gp_register * Z)) (i : Z) (key : option interrupt) : chip8 :=
  match setup (bytes_at 0x200 prog) regs i key with
  | Ok c => c
  | Panic => mkChip8 (ring_new 16) space0 (mkClock 0 0) (mkClock 0 0) 0x200 0 0 (repeat 0 15) display_default None
  end.

Definition demo_fits (prog : list Z) (regs : list (gp_register * Z)) (i : Z) : bool :=
  (Z.of_nat (length prog) <=? 0xe00) && forallb (fun b => (0 <=? b) && (b <? 256)) prog &&
  forallb (fun '(r, b) => (0 <=? b) && (b <? 256)) regs && (0 <=? i) && (i <? 65536).

Lemma load_wf prog : Forall (fun ab => u16 (fst ab) /\ u8 (snd ab)) prog ->
  forall c c', well_formed c -> load prog c = Ok c' -> well_formed c'.
Proof.
  induction 1 as [|[a b] prog [Ha Hb] F IH]; intros c c' W E; unfold load in *; cbn [foldM] in E.
  - congruence.
  - destruct (exec_write_memory Debug c a b) as [c1|] eqn:E1; [|discriminate]. cbn [bind] in E.
    refine (IH c1 c' _ E).
    exact (proj1 (execute_wf env0 Debug c w0 (WriteMemory a b) c1 w0 W (conj Ha Hb)
      ltac:(cbn [execute_mut]; rewrite E1; reflexivity))).
Qed.
Lemma regs_wf regs : Forall (fun rb => u8 (snd rb)) regs ->
  forall c c', well_formed c -> foldM (fun c '(r, b) => with_gp_register c r b) regs c = Ok c' -> well_formed c'.
Proof.
  induction 1 as [|[r b] regs Hb F IH]; intros c c' W E; cbn [foldM] in E.
  - congruence.
  - destruct (with_gp_register c r b) as [c1|] eqn:E1; [|discriminate]. cbn [bind] in E.
    refine (IH c1 c' _ E).
    refine (proj1 (execute_wf env0 Debug c w0 (Write8bitRegister (ByteGp r) b) c1 w0 W Hb _)).
    cbn [execute_mut exec_write8]. unfold with_gp_register in E1.
    destruct (vec_set (c8_gp c) (gp_index r) b) as [gp|]; [|discriminate]. cbn [bind] in *. congruence.
Qed.

Lemma bytes_at_ok a l : 0 <= a -> a + Z.of_nat (length l) <= 65536 -> Forall u8 l ->
  Forall (fun ab => u16 (fst ab) /\ u8 (snd ab)) (bytes_at a l).
Proof.
  intros Ha Hl F. apply Forall_forall. intros [x b] H. unfold bytes_at in H. apply in_map_iff in H as ([k b'] & E & Hi).
  assert (x = a + Z.of_nat k) by congruence. assert (b = b') by congruence. subst x b.
  pose proof (in_combine_l _ _ _ _ Hi) as H1. pose proof (in_combine_r _ _ _ _ Hi) as H2.
  apply in_seq in H1. rewrite Forall_forall in F. cbn [fst snd]. unfold u16. split; [lia|exact (F _ H2)].
Qed.

Lemma demo_wf prog regs i key : demo_fits prog regs i = true -> well_formed (demo prog regs i key).
Proof.
  unfold demo_fits. rewrite !andb_true_iff. intros [[[[H1 H2] H3] H4] H5].
  unfold demo. destruct (setup (bytes_at 0x200 prog) regs i key) as [c|] eqn:E.
  - unfold setup in E. destruct (chip8_default env0 Debug w0) as [[c0 w1]|] eqn:E0; [|discriminate]. cbn [bind] in E.
    destruct (load (bytes_at 0x200 prog) c0) as [c1|] eqn:E1; [|discriminate]. cbn [bind] in E.
    destruct (foldM _ regs c1) as [c2|] eqn:E2; [|discriminate]. cbn [bind] in E.
    assert (W0 : well_formed c0) by exact (default_wf _ _ _ _ _ E0).
    assert (W1 : well_formed c1).
    { refine (load_wf _ (bytes_at_ok 0x200 prog ltac:(lia) ltac:(lia) _) c0 c1 W0 E1).
      apply Forall_forall. intros b Hb. rewrite forallb_forall in H2. specialize (H2 b Hb). unfold u8. lia. }
    assert (W2 : well_formed c2).
    { refine (regs_wf regs _ c1 c2 W1 E2). apply Forall_forall. intros [r b] Hb. rewrite forallb_forall in H3.
      specialize (H3 (r, b) Hb). cbn [snd]. cbv beta iota in H3. unfold u8. lia. }
    assert (E' : c = with_interrupt (with_i_register c2 i) key) by congruence. rewrite E'.
    destruct W2; constructor; cbn; try assumption. unfold u16. lia.
  - apply (default_wf (mkEnv (fun _ => 0) (fun _ => 0)) Debug w0 _ (mkWorld 2 0)). reflexivity.
Qed.
