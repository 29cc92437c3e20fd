(** Proofs for the CHIP-8 model: microcode execution and the effect of one
    instruction. *)
From Coq Require Import Lia ZifyBool ZifyNat.
From Verif Require Import Base ModelMap ModelU12 ModelDisplay ModelChip8 ModelOpsChip8 ModelRunChip8.
From Verif Require Import SpecMap ProofMap Link6502 ProofBus Arith SpecChip8 ProofDecode8.

(** ** Observation lemmas *)
Lemma part_eqb_eq a b : part_eqb a b = true <-> a = b.
Proof.
  destruct a, b; cbn [part_eqb]; split; intros H; try discriminate; try reflexivity;
    try (f_equal; lia); try (injection H; intros; subst; lia).
Qed.
Lemma part_eqb_refl a : part_eqb a a = true.
Proof. apply part_eqb_eq. reflexivity. Qed.
Lemma part_eqb_sym a b : part_eqb a b = part_eqb b a.
Proof. apply Bool.eq_iff_eq_true. rewrite !part_eqb_eq. split; congruence. Qed.
Lemma upd_same f q v : upd f q v q = v.
Proof. unfold upd. rewrite part_eqb_refl. reflexivity. Qed.
Lemma upd_other f q v q' : q <> q' -> upd f q v q' = f q'.
Proof.
  intros H. unfold upd. destruct (part_eqb q q') eqn:E; [|reflexivity].
  apply part_eqb_eq in E. contradiction.
Qed.

Lemma item_upd {A} (l : list A) i v d j : 0 <= i < Z.of_nat (length l) ->
  item (list_upd l (Z.to_nat i) v) j d = if i =? j then v else item l j d.
Proof.
  intros Hi. unfold item. destruct (j <? 0) eqn:Ej.
  - replace (i =? j) with false by lia. reflexivity.
  - rewrite <- !nth_default_eq. unfold nth_default.
    rewrite list_upd_nth by lia.
    destruct (i =? j) eqn:E.
    + replace (Nat.eqb (Z.to_nat j) (Z.to_nat i)) with true by lia. reflexivity.
    + replace (Nat.eqb (Z.to_nat j) (Z.to_nat i)) with false by lia. reflexivity.
Qed.
Lemma item_nth_error {A} (l : list A) i d : 0 <= i < Z.of_nat (length l) ->
  nth_error l (Z.to_nat i) = Some (item l i d).
Proof.
  intros Hi. unfold item. replace (i <? 0) with false by lia. apply nth_error_nth'. lia.
Qed.
Lemma item_In {A} (l : list A) i d : 0 <= i < Z.of_nat (length l) -> In (item l i d) l.
Proof.
  intros Hi. unfold item. replace (i <? 0) with false by lia. apply nth_In. lia.
Qed.
Lemma item_out {A} (l : list A) i d : i < 0 \/ Z.of_nat (length l) <= i -> item l i d = d.
Proof.
  intros Hi. unfold item. destruct (i <? 0) eqn:E; [reflexivity|]. apply nth_overflow. lia.
Qed.
Lemma vec_get_item {A} (l : list A) i d : 0 <= i < Z.of_nat (length l) ->
  vec_get l i = Ok (item l i d).
Proof.
  intros Hi. unfold vec_get. replace (i <? 0) with false by lia.
  rewrite (item_nth_error l i d Hi). reflexivity.
Qed.

(** ** Memory *)
Lemma plain_read_profile p m a : plain_map m -> am_read p m a = Ok (peek Debug m a) /\ u8 (peek Debug m a).
Proof.
  intros Hp. assert (E : am_read p m a = am_read Debug m a).
  { destruct Hp as [Hd Hr]. destruct (mapped_dec m a) as [Hu|(e & Hin & Hc)].
    - rewrite !read_unmapped by exact Hu. reflexivity.
    - rewrite !(read_mapped _ m a e Hd Hin Hc). rewrite Forall_forall in Hr.
      destruct (Hr e Hin) as (H1 & H2 & H3 & H4). unfold covers in Hc.
      cbn [dev_read memory_device]. unfold memory_read.
      rewrite !sub_u16_ok by (unfold u16; lia). reflexivity. }
  rewrite E. unfold peek. destruct (plain_read Debug m a Hp) as (v & Ev & Hv).
  rewrite Ev. split; [reflexivity|exact Hv].
Qed.
Lemma plain_peek_profile p m a : plain_map m -> peek p m a = peek Debug m a.
Proof. intros Hp. unfold peek at 1. rewrite (proj1 (plain_read_profile p m a Hp)). reflexivity. Qed.

Lemma space_write p m a v : space_ok m -> 0 <= a <= 0xfff -> u8 v ->
  exists m', am_write p m a v = Ok (m', WOk v) /\ space_ok m' /\
    forall b, peek Debug m' b = if b =? a then v else peek Debug m b.
Proof.
  intros (Hp & Hram & Hun) Ha Hv.
  destruct (plain_write_ok p m a v Hp Hv (Hram a Ha)) as (m' & Hw).
  destruct (plain_write p m a v m' v Hp Hv Hw) as (Hp' & Hram' & Hpk).
  exists m'. split; [exact Hw|]. split.
  - split; [exact Hp'|]. split.
    + intros b Hb. apply Hram', Hram, Hb.
    + intros b Hb. apply (covers_layout m m' b (write_layout p m a v m' _ Hw)), Hun, Hb.
  - intros b. rewrite <- (plain_peek_profile p m' b Hp'), Hpk, (plain_peek_profile p m b Hp). reflexivity.
Qed.

Lemma observe_mem_out c a : well_formed c -> 0xfff < a -> observe c (PMem a) = 0.
Proof.
  intros W Ha. destruct (wf_space c W) as (_ & _ & Hun). cbn [observe]. unfold peek.
  rewrite read_unmapped; [reflexivity|]. apply Hun, Ha.
Qed.
Lemma observe_mem_u8 c a : well_formed c -> u8 (observe c (PMem a)).
Proof. intros W. destruct (wf_space c W) as (Hp & _). exact (proj2 (plain_read_profile Debug _ a Hp)). Qed.
Lemma read_mem p c a : well_formed c -> am_read p (c8_space c) a = Ok (observe c (PMem a)).
Proof. intros W. destruct (wf_space c W) as (Hp & _). exact (proj1 (plain_read_profile p _ a Hp)). Qed.

(** ** Registers *)
Lemma gp_index_range r : 0 <= gp_index r < 16.
Proof. destruct r; cbn; lia. Qed.
Lemma has_index r : has r = true -> 0 <= gp_index r < 15.
Proof. unfold has. pose proof (gp_index_range r). lia. Qed.
Lemma has_not r : has r = false -> r = Vf.
Proof. destruct r; cbn; intros H; try discriminate; reflexivity. Qed.

Lemma read_gp c r : well_formed c -> has r = true ->
  read_gp_register c r = Ok (observe c (PV (gp_index r))).
Proof.
  intros W H. apply has_index in H. destruct (wf_gp c W) as (L & _).
  unfold read_gp_register. rewrite (item_nth_error _ _ 0) by lia. reflexivity.
Qed.
Lemma read_gp_vf c r : well_formed c -> has r = false -> read_gp_register c r = Panic.
Proof.
  intros W H. apply has_not in H as ->. destruct (wf_gp c W) as (L & _). unfold read_gp_register.
  replace (nth_error (c8_gp c) (Z.to_nat (gp_index Vf))) with (@None Z); [reflexivity|].
  symmetry. apply nth_error_None. cbn. lia.
Qed.
Lemma observe_v_u8 c x : well_formed c -> 0 <= x < 15 -> u8 (observe c (PV x)).
Proof.
  intros W Hx. destruct (wf_gp c W) as (L & F). rewrite Forall_forall in F.
  apply F. cbn [observe]. apply item_In. lia.
Qed.

(** ** Execution of microcode *)

(** [c'] is well formed and looks like [f]. *)
Definition wflooks c' f := well_formed c' /\ looks c' f.

Ltac split_upd :=
  intros q; cbn [observe]; unfold upd;
  repeat match goal with
  | |- context [part_eqb ?a ?b] => destruct b; cbn [part_eqb observe]
  end; try reflexivity.

Lemma ex_pc c v : well_formed c -> u16 v -> wflooks (set_pc c v) (upd (observe c) PPC v).
Proof.
  intros W Hv. split.
  - destruct W; constructor; cbn; assumption.
  - intros q. destruct q; reflexivity.
Qed.
Lemma ex_i c v : well_formed c -> u16 v -> wflooks (set_i c v) (upd (observe c) PI v).
Proof.
  intros W Hv. split.
  - destruct W; constructor; cbn; assumption.
  - intros q. destruct q; reflexivity.
Qed.
Lemma ex_dt c t v : well_formed c -> u8 v ->
  wflooks (set_dt c (mkClock t v)) (upd (upd (observe c) PDelay v) PDelayAt t).
Proof.
  intros W Hv. split.
  - destruct W; constructor; cbn; assumption.
  - intros q. destruct q; reflexivity.
Qed.
Lemma ex_st c t v : well_formed c -> u8 v ->
  wflooks (set_st c (mkClock t v)) (upd (upd (observe c) PSound v) PSoundAt t).
Proof.
  intros W Hv. split.
  - destruct W; constructor; cbn; assumption.
  - intros q. destruct q; reflexivity.
Qed.
Lemma ex_gp c i v : well_formed c -> 0 <= i < 15 -> u8 v ->
  exists gp, vec_set (c8_gp c) i v = Ok gp /\ wflooks (set_gp c gp) (upd (observe c) (PV i) v).
Proof.
  intros W Hi Hv. destruct (wf_gp c W) as (L & F).
  exists (list_upd (c8_gp c) (Z.to_nat i) v). split.
  - unfold vec_set. replace ((0 <=? i) && (i <? Z.of_nat (length (c8_gp c)))) with true by lia. reflexivity.
  - split.
    + destruct W; constructor; cbn; try assumption.
      rewrite list_upd_length. split; [assumption|]. apply list_upd_Forall; assumption.
    + intros q. destruct q; try reflexivity. cbn [observe set_gp c8_gp]. unfold upd. cbn [part_eqb observe].
      apply item_upd. lia.
Qed.
Lemma ex_gp_vf c v : well_formed c -> vec_set (c8_gp c) (gp_index Vf) v = Panic.
Proof.
  intros W. destruct (wf_gp c W) as (L & _). unfold vec_set. cbn [gp_index].
  replace ((0 <=? 15) && (15 <? Z.of_nat (length (c8_gp c)))) with false by lia. reflexivity.
Qed.
Lemma ex_mem p c a v : well_formed c -> 0 <= a <= 0xfff -> u8 v ->
  exists c', exec_write_memory p c a v = Ok c' /\ wflooks c' (upd (observe c) (PMem a) v) /\
    layout (c8_space c') = layout (c8_space c).
Proof.
  intros W Ha Hv. destruct (space_write p (c8_space c) a v (wf_space c W) Ha Hv) as (m & E & Hm & Hpk).
  exists (set_space c m). unfold exec_write_memory. rewrite E. cbn [bind]. split; [reflexivity|]. split.
  - split.
    + destruct W; constructor; cbn; assumption.
    + intros q. destruct q; try reflexivity. cbn [observe set_space c8_space]. unfold upd. cbn [part_eqb observe].
      rewrite Hpk. rewrite (Z.eqb_sym a0 a). reflexivity.
  - cbn [set_space c8_space]. exact (write_layout _ _ _ _ _ _ E).
Qed.
Lemma ex_mem_out p c a v : well_formed c -> 0xfff < a -> exec_write_memory p c a v = Panic.
Proof.
  intros W Ha. destruct (wf_space c W) as (_ & _ & Hun). unfold exec_write_memory.
  rewrite write_unmapped by (apply Hun, Ha). reflexivity.
Qed.
Lemma sp_read_wf c : well_formed c -> sp_read (c8_sp c) = observe c PSP.
Proof. intros W. pose proof (wf_sp c W). unfold sp_read, value_to_sp. cbn [observe]. lia. Qed.
Lemma ring_read_wf c k : well_formed c -> 0 <= k < 16 ->
  ring_read (c8_stack c) k = Ok (observe c (PStack k)).
Proof.
  intros W Hk. destruct (wf_stack c W) as (Hc & L & F). unfold ring_read, ring_offset. rewrite Hc.
  cbn [Z.eqb bind]. replace (k mod 16) with k by lia.
  rewrite (item_nth_error _ _ 0) by lia. reflexivity.
Qed.
Lemma observe_stack_u16 c k : well_formed c -> 0 <= k < 16 -> u16 (observe c (PStack k)).
Proof.
  intros W Hk. destruct (wf_stack c W) as (Hc & L & F). rewrite Forall_forall in F. apply F.
  cbn [observe]. apply item_In. lia.
Qed.
Lemma ex_push c v : well_formed c -> u16 v ->
  exists c', exec_push c v = Ok c' /\ wflooks c' (upd (observe c) (PStack (observe c PSP)) v) /\
    layout (c8_space c') = layout (c8_space c).
Proof.
  intros W Hv. destruct (wf_stack c W) as (Hc & L & F). pose proof (wf_sp c W) as Hs.
  unfold exec_push. rewrite (sp_read_wf c W). cbn [observe]. unfold ring_write, ring_offset. rewrite Hc.
  cbn [Z.eqb bind]. replace (c8_sp c mod 16) with (c8_sp c) by lia.
  replace (c8_sp c <? Z.of_nat (length (ring_inner (c8_stack c)))) with true by lia.
  cbn [bind]. eexists. split; [reflexivity|]. split; [|reflexivity]. split.
  - destruct W; constructor; cbn; try assumption. split; [reflexivity|]. cbn.
    rewrite list_upd_length. split; [assumption|]. apply list_upd_Forall; assumption.
  - intros q. destruct q; try reflexivity. cbn [observe set_stack c8_stack ring_inner]. unfold upd. cbn [part_eqb observe].
    apply item_upd. lia.
Qed.

(** ** Display *)
Lemma fill_row_all v row : forall take, Z.of_nat (length row) <= take ->
  fill_row 0 take v row = (repeat v (length row), (0, take - Z.of_nat (length row))).
Proof.
  induction row as [|b row IH]; intros take Ht.
  - cbn [fill_row length repeat]. f_equal. f_equal. lia.
  - cbn [fill_row length repeat]. cbn [length] in Ht.
    change (0 <? 0) with false. cbn iota. replace (0 <? take) with true by lia.
    rewrite IH by lia. f_equal. f_equal. lia.
Qed.
Lemma fill_rows_all v : forall d take, Forall (fun row => length row = 64%nat) d ->
  64 * Z.of_nat (length d) <= take ->
  fill_rows 0 take v d = repeat (repeat v 64) (length d).
Proof.
  induction d as [|row d IH]; intros take Hd Ht; [reflexivity|].
  apply Forall_cons_iff in Hd as [Hr Hd]. cbn [fill_rows length repeat] in *.
  rewrite fill_row_all by lia. rewrite Hr. rewrite IH; [reflexivity|exact Hd|lia].
Qed.
Lemma lit_blank x y : lit (repeat (repeat false 64) 32) x y = false.
Proof.
  unfold lit. destruct (Z.ltb_spec y 0) as [Hy|Hy].
  { rewrite (item_out _ y) by lia. unfold item. destruct (x <? 0); [reflexivity|]. destruct (Z.to_nat x); reflexivity. }
  destruct (Z.ltb_spec y 32) as [Hy'|Hy'].
  2:{ rewrite (item_out _ y) by (rewrite repeat_length; lia). unfold item. destruct (x <? 0); [reflexivity|]. destruct (Z.to_nat x); reflexivity. }
  assert (E : item (repeat (repeat false 64) 32) y [] = repeat false 64).
  { apply (repeat_spec 32 (repeat false 64)). apply item_In. rewrite repeat_length. lia. }
  rewrite E. destruct (Z.ltb_spec x 0) as [Hx|Hx].
  { apply item_out. lia. }
  destruct (Z.ltb_spec x 64) as [Hx'|Hx'].
  - apply (repeat_spec 64 false). apply item_In. rewrite repeat_length. lia.
  - apply item_out. rewrite repeat_length. lia.
Qed.
Lemma display_default_ok : display_ok display_default.
Proof.
  split; [apply repeat_length|]. apply Forall_forall. intros row H. apply repeat_spec in H as ->.
  apply repeat_length.
Qed.
Lemma ex_cls p c : well_formed c ->
  exists c', exec_set_range p c (0, 0) (X_MAX, Y_MAX) false = Ok c' /\
    wflooks c' (fun q => match q with PPixel _ _ => 0 | _ => observe c q end).
Proof.
  intros W. destruct (wf_display c W) as (L & F).
  exists (set_display c display_default). split.
  - unfold exec_set_range. destruct p; cbn; rewrite (fill_rows_all false _ _ F) by lia;
      rewrite L; reflexivity.
  - split.
    + destruct W; constructor; cbn [set_display c8_pc c8_i c8_sp c8_gp c8_stack c8_space c8_display c8_dt c8_st]; try assumption. apply display_default_ok.
    + intros q. destruct q; try reflexivity. cbn [observe set_display c8_display].
      unfold display_default. rewrite lit_blank. reflexivity.
Qed.

(** ** One instruction *)
Lemma looks_self c : looks c (observe c).
Proof. intros q. reflexivity. Qed.

Definition runs (e : environment) (p : profile) (mcs : list microcode) (c : chip8) (w : world)
  (f : part -> Z) (w' : world) : Prop :=
  exists c', execute_all e p mcs (c, w) = Ok (c', w') /\ well_formed c' /\ looks c' f.

Lemma runs_nil e p c w : well_formed c -> runs e p [] c w (observe c) w.
Proof. intros W. exists c. repeat split; try assumption; try apply looks_self; apply W. Qed.
Lemma runs_one e p mc c w c' w' f : execute_mut e p (c, w) mc = Ok (c', w') -> wflooks c' f ->
  runs e p [mc] c w f w'.
Proof.
  intros E [W L]. exists c'. unfold execute_all. cbn [foldM]. rewrite E. cbn [bind].
  split; [reflexivity|]. split; assumption.
Qed.
Lemma foldM_app {A B} (f : A -> B -> res A) l1 l2 a :
  foldM f (l1 ++ l2) a = bind (foldM f l1 a) (foldM f l2).
Proof.
  revert a. induction l1 as [|b l1 IH]; intros a; [reflexivity|].
  cbn [app foldM]. destruct (f a b); [apply IH|reflexivity].
Qed.

Lemma fetch_decode p c op : well_formed c -> operands_ok op -> fetches p c (encode op) ->
  exists pc1, add_u16 p (c8_pc c) 1 = Ok pc1 /\
  decode_bytes_to_opcode [observe c (PMem (c8_pc c)); observe c (PMem pc1)] = Ok (Some op).
Proof.
  intros W Hop [Hpc Hw]. exists ((c8_pc c + 1) mod 65536).
  pose proof (wf_pc c W) as Hu. unfold u16 in Hu. split.
  - unfold add_u16, checked. cbn [observe] in Hpc.
    destruct ((0 <=? c8_pc c + 1) && (c8_pc c + 1 <? 65536)) eqn:E.
    + f_equal. lia.
    + destruct Hpc as [->|Hpc]; [reflexivity|lia].
  - destruct (decode_encode op Hop) as [_ D]. rewrite <- D. cbn [observe] in Hw.
    change (observe c (PMem (c8_pc c))) with (peek Debug (c8_space c) (c8_pc c)).
    set (pc1 := (c8_pc c + 1) mod 65536) in *.
    change (observe c (PMem pc1)) with (peek Debug (c8_space c) pc1).
    assert (H1 := observe_mem_u8 c (c8_pc c) W). assert (H2 := observe_mem_u8 c pc1 W).
    cbn [observe] in H1, H2. unfold u8 in *. rewrite Hw. f_equal.
    f_equal; [lia|]. f_equal. lia.
Qed.

Lemma next_unfold e p c w op : well_formed c -> operands_ok op -> fetches p c (encode op) ->
  next e p c w =
  (do! ' (generated, w) <- generate e p op c w ;
   do! ' (c', w) <- execute_all e p (generated ++ [Inc16bitRegister WordPc 2]) (c, w) ;
   Ok (generated ++ [Inc16bitRegister WordPc 2], c', w)).
Proof.
  intros W Hop Hf. destruct (fetch_decode p c op W Hop Hf) as (pc1 & E1 & D).
  unfold next. rewrite (read_mem p c _ W). cbn [bind]. rewrite E1. cbn [bind].
  rewrite (read_mem p c _ W). cbn [bind]. rewrite D. reflexivity.
Qed.

Lemma becomes_ext e p c w f g w' : (forall q, f q = g q) -> becomes e p c w f w' -> becomes e p c w g w'.
Proof.
  intros H (c' & E & W & L). exists c'. split; [exact E|]. split; [exact W|].
  intros q. rewrite L. apply H.
Qed.

Lemma step_from e p c w op mcs w1 g w' : well_formed c -> operands_ok op -> fetches p c (encode op) ->
  generate e p op c w = Ok (mcs, w1) -> runs e p mcs c w1 g w' ->
  becomes e p c w (upd g PPC ((g PPC + 2) mod 65536)) w'.
Proof.
  intros W Hop Hf Hg (c1 & E & W1 & L1).
  destruct (ex_pc c1 ((c8_pc c1 + 2) mod 65536) W1 (u16_mod _)) as [W2 L2].
  eexists. split; [|split; [exact W2|]].
  - unfold step. rewrite (next_unfold e p c w op W Hop Hf), Hg. cbn [bind].
    unfold execute_all in *. rewrite foldM_app, E. cbn [bind foldM execute_mut exec_inc16]. reflexivity.
  - intros q. rewrite L2. unfold upd. destruct (part_eqb PPC q); [|apply L1].
    change (c8_pc c1) with (observe c1 PPC). rewrite (L1 PPC). reflexivity.
Qed.
Lemma step_panics_gen e p c w op : well_formed c -> operands_ok op -> fetches p c (encode op) ->
  generate e p op c w = Panic -> step e p c w = Panic.
Proof.
  intros W Hop Hf Hg. unfold step. rewrite (next_unfold e p c w op W Hop Hf), Hg. reflexivity.
Qed.
Lemma step_panics_exec e p c w op mcs w1 : well_formed c -> operands_ok op -> fetches p c (encode op) ->
  generate e p op c w = Ok (mcs, w1) -> execute_all e p mcs (c, w1) = Panic -> step e p c w = Panic.
Proof.
  intros W Hop Hf Hg E. unfold step. rewrite (next_unfold e p c w op W Hop Hf), Hg. cbn [bind].
  unfold execute_all in *. rewrite foldM_app, E. reflexivity.
Qed.
