(** The effect of one CHIP-8 instruction: the code does what
    [SpecChip8.effect] says, for every instruction and every state. *)
From Coq Require Import Lia ZifyBool ZifyNat.
From Verif Require Import Base ModelMap ModelU12 ModelDisplay ModelChip8 ModelOpsChip8 ModelRunChip8.
From Verif Require Import SpecMap ProofMap Link6502 ProofBus Arith SpecChip8 ProofDecode8 ProofChip8.

(** ** Writing VF panics *)
Lemma vec_set_length {A} (l : list A) i v l' : vec_set l i v = Ok l' -> length l' = length l.
Proof.
  unfold vec_set. destruct (_ && _); [|discriminate]. intros E. injection E as <-. apply list_upd_length.
Qed.
Lemma execute_gp_length e p c w mc c' w' : execute_mut e p (c, w) mc = Ok (c', w') ->
  length (c8_gp c') = length (c8_gp c).
Proof.
  destruct mc as [a v|r v|r v|r v|r v|r v|r v|v|v|k| |[x y] v|s t v]; cbn [execute_mut].
  - unfold exec_write_memory. destruct (am_write p (c8_space c) a v) as [[m [u|]]|]; cbn [bind]; try discriminate.
    intros E; injection E as <- <-; reflexivity.
  - destruct r as [g|[|]]; cbn [exec_write8].
    + destruct (vec_set (c8_gp c) (gp_index g) v) as [l|] eqn:El; cbn [bind]; [|discriminate].
      intros E; injection E as <- <-. exact (vec_set_length _ _ _ _ El).
    + intros E; injection E as <- <-; reflexivity.
    + intros E; injection E as <- <-; reflexivity.
  - destruct r as [g|[|]]; cbn [exec_inc8].
    + destruct (read_gp_register c g) as [u|]; cbn [bind]; [|discriminate].
      destruct (vec_set (c8_gp c) (gp_index g) _) as [l|] eqn:El; cbn [bind]; [|discriminate].
      intros E; injection E as <- <-. exact (vec_set_length _ _ _ _ El).
    + destruct (clock_read e p (c8_st c) w) as [[u w1]|]; cbn [bind]; [|discriminate].
      intros E; injection E as <- <-; reflexivity.
    + destruct (clock_read e p (c8_dt c) w) as [[u w1]|]; cbn [bind]; [|discriminate].
      intros E; injection E as <- <-; reflexivity.
  - intros E; injection E as <- <-; reflexivity.
  - destruct r; intros E; injection E as <- <-; reflexivity.
  - destruct r; intros E; injection E as <- <-; reflexivity.
  - intros E; injection E as <- <-; reflexivity.
  - unfold exec_push. destruct (ring_write _ _ _) as [[s [u|]]|]; cbn [bind]; try discriminate.
    intros E; injection E as <- <-; reflexivity.
  - intros E; injection E as <- <-; reflexivity.
  - intros E; injection E as <- <-; reflexivity.
  - intros E; injection E as <- <-; reflexivity.
  - destruct (write_pixel_mut _ _ _ _) as [[d o]|]; cbn [bind]; [|discriminate].
    intros E; injection E as <- <-; reflexivity.
  - unfold exec_set_range. destruct s as [sx sy], t as [tx ty].
    repeat match goal with
    | |- context [bind (mul_usize ?a ?b ?d) _] => destruct (mul_usize a b d); cbn [bind]; [|discriminate]
    | |- context [bind (add_usize ?a ?b ?d) _] => destruct (add_usize a b d); cbn [bind]; [|discriminate]
    | |- context [bind (sub_usize ?a ?b ?d) _] => destruct (sub_usize a b d); cbn [bind]; [|discriminate]
    end.
    intros E; injection E as <- <-; reflexivity.
Qed.
Lemma writes_vf_panics e p v mcs : forall c w, length (c8_gp c) = 15%nat ->
  In (Write8bitRegister (ByteGp Vf) v) mcs -> execute_all e p mcs (c, w) = Panic.
Proof.
  unfold execute_all. induction mcs as [|mc mcs IH]; intros c w L Hin; [contradiction|].
  cbn [foldM]. destruct Hin as [->|Hin].
  - cbn [execute_mut exec_write8]. unfold vec_set. cbn [gp_index].
    replace ((0 <=? 15) && (15 <? Z.of_nat (length (c8_gp c)))) with false by lia. reflexivity.
  - destruct (execute_mut e p (c, w) mc) as [[c' w']|] eqn:E; cbn [bind]; [|reflexivity].
    apply IH; [|exact Hin]. rewrite (execute_gp_length _ _ _ _ _ _ _ E). exact L.
Qed.

(** ** Lists of registers *)
Lemma mapM_panic {A B} (f : A -> res B) l a : In a l -> f a = Panic -> mapM f l = Panic.
Proof.
  induction l as [|b l IH]; intros Hin E; [contradiction|]. cbn [mapM].
  destruct Hin as [->|Hin]; [rewrite E; reflexivity|].
  destruct (f b); cbn [bind]; [|reflexivity]. rewrite IH; auto.
Qed.
Lemma mapM_ok {A B} (f : A -> res B) (g : A -> B) l : (forall a, In a l -> f a = Ok (g a)) ->
  mapM f l = Ok (map g l).
Proof.
  induction l as [|b l IH]; intros H; [reflexivity|]. cbn [mapM map].
  rewrite (H b (or_introl eq_refl)). cbn [bind]. rewrite IH; [reflexivity|].
  intros a Ha. apply H. right. exact Ha.
Qed.
Lemma register_indices_seq r :
  register_indices (gp_index r) = map Z.of_nat (seq 0 (S (Z.to_nat (gp_index r)))).
Proof. destruct r; reflexivity. Qed.
Lemma gp_try_from_index r : gp_try_from (gp_index r) = Some r.
Proof. destruct r; reflexivity. Qed.
Lemma gp_of_index k : 0 <= k < 16 -> exists r, gp_try_from k = Some r /\ gp_index r = k.
Proof.
  intros H. assert (K : forallb (fun v => match gp_try_from v with Some r => gp_index r =? v | None => false end) (below 16) = true)
    by reflexivity.
  pose proof (sweep_below 16 _ K k H) as E. cbn beta in E. destruct (gp_try_from k) as [r|]; [|discriminate].
  exists r. split; [reflexivity|lia].
Qed.
Lemma in_indices r k : In k (register_indices (gp_index r)) <-> 0 <= k <= gp_index r.
Proof.
  rewrite register_indices_seq, in_map_iff. pose proof (gp_index_range r). split.
  - intros (n & <- & Hn). apply in_seq in Hn. lia.
  - intros Hk. exists (Z.to_nat k). split; [lia|]. apply in_seq. lia.
Qed.

(** Storing [n] bytes from address [i + s]. *)
Lemma store_many e p i g w : forall n s c, well_formed c -> 0 <= i -> 
  (forall k, u8 (g k)) ->
  let mcs := map (fun k => WriteMemory (i + k) (g k)) (map Z.of_nat (seq s n)) in
  if i + Z.of_nat s + Z.of_nat n <=? 0x1000 then
    runs e p mcs c w (fun q => match q with
                               | PMem a => if (i + Z.of_nat s <=? a) && (a <? i + Z.of_nat s + Z.of_nat n)
                                           then g (a - i) else observe c q
                               | _ => observe c q end) w
  else (0 < n)%nat -> execute_all e p mcs (c, w) = Panic.
Proof.
  induction n as [|n IH]; intros s c W Hi Hg mcs; unfold mcs.
  - destruct (_ <=? _); [|intros; lia]. cbn [seq map]. destruct (runs_nil e p c w W) as (c' & E & W' & L).
    exists c'. split; [exact E|]. split; [exact W'|]. intros q. rewrite L. destruct q; try reflexivity.
    replace ((i + Z.of_nat s <=? a) && (a <? i + Z.of_nat s + Z.of_nat 0)) with false by lia. reflexivity.
  - cbn [seq map]. destruct (Z.leb_spec (i + Z.of_nat s) 0xfff) as [Hs|Hs].
    + destruct (ex_mem p c (i + Z.of_nat s) (g (Z.of_nat s)) W ltac:(lia) (Hg _)) as (c1 & E1 & [W1 L1] & _).
      specialize (IH (S s) c1 W1 Hi Hg). cbn zeta in IH.
      replace (i + Z.of_nat (S s) + Z.of_nat n) with (i + Z.of_nat s + Z.of_nat (S n)) in IH by lia.
      destruct (i + Z.of_nat s + Z.of_nat (S n) <=? 0x1000) eqn:Eb.
      * destruct IH as (c2 & E2 & W2 & L2). exists c2. split; [|split; [exact W2|]].
        -- unfold execute_all in *. cbn [foldM execute_mut]. rewrite E1. cbn [bind]. exact E2.
        -- intros q. rewrite L2. destruct q; try (rewrite L1; reflexivity).
           destruct (Z.eqb_spec (i + Z.of_nat s) a) as [Ea|Ea].
           ++ replace ((i + Z.of_nat (S s) <=? a) && (a <? i + Z.of_nat s + Z.of_nat (S n))) with false by lia.
              replace ((i + Z.of_nat s <=? a) && (a <? i + Z.of_nat s + Z.of_nat (S n))) with true by lia.
              rewrite L1, <- Ea, upd_same. f_equal. lia.
           ++ replace ((i + Z.of_nat (S s) <=? a) && (a <? i + Z.of_nat s + Z.of_nat (S n)))
                with ((i + Z.of_nat s <=? a) && (a <? i + Z.of_nat s + Z.of_nat (S n))) by lia.
              destruct (_ && _); [reflexivity|]. rewrite L1. apply upd_other. congruence.
      * intros _. unfold execute_all in *. cbn [foldM execute_mut]. rewrite E1. cbn [bind].
        apply IH. lia.
    + replace (i + Z.of_nat s + Z.of_nat (S n) <=? 0x1000) with false by lia. intros _.
      unfold execute_all. cbn [foldM execute_mut]. rewrite ex_mem_out by (assumption || lia). reflexivity.
Qed.

(** Loading registers [s .. s + n - 1]. *)
Lemma load_many e p g w : forall n s c, well_formed c -> (forall k, u8 (g k)) -> (s + n <= 15)%nat ->
  runs e p (map (fun k => match gp_try_from k with
                          | Some r => write_gp r (g k) | None => KeyRelease end) (map Z.of_nat (seq s n))) c w
    (fun q => match q with
              | PV k => if (Z.of_nat s <=? k) && (k <? Z.of_nat s + Z.of_nat n) then g k else observe c q
              | _ => observe c q end) w.
Proof.
  induction n as [|n IH]; intros s c W Hg Hn.
  - cbn [seq map]. destruct (runs_nil e p c w W) as (c' & E & W' & L).
    exists c'. split; [exact E|]. split; [exact W'|]. intros q. rewrite L. destruct q; try reflexivity.
    replace ((Z.of_nat s <=? x) && (x <? Z.of_nat s + Z.of_nat 0)) with false by lia. reflexivity.
  - cbn [seq map]. destruct (gp_of_index (Z.of_nat s) ltac:(lia)) as (r & Er & Ir). rewrite Er.
    destruct (ex_gp c (gp_index r) (g (Z.of_nat s)) W ltac:(lia) (Hg _)) as (gp & E1 & [W1 L1]).
    destruct (IH (S s) _ W1 Hg ltac:(lia)) as (c2 & E2 & W2 & L2).
    exists c2. split; [|split; [exact W2|]].
    + unfold execute_all in *. cbn [foldM]. unfold write_gp at 1. cbn [execute_mut exec_write8]. rewrite E1. cbn [bind]. exact E2.
    + intros q. rewrite L2. destruct q; try (rewrite L1; reflexivity).
      destruct (Z.eqb_spec (Z.of_nat s) x) as [Ea|Ea].
      * replace ((Z.of_nat (S s) <=? x) && (x <? Z.of_nat (S s) + Z.of_nat n)) with false by lia.
        replace ((Z.of_nat s <=? x) && (x <? Z.of_nat s + Z.of_nat (S n))) with true by lia.
        rewrite L1, Ir, Ea, upd_same. reflexivity.
      * replace ((Z.of_nat (S s) <=? x) && (x <? Z.of_nat (S s) + Z.of_nat n))
          with ((Z.of_nat s <=? x) && (x <? Z.of_nat s + Z.of_nat (S n))) by lia.
        destruct (_ && _); [reflexivity|]. rewrite L1. apply upd_other. congruence.
Qed.

(** ** Timers *)
Lemma clock_read_eq e p c w : u8 (clock_inner c) ->
  clock_read e p c w = Ok (clocked (clock_inner c) (written_at c) (env_time e (w_time w)),
                           mkWorld (S (w_time w)) (w_random w)).
Proof.
  intros Hv. unfold u8 in Hv. unfold clock_read, elapsed_secs, now, clocked.
  set (s := Z.max 0 (env_time e (w_time w) - written_at c) / 1000000000).
  assert (Hs : 0 <= s) by (apply Z.div_pos; lia). clearbody s.
  destruct (s <? clock_inner c) eqn:E.
  - replace (s <=? 255) with true by lia. unfold sub_u8. rewrite checked_ok by lia. cbn [bind].
    f_equal. f_equal. lia.
  - f_equal. f_equal. lia.
Qed.
Lemma clocked_u8 v t0 t : u8 v -> u8 (clocked v t0 t).
Proof.
  unfold clocked, u8. intros H. assert (0 <= Z.max 0 (t - t0) / 1000000000) by (apply Z.div_pos; lia). lia.
Qed.

(** ** Every instruction *)
Section Step.
Variables (e : environment) (p : profile) (c : chip8) (w : world).
Hypothesis W : well_formed c.
Hypothesis He : env_ok e.

Lemma v_obs r : v (observe c) r = observe c (PV (gp_index r)).
Proof. reflexivity. Qed.
Lemma v_u8 r : has r = true -> u8 (v (observe c) r).
Proof. intros H. apply observe_v_u8; [exact W|]. apply has_index, H. Qed.
Lemma pc_u16 : u16 (observe c PPC).
Proof. exact (wf_pc c W). Qed.
Lemma i_u16 : u16 (observe c PI).
Proof. exact (wf_i c W). Qed.

Lemma runs_gp r x w1 : has r = true -> u8 x ->
  runs e p [write_gp r x] c w1 (upd (observe c) (PV (gp_index r)) x) w1.
Proof.
  intros Hr Hx. destruct (ex_gp c (gp_index r) x W (has_index r Hr) Hx) as (gp & E & L).
  apply (runs_one e p _ c w1 (set_gp c gp) w1); [|exact L].
  unfold write_gp. cbn [execute_mut exec_write8]. rewrite E. reflexivity.
Qed.
Lemma runs_write_pc x w1 : u16 x ->
  runs e p [Write16bitRegister WordPc x] c w1 (upd (observe c) PPC x) w1.
Proof. intros Hx. apply (runs_one e p _ c w1 (set_pc c x) w1); [reflexivity|]. apply ex_pc; assumption. Qed.
Lemma runs_skip w1 :
  runs e p [skip_next] c w1 (upd (observe c) PPC ((observe c PPC + 2) mod 65536)) w1.
Proof.
  apply (runs_one e p _ c w1 (set_pc c ((c8_pc c + 2) mod 65536)) w1); [reflexivity|].
  apply ex_pc; [assumption|apply u16_mod].
Qed.
Lemma runs_write_i x w1 : u16 x ->
  runs e p [Write16bitRegister WordI x] c w1 (upd (observe c) PI x) w1.
Proof. intros Hx. apply (runs_one e p _ c w1 (set_i c x) w1); [reflexivity|]. apply ex_i; assumption. Qed.

(** What [effect] promises. *)
Definition delivers (o : option ((part -> Z) * world)) : Prop :=
  match o with
  | Some (f, w') => becomes e p c w f w'
  | None => step e p c w = Panic
  end.

Lemma advance_twice q : upd (upd (observe c) PPC ((observe c PPC + 2) mod 65536)) PPC
    ((upd (observe c) PPC ((observe c PPC + 2) mod 65536) PPC + 2) mod 65536) q
  = advance (observe c) 4 q.
Proof.
  unfold advance. rewrite upd_same. unfold upd. destruct (part_eqb PPC q); [|reflexivity].
  pose proof pc_u16 as H. unfold u16 in H. lia.
Qed.

Ltac others := intros q; unfold advance; destruct q; try reflexivity.

(** An instruction that writes one V register. *)
Lemma deliver_gp op r x w1 : operands_ok op -> fetches p c (encode op) ->
  generate e p op c w = Ok ([write_gp r x], w1) -> has r = true -> u8 x ->
  becomes e p c w (upd (advance (observe c) 2) (PV (gp_index r)) x) w1.
Proof.
  intros Hop Hf Hg Hr Hx.
  eapply becomes_ext; [|exact (step_from _ _ _ _ _ _ _ _ _ W Hop Hf Hg (runs_gp r x w1 Hr Hx))].
  others.
Qed.
(** An instruction that skips or not. *)
Lemma deliver_skip op (b : bool) : operands_ok op -> fetches p c (encode op) ->
  generate e p op c w = Ok (if b then [skip_next] else [], w) ->
  becomes e p c w (advance (observe c) (if b then 4 else 2)) w.
Proof.
  intros Hop Hf Hg. destruct b.
  - eapply becomes_ext; [|exact (step_from _ _ _ _ _ _ _ _ _ W Hop Hf Hg (runs_skip w))].
    exact advance_twice.
  - eapply becomes_ext; [|exact (step_from _ _ _ _ _ _ _ _ _ W Hop Hf Hg (runs_nil e p c w W))].
    others.
Qed.
(** An instruction that jumps to [x]. *)
Lemma jump_arith x : u16 x -> ((x - 2) mod 65536 + 2) mod 65536 = x.
Proof. unfold u16. lia. Qed.
Lemma deliver_jump op x : operands_ok op -> fetches p c (encode op) -> u16 x ->
  generate e p op c w = Ok ([Write16bitRegister WordPc (wrapping_sub_u16 x 2)], w) ->
  becomes e p c w (upd (observe c) PPC x) w.
Proof.
  intros Hop Hf Hx Hg.
  eapply becomes_ext; [|exact (step_from _ _ _ _ _ _ _ _ _ W Hop Hf Hg (runs_write_pc _ w (u16_mod _)))].
  intros q. unfold wrapping_sub_u16. rewrite upd_same, (jump_arith x Hx).
  unfold upd. destruct (part_eqb PPC q); reflexivity.
Qed.
(** An instruction that loads I. *)
Lemma deliver_i op x : operands_ok op -> fetches p c (encode op) -> u16 x ->
  generate e p op c w = Ok ([Write16bitRegister WordI x], w) ->
  becomes e p c w (upd (advance (observe c) 2) PI x) w.
Proof.
  intros Hop Hf Hx Hg.
  eapply becomes_ext; [|exact (step_from _ _ _ _ _ _ _ _ _ W Hop Hf Hg (runs_write_i _ w Hx))].
  others.
Qed.

Lemma key_range : -1 <= observe c PKey < 16.
Proof.
  cbn [observe]. unfold key_number. destruct (c8_interrupt c) as [[k]|]; [destruct k; cbn; lia|lia].
Qed.

(** The instructions that write a flag into VF. *)
Definition writes_flag (op : opcode) : bool :=
  match op with AddVxVy _ _ | Sub _ _ | Subn _ _ | Shl _ _ | Shr _ _ => true | _ => false end.
Lemma arith_panics op : operands_ok op -> fetches p c (encode op) -> writes_flag op = true ->
  step e p c w = Panic.
Proof.
  intros Hop Hf Hb. destruct (generate e p op c w) as [[mcs w1]|] eqn:Hg.
  2:{ exact (step_panics_gen e p c w _ W Hop Hf Hg). }
  apply (step_panics_exec e p c w _ mcs w1 W Hop Hf Hg).
  assert (K : exists b, In (Write8bitRegister (ByteGp Vf) b) mcs).
  { destruct op as [ | |x y n|a|a|a|a|a|x k|x y|x|x|x|x|x|x|x k|x|x y|x y|x y|x y|x y|x y|x y|x y|x y|x k|x y|x k|x|x|x|x|x k];
      try discriminate; cbn [generate] in Hg;
      unfold gen_add_vxvy, gen_sub, gen_subn, gen_shl, gen_shr in Hg;
      repeat match type of Hg with
      | context [read_gp_register c ?r] => destruct (read_gp_register c r); cbn [bind] in Hg; [|discriminate Hg]
      end; injection Hg as <- _; eexists;
      first [left; reflexivity | right; left; reflexivity]. }
  destruct K as (b & K). exact (writes_vf_panics e p b mcs c w1 (proj1 (wf_gp c W)) K).
Qed.

(** AND, OR, XOR. *)
Lemma deliver_logic op (g : Z -> Z -> Z) x y : operands_ok op -> fetches p c (encode op) ->
  generate e p op c w = (do! l <- gen_logic g c y x ; Ok (l, w)) ->
  (forall a b, u8 a -> u8 b -> u8 (g a b)) ->
  delivers (needs (has x && has y)
    (done w (upd (advance (observe c) 2) (PV (gp_index x)) (g (v (observe c) x) (v (observe c) y))))).
Proof.
  intros Hop Hf Hg Hu. unfold gen_logic in Hg. destruct (has y) eqn:Hy.
  - rewrite (read_gp c y W Hy) in Hg. cbn [bind] in Hg. destruct (has x) eqn:Hr; cbn [andb needs done delivers].
    + rewrite (read_gp c x W Hr) in Hg. cbn [bind] in Hg. 
      apply (deliver_gp _ x _ w Hop Hf Hg Hr). apply Hu; apply v_u8; assumption.
    + rewrite (read_gp_vf c x W Hr) in Hg. exact (step_panics_gen e p c w _ W Hop Hf Hg).
  - rewrite andb_false_r. rewrite (read_gp_vf c y W Hy) in Hg. exact (step_panics_gen e p c w _ W Hop Hf Hg).
Qed.

(** Fx55. *)
Lemma deliver_store x : operands_ok (StoreRegistersToMemory x) -> fetches p c (encode (StoreRegistersToMemory x)) ->
  delivers (effect e p (observe c) w (StoreRegistersToMemory x)).
Proof.
  intros Hop Hf. cbn [effect]. pose proof i_u16 as Hi. unfold u16 in Hi. pose proof (gp_index_range x) as Hx.
  set (i := observe c PI) in *.
  destruct (has x) eqn:Hr; cbn [andb needs].
  2:{ cbn [delivers]. apply (step_panics_gen e p c w _ W Hop Hf). cbn [generate]. unfold gen_store_registers.
      rewrite (mapM_panic _ _ 15); [reflexivity| |].
      - apply in_indices. apply has_not in Hr as ->. cbn. lia.
      - cbn [gp_try_from unwrap bind]. rewrite (read_gp_vf c Vf W eq_refl). reflexivity. }
  pose proof (has_index x Hr) as Hx'.
  set (g := fun k => if (0 <=? k) && (k <? 15) then observe c (PV k) else 0).
  assert (Hg8 : forall k, u8 (g k)).
  { intros k. unfold g. destruct (_ && _) eqn:E; [|unfold u8; lia]. apply observe_v_u8; [exact W|lia]. }
  pose proof (store_many e p i g w (S (Z.to_nat (gp_index x))) 0 c W (proj1 Hi) Hg8) as K. cbn zeta in K.
  change (Z.of_nat 0) with 0 in K. rewrite Z.add_0_r in K.
  assert (Hin : forall k, In k (register_indices (gp_index x)) -> add_u16 p i k = Ok (i + k) ->
     (do! reg <- unwrap (gp_try_from k) ;
      do! src_val <- read_gp_register c reg ;
      do! i_idx <- add_u16 p (c8_i c) (gp_index reg) ;
      Ok (WriteMemory i_idx src_val)) = Ok (WriteMemory (i + k) (g k))).
  { intros k Hk Ea. apply in_indices in Hk. destruct (gp_of_index k ltac:(lia)) as (r & Er & Ir).
    rewrite Er. cbn [unwrap bind]. rewrite (read_gp c r W) by (unfold has; lia). cbn [bind].
    change (c8_i c) with i. rewrite Ir, Ea. cbn [bind]. unfold g.
    replace ((0 <=? k) && (k <? 15)) with true by lia. reflexivity. }
  destruct (Z.leb_spec (i + gp_index x) 65535) as [Hs|Hs].
  - assert (Hg : generate e p (StoreRegistersToMemory x) c w =
       Ok (map (fun k => WriteMemory (i + k) (g k)) (map Z.of_nat (seq 0 (S (Z.to_nat (gp_index x))))), w)).
    { cbn [generate]. unfold gen_store_registers.
      rewrite (mapM_ok _ (fun k => WriteMemory (i + k) (g k))), register_indices_seq; [reflexivity|].
      intros k Hk. apply Hin; [exact Hk|]. apply in_indices in Hk. unfold add_u16. apply checked_ok. lia. }
    replace (i + Z.of_nat (S (Z.to_nat (gp_index x))) <=? 4096) with (i + gp_index x <=? 4095) in K by lia.
    destruct (i + gp_index x <=? 4095); cbn [needs done delivers].
    + eapply becomes_ext; [|exact (step_from _ _ _ _ _ _ _ _ _ W Hop Hf Hg K)].
      intros q. destruct q; try reflexivity. unfold upd. cbn [part_eqb].
      replace ((i <=? a) && (a <? i + Z.of_nat (S (Z.to_nat (gp_index x)))))
        with ((i <=? a) && (a <=? i + gp_index x)) by lia.
      destruct ((i <=? a) && (a <=? i + gp_index x)) eqn:E; [|reflexivity].
      unfold g. replace ((0 <=? a - i) && (a - i <? 15)) with true by lia. reflexivity.
    + apply (step_panics_exec e p c w _ _ _ W Hop Hf Hg). apply K. lia.
  - replace (i + gp_index x <=? 4095) with false by lia. cbn [needs delivers].
    destruct (generate e p (StoreRegistersToMemory x) c w) as [[mcs w1]|] eqn:Hg.
    2:{ exact (step_panics_gen e p c w _ W Hop Hf Hg). }
    apply (step_panics_exec e p c w _ _ _ W Hop Hf Hg).
    cbn [generate] in Hg. unfold gen_store_registers in Hg. rewrite register_indices_seq in Hg.
    cbn [seq map mapM] in Hg. change (Z.of_nat 0) with 0 in Hg.
    rewrite (Hin 0) in Hg.
    2:{ apply in_indices. lia. }
    2:{ unfold add_u16. apply checked_ok. lia. }
    cbn [bind] in Hg. destruct (mapM _ _) as [l|] in Hg; cbn [bind] in Hg; [|discriminate].
    injection Hg as <- _. unfold execute_all. cbn [foldM execute_mut].
    rewrite ex_mem_out by (assumption || lia). reflexivity.
Qed.

(** Fx65. *)
Lemma deliver_load x : operands_ok (ReadRegistersFromMemory x) -> fetches p c (encode (ReadRegistersFromMemory x)) ->
  delivers (effect e p (observe c) w (ReadRegistersFromMemory x)).
Proof.
  intros Hop Hf. cbn [effect]. pose proof i_u16 as Hi. unfold u16 in Hi. pose proof (gp_index_range x) as Hx.
  set (i := observe c PI) in *.
  set (g := fun k => observe c (PMem ((i + k) mod 65536))).
  assert (Hin : forall k, In k (register_indices (gp_index x)) -> forall a, add_u16 p i k = Ok a ->
     (do! reg <- unwrap (gp_try_from k) ;
      do! i_idx <- add_u16 p (c8_i c) (gp_index reg) ;
      do! i_indirect_val <- am_read p (c8_space c) i_idx ;
      Ok (write_gp reg i_indirect_val)) =
     Ok (match gp_try_from k with Some r => write_gp r (g k) | None => KeyRelease end)).
  { intros k Hk a Ea. apply in_indices in Hk. destruct (gp_of_index k ltac:(lia)) as (r & Er & Ir).
    rewrite Er. cbn [unwrap bind]. change (c8_i c) with i. rewrite Ir, Ea. cbn [bind].
    rewrite (read_mem p c _ W). cbn [bind]. unfold g. do 3 f_equal.
    unfold add_u16, checked in Ea. destruct (_ && _) eqn:E in Ea.
    - assert (a = i + k) by congruence. f_equal. lia.
    - destruct p; [discriminate|]. congruence. }
  assert (Hgen : (forall k, 0 <= k <= gp_index x -> exists a, add_u16 p i k = Ok a) ->
     generate e p (ReadRegistersFromMemory x) c w =
       Ok (map (fun k => match gp_try_from k with Some r => write_gp r (g k) | None => KeyRelease end)
             (map Z.of_nat (seq 0 (S (Z.to_nat (gp_index x))))), w)).
  { intros Ha. cbn [generate]. unfold gen_read_registers.
    rewrite (mapM_ok _ (fun k => match gp_try_from k with Some r => write_gp r (g k) | None => KeyRelease end)),
      register_indices_seq; [reflexivity|].
    intros k Hk. destruct (Ha k) as (a & Ea); [apply in_indices, Hk|]. exact (Hin k Hk a Ea). }
  assert (Hok : (match p with Debug => i + gp_index x <? 65536 | Release => true end) = true ->
            forall k, 0 <= k <= gp_index x -> exists a, add_u16 p i k = Ok a).
  { intros Hb k Hk. unfold add_u16, checked. destruct (_ && _) eqn:E; [eexists; reflexivity|].
    destruct p; [lia|eexists; reflexivity]. }
  destruct (match p with Debug => i + gp_index x <? 65536 | Release => true end) eqn:Hb.
  - specialize (Hgen (Hok eq_refl)). destruct (has x) eqn:Hr; cbn [andb needs done delivers].
    + pose proof (has_index x Hr) as Hx'.
      pose proof (load_many e p g w (S (Z.to_nat (gp_index x))) 0 c W
        (fun k => observe_mem_u8 c _ W) ltac:(lia)) as K.
      change (Z.of_nat 0) with 0 in K. rewrite Z.add_0_l in K.
      eapply becomes_ext; [|exact (step_from _ _ _ _ _ _ _ _ _ W Hop Hf Hgen K)].
      intros q. destruct q as [| | |k|k|a|k l| | | | |]; try reflexivity. unfold upd. cbn [part_eqb].
      replace ((0 <=? k) && (k <? Z.of_nat (S (Z.to_nat (gp_index x)))))
        with ((0 <=? k) && (k <=? gp_index x)) by lia. reflexivity.
    + apply (step_panics_exec e p c w _ _ _ W Hop Hf Hgen).
      apply (writes_vf_panics e p (g 15)); [apply (wf_gp c W)|].
      apply in_map_iff. exists 15. split; [reflexivity|]. apply has_not in Hr as ->.
      apply in_map_iff. exists 15%nat. split; [reflexivity|]. apply in_seq. cbn. lia.
  - rewrite andb_false_r. unfold needs, delivers. destruct p; [|discriminate].
    apply (step_panics_gen e Debug c w _ W Hop Hf). cbn [generate]. unfold gen_read_registers.
    rewrite (mapM_panic _ _ (gp_index x)); [reflexivity|apply in_indices; lia|].
    rewrite gp_try_from_index. cbn [unwrap bind]. change (c8_i c) with i.
    unfold add_u16, checked. replace ((0 <=? i + gp_index x) && (i + gp_index x <? 65536)) with false by lia.
    reflexivity.
Qed.

(** The main theorem. *)
Lemma step_effect op : operands_ok op -> fetches p c (encode op) ->
  delivers (effect e p (observe c) w op).
Proof.
  intros Hop Hf.
  Local Ltac rd r := let Hr := fresh "Hr" in destruct (has r) eqn:Hr;
    cbn [andb needs delivers].
  destruct op as [ | |x y n|a|a|a|a|a|x k|x y|x|x|x|x|x|x|x k|x|x y|x y|x y|x y|x y|x y|x y|x y|x y|x k|x y|x k|x|x|x|x|x k];
    unfold effect; pose proof Hop as Hop'; cbn [operands_ok] in Hop'.
  - (* Cls *) cbn [done delivers]. destruct (ex_cls p c W) as (c1 & E & L).
    eapply becomes_ext; [|eapply (step_from e p c w Cls); [exact W|exact Hop|exact Hf|reflexivity|]].
    2:{ apply (runs_one e p _ c w c1 w); [|exact L]. cbn [execute_mut]. rewrite E. reflexivity. }
    others.
  - (* Ret *) cbn [done delivers].
    pose proof (ring_read_wf c (observe c PSP) W (wf_sp c W)) as Hrd.
    pose proof (observe_stack_u16 c (observe c PSP) W (wf_sp c W)) as Hst.
    set (x := observe c (PStack (observe c PSP))) in *.
    assert (Hg : generate e p Ret c w = Ok ([PopStack x; Write16bitRegister WordPc (wrapping_sub_u16 x 2)], w)).
    { cbn [generate]. unfold gen_ret. rewrite (sp_read_wf c W), Hrd. reflexivity. }
    assert (Hr : runs e p [PopStack x; Write16bitRegister WordPc (wrapping_sub_u16 x 2)] c w
                   (upd (observe c) PPC (wrapping_sub_u16 x 2)) w).
    { exact (runs_write_pc (wrapping_sub_u16 x 2) w (u16_mod _)). }
    eapply becomes_ext; [|exact (step_from _ _ _ _ _ _ _ _ _ W Hop Hf Hg Hr)].
    intros q. unfold wrapping_sub_u16. rewrite upd_same, (jump_arith x Hst).
    unfold upd. destruct (part_eqb PPC q); reflexivity.
  - (* Drw *) cbn [delivers]. destruct (generate e p (Drw x y n) c w) as [[mcs w1]|] eqn:Hg.
    + apply (step_panics_exec e p c w _ mcs w1 W Hop Hf Hg).
      cbn [generate] in Hg. unfold gen_drw in Hg.
      destruct (add_u16 p (c8_i c) n); cbn [bind] in Hg; [|discriminate].
      destruct (mapM _ _); cbn [bind] in Hg; [|discriminate].
      destruct (read_gp_register c x); cbn [bind] in Hg; [|discriminate].
      destruct (read_gp_register c y); cbn [bind] in Hg; [|discriminate].
      destruct (foldM _ _ _) as [[col px]|]; cbn [bind] in Hg; [|discriminate].
      injection Hg as <- <-. apply (writes_vf_panics e p (bool_as_u8 col)); [apply (wf_gp c W)|].
      apply in_or_app. right. left. reflexivity.
    + exact (step_panics_gen e p c w _ W Hop Hf Hg).
  - (* Sys *) exact (deliver_skip _ false Hop Hf eq_refl).
  - (* Call *) cbn [done delivers].
    destruct (ex_push c (observe c PPC) W pc_u16) as (c1 & E1 & [W1 L1] & _).
    destruct (ex_pc c1 (wrapping_sub_u16 a 2) W1 (u16_mod _)) as [W2 L2].
    assert (Hr : runs e p (gen_call c a) c w
              (upd (upd (observe c) (PStack (observe c PSP)) (observe c PPC)) PPC (wrapping_sub_u16 a 2)) w).
    { exists (set_pc c1 (wrapping_sub_u16 a 2)). split; [|split; [exact W2|]].
      - unfold gen_call, execute_all. cbn [foldM execute_mut]. 
        change (c8_pc c) with (observe c PPC). rewrite E1. reflexivity.
      - intros q. rewrite L2. unfold upd at 1 2. destruct (part_eqb PPC q); [reflexivity|apply L1]. }
    eapply becomes_ext; [|exact (step_from e p c w (Call a) _ w _ _ W Hop Hf eq_refl Hr)].
    intros q. unfold wrapping_sub_u16. rewrite upd_same, (jump_arith a) by (unfold u16; lia).
    unfold upd. destruct (part_eqb PPC q); reflexivity.
  - (* Jp *) cbn [done delivers]. apply (deliver_jump _ a Hop Hf); [unfold u16; lia|reflexivity].
  - (* JpV0 *) cbn [done delivers]. rewrite (v_obs V0).
    pose proof (v_u8 V0 eq_refl) as H0. rewrite v_obs in H0. unfold u8 in H0.
    set (z := observe c (PV (gp_index V0))) in *.
    apply (deliver_jump _ _ Hop Hf); [unfold u16; lia|].
    cbn [generate]. unfold gen_jp_v0. rewrite (read_gp c V0 W eq_refl). fold z. cbn [bind].
    unfold u12_new at 1, u12_max. replace (4095 <? z) with false by lia. cbn [bind].
    unfold u12_wrapping_add, u16_mask, u12_max, wrapping_add_u16, u12_new.
    change 4095 with (Z.ones 12). rewrite Z.land_ones by lia. change (2 ^ 12) with 4096.
    change (Z.ones 12) with 4095. unfold u12_max.
    replace (4095 <? ((a + z) mod 65536) mod 4096) with false by lia.
    cbn [bind]. unfold u12_into.
    replace (((a + z) mod 65536) mod 4096) with ((a + z) mod 4096) by lia. reflexivity.
  - (* LdAbsolute *) cbn [done delivers]. apply (deliver_i _ a Hop Hf); [unfold u16; lia|reflexivity].
  - (* LdImmediate *) rd x.
    + apply (deliver_gp _ x k w Hop Hf eq_refl Hr Hop').
    + apply (step_panics_exec e p c w _ _ _ W Hop Hf eq_refl).
      apply has_not in Hr as ->. apply (writes_vf_panics e p k); [apply (wf_gp c W)|left; reflexivity].
  - (* LdVxVy *) destruct (has y) eqn:Hy.
    + rd x.
      * apply (deliver_gp _ x _ w Hop Hf); [|exact Hr|apply v_u8, Hy].
        cbn [generate]. unfold gen_ld_vxvy. rewrite (read_gp c y W Hy). reflexivity.
      * apply (step_panics_exec e p c w _ [write_gp x (v (observe c) y)] w W Hop Hf).
        -- cbn [generate]. unfold gen_ld_vxvy. rewrite (read_gp c y W Hy). reflexivity.
        -- apply has_not in Hr as ->. eapply writes_vf_panics; [apply (wf_gp c W)|left; reflexivity].
    + rewrite andb_false_r. apply (step_panics_gen e p c w _ W Hop Hf).
      cbn [generate]. unfold gen_ld_vxvy. rewrite (read_gp_vf c y W Hy). reflexivity.
  - (* LdSound *) rd x.
    + assert (Hg : generate e p (LdSoundTimerDestTx x) c w = Ok ([Write8bitRegister (ByteTimer Sound) (v (observe c) x)], w)).
      { cbn [generate]. unfold gen_ld_sound. rewrite (read_gp c x W Hr). reflexivity. }
      assert (Hrn : runs e p [Write8bitRegister (ByteTimer Sound) (v (observe c) x)] c w
        (upd (upd (observe c) PSound (v (observe c) x)) PSoundAt (env_time e (w_time w))) (tick w)).
      { eapply runs_one; [reflexivity|]. exact (ex_st c _ _ W (v_u8 x Hr)). }
      eapply becomes_ext; [|exact (step_from _ _ _ _ _ _ _ _ _ W Hop Hf Hg Hrn)]. others.
    + apply (step_panics_gen e p c w _ W Hop Hf). cbn [generate]. unfold gen_ld_sound.
      rewrite (read_gp_vf c x W Hr). reflexivity.
  - (* LdDelay *) rd x.
    + assert (Hg : generate e p (LdDelayTimerDestTx x) c w = Ok ([Write8bitRegister (ByteTimer Delay) (v (observe c) x)], w)).
      { cbn [generate]. unfold gen_ld_delay. rewrite (read_gp c x W Hr). reflexivity. }
      assert (Hrn : runs e p [Write8bitRegister (ByteTimer Delay) (v (observe c) x)] c w
        (upd (upd (observe c) PDelay (v (observe c) x)) PDelayAt (env_time e (w_time w))) (tick w)).
      { eapply runs_one; [reflexivity|]. exact (ex_dt c _ _ W (v_u8 x Hr)). }
      eapply becomes_ext; [|exact (step_from _ _ _ _ _ _ _ _ _ W Hop Hf Hg Hrn)]. others.
    + apply (step_panics_gen e p c w _ W Hop Hf). cbn [generate]. unfold gen_ld_delay.
      rewrite (read_gp_vf c x W Hr). reflexivity.
  - (* from delay *)
    assert (Hg : generate e p (LdDelayTimerSrcTx x) c w =
      Ok ([write_gp x (clocked (observe c PDelay) (observe c PDelayAt) (env_time e (w_time w)))], tick w)).
    { cbn [generate]. unfold gen_ld_from_delay. rewrite (clock_read_eq e p (c8_dt c) w (wf_dt c W)). reflexivity. }
    rd x.
    + apply (deliver_gp _ x _ (tick w) Hop Hf Hg Hr). apply clocked_u8. exact (wf_dt c W).
    + apply (step_panics_exec e p c w _ _ _ W Hop Hf Hg). apply has_not in Hr as ->.
      eapply writes_vf_panics; [apply (wf_gp c W)|left; reflexivity].
  - (* Bcd *) rd x.
    2:{ apply (step_panics_gen e p c w _ W Hop Hf). cbn [generate]. unfold gen_ld_bcd.
        rewrite (read_gp_vf c x W Hr). reflexivity. }
    pose proof (v_u8 x Hr) as Hv. pose proof i_u16 as Hi. unfold u8, u16 in Hv, Hi.
    set (z := v (observe c) x) in *. set (i := observe c PI) in *.
    set (g := fun k => if k =? 0 then z / 100 else if k =? 1 then (z / 10) mod 10 else z mod 10).
    assert (Hg8 : forall k, u8 (g k)).
    { intros k. unfold g, u8. destruct (k =? 0); [lia|]. destruct (k =? 1); lia. }
    pose proof (store_many e p i g w 3 0 c W (proj1 Hi) Hg8) as K. cbn zeta in K.
    change (seq 0 3) with [0; 1; 2]%nat in K. cbn [map] in K.
    change (Z.of_nat 0) with 0 in K. change (Z.of_nat 1) with 1 in K. change (Z.of_nat 2) with 2 in K.
    change (Z.of_nat 3) with 3 in K. rewrite Z.add_0_r in K.
    assert (Ez : g 0 = z / 100 /\ g 1 = (z mod 100) / 10 /\ g 2 = (z mod 100) mod 10).
    { change (g 0) with (z / 100). change (g 1) with ((z / 10) mod 10). change (g 2) with (z mod 10). repeat split; lia. }
    destruct Ez as (Z0 & Z1 & Z2).
    assert (Hgen : forall i1 i2, add_u16 p i 1 = Ok i1 -> add_u16 p i 2 = Ok i2 ->
       generate e p (LdBcd x) c w = Ok ([WriteMemory i (g 0); WriteMemory i1 (g 1); WriteMemory i2 (g 2)], w)).
    { intros i1 i2 E1 E2. cbn [generate]. unfold gen_ld_bcd. rewrite (read_gp c x W Hr). cbn [bind].
      change (c8_i c) with i. rewrite E1, E2. cbn [bind]. rewrite Z0, Z1, Z2. reflexivity. }
    assert (Hov : 65535 < i + 2 -> step e p c w = Panic).
    { intros Hbig.
      destruct (add_u16 p i 1) as [i1|] eqn:E1.
      2:{ apply (step_panics_gen e p c w _ W Hop Hf). cbn [generate]. unfold gen_ld_bcd.
          rewrite (read_gp c x W Hr). cbn [bind]. change (c8_i c) with i. rewrite E1. reflexivity. }
      destruct (add_u16 p i 2) as [i2|] eqn:E2.
      2:{ apply (step_panics_gen e p c w _ W Hop Hf). cbn [generate]. unfold gen_ld_bcd.
          rewrite (read_gp c x W Hr). cbn [bind]. change (c8_i c) with i. rewrite E1, E2. reflexivity. }
      apply (step_panics_exec e p c w _ _ _ W Hop Hf (Hgen i1 i2 eq_refl eq_refl)).
      unfold execute_all. cbn [foldM execute_mut]. rewrite (ex_mem_out p c i) by (assumption || lia). reflexivity. }
    destruct (Z.leb_spec (i + 2) 65535) as [Hs|Hs].
    2:{ replace (i + 2 <=? 4095) with false by lia. apply Hov, Hs. }
    assert (E1 : add_u16 p i 1 = Ok (i + 1)) by (unfold add_u16; apply checked_ok; lia).
    assert (E2 : add_u16 p i 2 = Ok (i + 2)) by (unfold add_u16; apply checked_ok; lia).
    pose proof (Hgen _ _ E1 E2) as Hg.
    replace (i + 3 <=? 4096) with (i + 2 <=? 4095) in K by lia.
    destruct (i + 2 <=? 4095) eqn:Eb; cbn [needs done delivers].
    + eapply becomes_ext; [|exact (step_from _ _ _ _ _ _ _ _ _ W Hop Hf Hg K)].
      intros q. destruct q; try reflexivity. unfold upd. cbn [part_eqb].
      destruct (Z.eqb_spec a i) as [->|Na].
      { replace ((i <=? i) && (i <? i + 3)) with true by lia. rewrite Z.sub_diag. exact Z0. }
      destruct (Z.eqb_spec a (i + 1)) as [->|Na1].
      { replace ((i <=? i + 1) && (i + 1 <? i + 3)) with true by lia. 
        replace (i + 1 - i) with 1 by lia. reflexivity. }
      destruct (Z.eqb_spec a (i + 2)) as [->|Na2].
      { replace ((i <=? i + 2) && (i + 2 <? i + 3)) with true by lia. 
        replace (i + 2 - i) with 2 by lia. reflexivity. }
      replace ((i <=? a) && (a <? i + 3)) with false by lia. reflexivity.
    + apply (step_panics_exec e p c w _ _ _ W Hop Hf Hg). apply K. lia.
  - (* LdSpriteLocation *) rd x.
    2:{ apply (step_panics_gen e p c w _ W Hop Hf). cbn [generate]. unfold gen_ld_sprite.
        rewrite (read_gp_vf c x W Hr). reflexivity. }
    pose proof (v_u8 x Hr) as Hv. unfold u8 in Hv.
    assert (Hg0 : forall r, mul_u8 p (v (observe c) x) 5 = r -> generate e p (LdSpriteLocation x) c w =
      (do! o <- r ; Ok ([Write16bitRegister WordI o], w))).
    { intros r <-. cbn [generate]. unfold gen_ld_sprite. rewrite (read_gp c x W Hr). cbn [bind].
      rewrite <- v_obs. destruct (mul_u8 p (v (observe c) x) 5); reflexivity. }
    set (z := v (observe c) x) in *.
    assert (Hq : (mul_u8 p z 5 = Panic /\ (match p with Debug => 5 * z <? 256 | Release => true end) = false)
              \/ (mul_u8 p z 5 = Ok ((5 * z) mod 256) /\ (match p with Debug => 5 * z <? 256 | Release => true end) = true)).
    { unfold mul_u8, checked. replace ((0 <=? z * 5) && (z * 5 <? 256)) with (5 * z <? 256) by lia.
      destruct (5 * z <? 256) eqn:Eb.
      - right. split; [f_equal; lia|destruct p; reflexivity].
      - destruct p; [left; split; reflexivity|right; split; [f_equal; f_equal; lia|reflexivity]]. }
    destruct Hq as [[Hq ->]|[Hq ->]]; specialize (Hg0 _ Hq); cbn [needs done delivers bind] in *.
    + exact (step_panics_gen e p c w _ W Hop Hf Hg0).
    + apply (deliver_i _ _ Hop Hf); [unfold u16; lia|exact Hg0].
  - (* LdK *)
    pose proof key_range as Hk. cbn [observe] in Hk |- *. unfold key_number in *.
    destruct (c8_interrupt c) as [[k]|] eqn:Ek.
    + change (key_value k) with (key_as_u8 k) in *. replace (key_as_u8 k =? -1) with false by (destruct k; reflexivity). rd x.
      * apply (deliver_gp _ x _ w Hop Hf); [|exact Hr|unfold u8; destruct k; cbn; lia].
        cbn [generate]. unfold gen_ld_k. rewrite Ek. reflexivity.
      * apply (step_panics_exec e p c w _ [write_gp x (key_as_u8 k)] w W Hop Hf).
        -- cbn [generate]. unfold gen_ld_k. rewrite Ek. reflexivity.
        -- apply has_not in Hr as ->. eapply writes_vf_panics; [apply (wf_gp c W)|left; reflexivity].
    + change (-1 =? -1) with true. cbn [done delivers].
      assert (Hg : generate e p (LdK x) c w = Ok ([Dec16bitRegister WordPc 2], w)).
      { cbn [generate]. unfold gen_ld_k. rewrite Ek. reflexivity. }
      eapply becomes_ext; [|exact (step_from _ _ _ _ _ _ _ _ _ W Hop Hf Hg (runs_nil e p c w W))].
      others.
  - (* AddImmediate *) rd x.
    + destruct (ex_gp c (gp_index x) ((v (observe c) x + k) mod 256) W (has_index x Hr) (u8_mod _)) as (gp & E & L).
      assert (Hrn : runs e p (gen_add_immediate x k) c w (upd (observe c) (PV (gp_index x)) ((v (observe c) x + k) mod 256)) w).
      { apply (runs_one e p _ c w (set_gp c gp) w); [|exact L]. cbn [execute_mut exec_inc8].
        rewrite (read_gp c x W Hr). cbn [bind]. unfold wrapping_add_u8. rewrite v_obs in E. rewrite E. reflexivity. }
      eapply becomes_ext; [|exact (step_from e p c w (AddImmediate x k) _ w _ _ W Hop Hf eq_refl Hrn)]. others.
    + apply (step_panics_exec e p c w _ (gen_add_immediate x k) w W Hop Hf eq_refl).
      unfold execute_all, gen_add_immediate. cbn [foldM execute_mut exec_inc8].
      rewrite (read_gp_vf c x W Hr). reflexivity.
  - (* AddI *) rd x.
    + assert (Hg : generate e p (AddIRegisterIndexed x) c w = Ok ([Inc16bitRegister WordI (v (observe c) x)], w)).
      { cbn [generate]. unfold gen_add_i. rewrite (read_gp c x W Hr). reflexivity. }
      assert (Hrn : runs e p [Inc16bitRegister WordI (v (observe c) x)] c w
        (upd (observe c) PI ((observe c PI + v (observe c) x) mod 65536)) w).
      { eapply runs_one; [reflexivity|]. apply ex_i; [exact W|apply u16_mod]. }
      eapply becomes_ext; [|exact (step_from _ _ _ _ _ _ _ _ _ W Hop Hf Hg Hrn)]. others.
    + apply (step_panics_gen e p c w _ W Hop Hf). cbn [generate]. unfold gen_add_i.
      rewrite (read_gp_vf c x W Hr). reflexivity.
  - (* AddVxVy *) exact (arith_panics _ Hop Hf eq_refl).
  - exact (arith_panics _ Hop Hf eq_refl).
  - exact (arith_panics _ Hop Hf eq_refl).
  - (* And *) apply (deliver_logic _ Z.land x y Hop Hf eq_refl u8_land).
  - (* Or *) apply (deliver_logic _ Z.lor x y Hop Hf eq_refl u8_lor).
  - (* Shl *) exact (arith_panics _ Hop Hf eq_refl).
  - exact (arith_panics _ Hop Hf eq_refl).
  - (* Xor *) apply (deliver_logic _ Z.lxor x y Hop Hf eq_refl u8_lxor).
  - (* SeVxVy *) destruct (has y) eqn:Hy.
    + rd x.
      * apply (deliver_skip _ (v (observe c) x =? v (observe c) y) Hop Hf).
        cbn [generate]. unfold gen_se_vxvy. rewrite (read_gp c y W Hy). cbn [bind].
        rewrite (read_gp c x W Hr). cbn [bind]. rewrite <- !v_obs, Z.eqb_sym. reflexivity.
      * apply (step_panics_gen e p c w _ W Hop Hf). cbn [generate]. unfold gen_se_vxvy.
        rewrite (read_gp c y W Hy). cbn [bind]. rewrite (read_gp_vf c x W Hr). reflexivity.
    + rewrite andb_false_r. apply (step_panics_gen e p c w _ W Hop Hf).
      cbn [generate]. unfold gen_se_vxvy. rewrite (read_gp_vf c y W Hy). reflexivity.
  - (* SeImmediate *) rd x.
    + apply (deliver_skip _ (v (observe c) x =? k) Hop Hf).
      cbn [generate]. unfold gen_se_immediate. rewrite (read_gp c x W Hr). reflexivity.
    + apply (step_panics_gen e p c w _ W Hop Hf). cbn [generate]. unfold gen_se_immediate.
      rewrite (read_gp_vf c x W Hr). reflexivity.
  - (* SneVxVy *) destruct (has y) eqn:Hy.
    + rd x.
      * replace (if v (observe c) x =? v (observe c) y then 2 else 4)
          with (if negb (v (observe c) x =? v (observe c) y) then 4 else 2) by (destruct (_ =? _); reflexivity).
        apply (deliver_skip _ (negb (v (observe c) x =? v (observe c) y)) Hop Hf).
        cbn [generate]. unfold gen_sne_vxvy. rewrite (read_gp c y W Hy). cbn [bind].
        rewrite (read_gp c x W Hr). cbn [bind]. rewrite <- !v_obs, Z.eqb_sym. reflexivity.
      * apply (step_panics_gen e p c w _ W Hop Hf). cbn [generate]. unfold gen_sne_vxvy.
        rewrite (read_gp c y W Hy). cbn [bind]. rewrite (read_gp_vf c x W Hr). reflexivity.
    + rewrite andb_false_r. apply (step_panics_gen e p c w _ W Hop Hf).
      cbn [generate]. unfold gen_sne_vxvy. rewrite (read_gp_vf c y W Hy). reflexivity.
  - (* SneImmediate *) rd x.
    + replace (if v (observe c) x =? k then 2 else 4)
        with (if negb (v (observe c) x =? k) then 4 else 2) by (destruct (_ =? _); reflexivity).
      apply (deliver_skip _ (negb (v (observe c) x =? k)) Hop Hf).
      cbn [generate]. unfold gen_sne_immediate. rewrite (read_gp c x W Hr). reflexivity.
    + apply (step_panics_gen e p c w _ W Hop Hf). cbn [generate]. unfold gen_sne_immediate.
      rewrite (read_gp_vf c x W Hr). reflexivity.
  - (* ReadRegisters *) apply deliver_load; assumption.
  - (* StoreRegisters *) apply deliver_store; assumption.
  - (* Skp *) rd x.
    + pose proof (v_u8 x Hr) as Hv. unfold u8 in Hv.
      apply (deliver_skip _ (observe c PKey =? v (observe c) x) Hop Hf).
      cbn [generate]. unfold gen_skp. rewrite (read_gp c x W Hr). cbn [bind]. rewrite <- v_obs.
      cbn [observe]. unfold key_number. destruct (c8_interrupt c) as [[k]|]; [reflexivity|].
      replace (-1 =? v (observe c) x) with false by lia. reflexivity.
    + apply (step_panics_gen e p c w _ W Hop Hf). cbn [generate]. unfold gen_skp.
      rewrite (read_gp_vf c x W Hr). reflexivity.
  - (* Sknp *) rd x.
    + pose proof (v_u8 x Hr) as Hv. unfold u8 in Hv.
      replace (if observe c PKey =? v (observe c) x then 2 else 4)
        with (if negb (observe c PKey =? v (observe c) x) then 4 else 2) by (destruct (_ =? _); reflexivity).
      apply (deliver_skip _ (negb (observe c PKey =? v (observe c) x)) Hop Hf).
      cbn [generate]. unfold gen_sknp. rewrite (read_gp c x W Hr). cbn [bind]. rewrite <- v_obs.
      cbn [observe]. unfold key_number. destruct (c8_interrupt c) as [[k]|].
      * change (key_value k) with (key_as_u8 k). destruct (key_as_u8 k =? v (observe c) x); reflexivity.
      * replace (-1 =? v (observe c) x) with false by lia. reflexivity.
    + apply (step_panics_gen e p c w _ W Hop Hf). cbn [generate]. unfold gen_sknp.
      rewrite (read_gp_vf c x W Hr). reflexivity.
  - (* Rnd *) rd x.
    + apply (deliver_gp _ x _ _ Hop Hf eq_refl Hr). apply u8_land; [apply He|exact Hop'].
    + apply (step_panics_exec e p c w _ _ _ W Hop Hf eq_refl). apply has_not in Hr as ->.
      eapply writes_vf_panics; [apply (wf_gp c W)|left; reflexivity].
Qed.
End Step.
