(** Property C124: the states of a 6502 machine. *)
From Verif Require Import Base Arith ModelMap ModelStep ModelRegs6502 ModelCpu6502 ModelOperand ModelIsa6502
  ModelRun6502 ProofMap ProofAlike ProofBus SpecMap Link6502 SpecUse SpecBuild PropertiesAlike PropertiesRun6502
  PropertiesBuild SpecStates6502.

Lemma fresh_entry (m : address_map memory) k lo hi data p mem : 
  lo <= hi -> (forall a, lo <= a <= hi -> unmapped m a) -> memory_new p k lo hi = Ok mem ->
  am_register m lo hi (memory_load mem data) = Some (mkEntry lo hi (mkMemory k lo hi data) :: m).
Proof.
  intros H0 Hc Hm. rewrite memory_new_ok in Hm by lia. injection Hm as <-. unfold am_register. destruct (existsb _ m) eqn:Ex.
  - exfalso. apply existsb_exists in Ex as (e & Hin & Ee).
    apply orb_true_iff in Ee as [Ee|Ee]; apply key_contains_iff in Ee; [apply (Hc lo) in Ee|apply (Hc hi) in Ee]; try assumption; lia.
  - unfold hm_insert, memory_load. cbn [mem_kind start_address stop_address]. do 2 f_equal. clear Ex. revert Hc.
    induction m as [|e m IH]; intros Hc; [reflexivity|]. cbn [filter].
    assert (N : (range_lo e =? lo) && (range_hi e =? hi) = false).
    { destruct ((range_lo e =? lo) && (range_hi e =? hi)) eqn:N; [|reflexivity]. exfalso.
      refine (Hc lo _ e (or_introl eq_refl) _); unfold covers; lia. }
    rewrite N. cbn [negb]. f_equal. apply IH. intros a Ha f Hf. apply (Hc a Ha). right; exact Hf.
Qed.

Lemma fresh_plain (m : address_map memory) k lo hi data : plain_map m -> 0 <= lo <= hi -> hi <= 65535 ->
  Z.of_nat (length data) = hi - lo + 1 -> Forall u8 data -> (forall a, lo <= a <= hi -> unmapped m a) ->
  plain_map (mkEntry lo hi (mkMemory k lo hi data) :: m).
Proof.
  intros [Hd Hr] H0 H1 H2 H3 Hc. split; [apply disjoint_cons_rev; [exact Hd|exact Hc]|]. constructor; [|exact Hr].
  unfold region_ok. cbn [device range_lo range_hi start_address mem_inner]. repeat split; try lia. exact H3.
Qed.

Lemma observed_next p (cpu : mos6502 memory) ops cpu' : next p cpu = Ok (ops, cpu') -> exists c, observed_step p cpu = Ok (c, cpu').
Proof. intros E. unfold observed_step. rewrite E. eexists; reflexivity. Qed.

Lemma poke_plain p m a v m' r : plain_map m -> u8 v -> am_write p m a v = Ok (m', r) -> plain_map m'.
Proof.
  intros Hp Hv E. destruct r as [w|].
  - exact (proj1 (plain_write p m a v m' w Hp Hv E)).
  - destruct (mapped_dec m a) as [Hu|(e & Hin & Hc)].
    + rewrite (write_unmapped p m a v Hu) in E. injection E as <-. exact Hp.
    + destruct (mem_kind (device e)) eqn:Hk.
      * destruct (plain_write_ok p m a v Hp Hv) as (m2 & E2); [exists e; auto|]. congruence.
      * assert (N : ~ ram_at m a).
        { intros (e2 & Hin2 & Hc2 & Hk2). destruct Hp as [Hd Hr]. apply In_nth_error in Hin as (i & Hi). apply In_nth_error in Hin2 as (j & Hj).
          assert (i = j) by (apply (Hd i j e e2 a Hi Hj); [exact Hc|exact Hc2]). subst j. rewrite Hi in Hj. injection Hj as <-. congruence. }
        rewrite (refused_write p m a v Hp Hv N) in E. injection E as <-. exact Hp.
Qed.

Lemma made_inv p cpu : made p cpu -> plain_map (amap cpu) /\ regs_ok (regs_of cpu).
Proof.
  induction 1 as [cpu E| |cpu k lo hi m data cpu' _ [Hp Hr] H0 H1 H2 H3 Hc Hm E|cpu r v _ [Hp Hr] Hv|cpu v _ [Hp Hr] Hv|cpu v _ [Hp Hr] Hv|cpu s _ [Hp Hr]
    |cpu a v m r _ [Hp Hr] Ha Hv E|cpu n cpu' _ [Hp Hr] E|cpu ops cpu' _ [Hp Hr] E|cpu n cpu' _ [Hp Hr] E].
  - rewrite default_is in E. injection E as <-. split; [exact base_plain|]. unfold regs_ok, u8, u16. vm_compute. repeat split; discriminate.
  - split; [split; [intros i j e f a Hi; destruct i; discriminate Hi|constructor]|]. unfold regs_ok, u8, u16. vm_compute. repeat split; discriminate.
  - unfold register_address_space in E. rewrite (fresh_entry (amap cpu) k lo hi data p m ltac:(lia) Hc Hm) in E. injection E as <-.
    split; [exact (fresh_plain _ k lo hi data Hp H0 H1 H2 H3 Hc)|exact Hr].
  - split; [destruct r; exact Hp|]. unfold regs_ok in *. destruct r; cbn [with_gp_register regs_of set_acc set_x set_y Spec6502.rA Spec6502.rX Spec6502.rY Spec6502.rS Spec6502.rPC reg_acc reg_x reg_y reg_sp reg_pc] in *; intuition.
  - split; [exact Hp|]. unfold regs_ok in *. cbn [with_sp_register regs_of set_sp Spec6502.rA Spec6502.rX Spec6502.rY Spec6502.rS Spec6502.rPC reg_acc reg_x reg_y reg_sp reg_pc] in *; intuition.
  - split; [exact Hp|]. unfold regs_ok in *. cbn [with_pc_register regs_of set_pc Spec6502.rA Spec6502.rX Spec6502.rY Spec6502.rS Spec6502.rPC reg_acc reg_x reg_y reg_sp reg_pc] in *; intuition.
  - split; [exact Hp|]. exact Hr.
  - split; [exact (poke_plain p _ a v m r Hp Hv E)|exact Hr].
  - unfold reset in E. cbn [amap with_addressmap] in E.
    destruct (plain_read p (amap cpu) RESET_VECTOR_LL Hp) as (l & El & Hl). destruct (plain_read p (amap cpu) RESET_VECTOR_HH Hp) as (h & Eh & Hh).
    rewrite El, Eh in E. cbn [bind ss_new] in E. injection E as _ <-. split; [exact Hp|].
    unfold regs_ok, u8, u16, u16_from_le_bytes, stack_pointer_default in *. cbn [regs_of set_sp set_pc with_addressmap Spec6502.rA Spec6502.rX Spec6502.rY Spec6502.rS Spec6502.rPC reg_acc reg_x reg_y reg_sp reg_pc general_purpose_default].
    unfold general_purpose_default. lia.
  - destruct (observed_next p cpu ops cpu' E) as (c & Es).
    destruct (step_inv p (plain_with (fun _ => False)) (fun _ => False) (plain_ram_bus p _) cpu c cpu' (conj Hp (fun a F => False_ind _ F)) Hr Es) as ([K1 _] & K2 & _). split; assumption.
  - destruct (run_bus_inv p (plain_with (fun _ => False)) (fun _ => False) (plain_ram_bus p _) cpu n cpu' (conj Hp (fun a F => False_ind _ F)) Hr E) as ([K1 _] & K2). split; assumption.
Qed.

(** ** Cells of a plain map *)
Lemma ram_dec (m : address_map memory) a : plain_map m -> ram_at m a \/ ~ ram_at m a.
Proof.
  intros [Hd _]. destruct (mapped_dec m a) as [Hu|(e & Hin & Hc)].
  - right. intros (e & Hin & Hc & _). exact (Hu e Hin Hc).
  - destruct (mem_kind (device e)) eqn:Hk; [left; exists e; auto|]. right. intros (e2 & Hin2 & Hc2 & Hk2).
    apply In_nth_error in Hin as (i & Hi). apply In_nth_error in Hin2 as (j & Hj).
    assert (i = j) by (apply (Hd i j e e2 a Hi Hj); [exact Hc|exact Hc2]). subst j. rewrite Hi in Hj. injection Hj as <-. congruence.
Qed.
Lemma holds_ram p m a v : plain_map m -> ram_at m a -> am_read p m a = Ok v -> holds_cell p m a (Ram v).
Proof.
  intros Hp Hr E. split; [exact E|]. intros w Hw. destruct (plain_write_ok p m a w Hp Hw Hr) as (m' & Em). exists m'. split; [exact Em|].
  destruct (plain_write p m a w m' w Hp Hw Em) as (Hp' & _ & Hpk). intros b. destruct (plain_read p m' b Hp') as (x & Ex & _).
  destruct (plain_read p m b Hp) as (y & Ey & _). assert (K := Hpk b). unfold peek in K. rewrite Ex, Ey in *. destruct (b =? a); congruence.
Qed.
Lemma holds_other p m a c : plain_map m -> ~ ram_at m a -> (forall v, c <> Ram v) -> am_read p m a = Ok (byte_at c) -> holds_cell p m a c.
Proof.
  intros Hp Hr Hc E. split; [exact E|]. intros w Hw. assert (K := refused_write p m a w Hp Hw Hr). destruct c as [v| |]; [destruct (Hc v eq_refl)|exact K|exact K].
Qed.

(** ** A map with any cells *)
Definition entry_at (f : Z -> cell) (a : Z) : list (entry memory) :=
  match f a with
  | Ram v => [mkEntry a a (mkMemory ReadWrite a a [v])]
  | Rom v => [mkEntry a a (mkMemory ReadOnly a a [v])]
  | Nothing => []
  end.
Lemma entry_at_covers f a b e : In e (entry_at f a) -> covers e b -> b = a.
Proof. unfold entry_at, covers. destruct (f a); [intros [<-|[]]|intros [<-|[]]|intros []]; cbn [range_lo range_hi]; lia. Qed.

Lemma cells_made p f l : NoDup l -> (forall a, In a l -> u16 a /\ cell_ok (f a)) ->
  made p (with_addressmap (flat_map (entry_at f) l)).
Proof.
  induction l as [|a l IH]; intros Hnd Hok; [apply made_empty|].
  apply NoDup_cons_iff in Hnd as [Hn Hnd]. specialize (IH Hnd (fun b Hb => Hok b (or_intror Hb))). destruct (Hok a (or_introl eq_refl)) as [Ha Hc].
  assert (Hu : forall b, a <= b <= a -> unmapped (flat_map (entry_at f) l) b).
  { intros b Hb e He Hcv. apply in_flat_map in He as (d & Hd & He). apply (entry_at_covers f d b e He) in Hcv. apply Hn. replace a with d by lia. exact Hd. }
  assert (One : forall k v, u8 v -> made p (with_addressmap (mkEntry a a (mkMemory k a a [v]) :: flat_map (entry_at f) l))).
  { intros k v Hv. unfold u16 in Ha. refine (made_memory p (with_addressmap (flat_map (entry_at f) l)) k a a (mkMemory k a a (repeat 0 (Z.to_nat (a - a + 1)))) [v] _ IH _ _ _ _ Hu _ _); try lia.
    - cbn [length]. lia.
    - constructor; [exact Hv|constructor].
    - rewrite memory_new_ok by lia. reflexivity.
    - unfold register_address_space. cbn [amap with_addressmap].
      rewrite (fresh_entry (flat_map (entry_at f) l) k a a [v] p); [reflexivity|lia|exact Hu|rewrite memory_new_ok by lia; reflexivity]. }
  cbn [flat_map]. unfold entry_at at 1. destruct (f a) as [v|v|]; [apply One; exact Hc|apply One; exact Hc|exact IH].
Qed.

Definition all_addresses : list Z := map Z.of_nat (seq 0 (Z.to_nat 65536)).
Lemma all_addresses_in a : In a all_addresses <-> u16 a.
Proof.
  unfold all_addresses, u16. rewrite in_map_iff. split.
  - intros (k & <- & Hk). apply in_seq in Hk. lia.
  - intros Ha. exists (Z.to_nat a). split; [lia|]. apply in_seq. lia.
Qed.
Lemma all_addresses_nodup : NoDup all_addresses.
Proof. apply FinFun.Injective_map_NoDup; [intros x y; lia|apply seq_NoDup]. Qed.

Lemma cells_hold p f l a : plain_map (flat_map (entry_at f) l) -> In a l -> cell_ok (f a) -> u16 a -> holds_cell p (flat_map (entry_at f) l) a (f a).
Proof.
  intros Hp Hin Hc Ha. assert (Hp0 := Hp). destruct Hp as [Hd Hr]. unfold u16 in Ha.
  assert (Only : forall e, In e (flat_map (entry_at f) l) -> covers e a -> In e (entry_at f a)).
  { intros e He Hcv. apply in_flat_map in He as (d & _ & He). rewrite (entry_at_covers f d a e He Hcv). exact He. }
  assert (Rd : forall k v, entry_at f a = [mkEntry a a (mkMemory k a a [v])] -> am_read p (flat_map (entry_at f) l) a = Ok v).
  { intros k v E. rewrite (read_mapped p _ a (mkEntry a a (mkMemory k a a [v])) Hd).
    - cbn [device dev_read memory_device]. unfold memory_read. cbn [start_address mem_inner]. rewrite sub_u16_ok by (unfold u16; lia). cbn [bind].
      rewrite Z.sub_diag. reflexivity.
    - apply in_flat_map. exists a. split; [exact Hin|]. rewrite E. left; reflexivity.
    - unfold covers. cbn [range_lo range_hi]. lia. }
  unfold entry_at in Rd, Only. destruct (f a) as [v|v|] eqn:Ef.
  - apply holds_ram; [exact Hp0| |apply (Rd ReadWrite); reflexivity]. exists (mkEntry a a (mkMemory ReadWrite a a [v])).
    split; [apply in_flat_map; exists a; split; [exact Hin|unfold entry_at; rewrite Ef; left; reflexivity]|]. cbn [range_lo range_hi device mem_kind]. split; [lia|reflexivity].
  - apply holds_other; [exact Hp0| |discriminate|apply (Rd ReadOnly); reflexivity]. intros (e & He & Hcv & Hk). destruct (Only e He Hcv) as [<-|[]]. discriminate Hk.
  - apply holds_other; [exact Hp0| |discriminate|].
    + intros (e & He & Hcv & _). destruct (Only e He Hcv).
    + apply read_unmapped. intros e He Hcv. destruct (Only e He Hcv).
Qed.

(** ** C124 *)
(** Every machine a user makes: its registers hold values of their width, and
    at every address there is RAM or something that cannot be written (reading
    and writing do not tell an unmapped address from a ROM byte 0). *)
Theorem C124_ranges : forall p cpu, made p cpu -> regs_ok (regs_of cpu) /\
  forall a, u16 a -> exists c, cell_ok c /\ holds_cell p (amap cpu) a c.
Proof.
  intros p cpu Hm. destruct (made_inv p cpu Hm) as [Hp Hr]. split; [exact Hr|]. intros a Ha.
  destruct (plain_read p (amap cpu) a Hp) as (v & Ev & Hv). destruct (ram_dec (amap cpu) a Hp) as [K|K].
  - exists (Ram v). split; [exact Hv|exact (holds_ram p _ a v Hp K Ev)].
  - exists (Rom v). split; [exact Hv|]. apply holds_other; [exact Hp|exact K|discriminate|exact Ev].
Qed.

(** And every choice of registers, and of what is at every address, is the
    state of a machine a user can make with the public functions. *)
Theorem C124_every_state : forall p r f, regs_ok r -> (forall a, u16 a -> cell_ok (f a)) ->
  exists cpu, made p cpu /\ regs_of cpu = r /\ forall a, u16 a -> holds_cell p (amap cpu) a (f a).
Proof.
  intros p r f (H1 & H2 & H3 & H4 & H5) Hf. assert (L := all_addresses_in). assert (N := all_addresses_nodup). revert L N. generalize all_addresses as l. intros l L N.
  assert (M : made p (with_addressmap (flat_map (entry_at f) l))).
  { apply cells_made; [exact N|]. intros a Ha. apply L in Ha. auto. }
  assert (K : forall a, u16 a -> holds_cell p (flat_map (entry_at f) l) a (f a)).
  { intros a Ha. apply (cells_hold p f l a (proj1 (made_inv p _ M)) (proj2 (L a) Ha) (Hf a Ha) Ha). }
  revert M K. generalize (flat_map (entry_at f) l) as m. intros m M K.
  exists (with_ps_register (with_pc_register (with_sp_register (with_gp_register (with_gp_register (with_gp_register (with_addressmap m) GpAcc (Spec6502.rA r)) GpX (Spec6502.rX r)) GpY (Spec6502.rY r)) (Spec6502.rS r)) (Spec6502.rPC r)) (Spec6502.rP r)).
  split; [|split].
  - apply made_ps, made_pc; [|assumption]. apply made_sp; [|assumption]. do 3 (apply made_gp; [|assumption]). exact M.
  - destruct r; reflexivity.
  - exact K.
Qed.

Print Assumptions C124_ranges.
Print Assumptions C124_every_state.

(** Page 2 as ROM holding its low address bytes, RAM elsewhere below 0x8000,
    and nothing above. *)
Definition demo_cells (a : Z) : cell :=
  if a / 256 =? 2 then Rom (a mod 256) else if a <? 32768 then Ram (a / 256) else Nothing.
Example C124_case : exists cpu, made Debug cpu /\ regs_of cpu = Spec6502.mkRegs 1 2 3 0xff 0x200 (ps_with_value 0x65) /\
  am_read Debug (amap cpu) 0x234 = Ok 0x34 /\ am_read Debug (amap cpu) 0x1234 = Ok 0x12 /\ am_read Debug (amap cpu) 0x9000 = Ok 0 /\
  am_write Debug (amap cpu) 0x234 7 = Ok (amap cpu, WErr) /\ regs_ok (regs_of cpu).
Proof.
  destruct (C124_every_state Debug (Spec6502.mkRegs 1 2 3 0xff 0x200 (ps_with_value 0x65)) demo_cells) as (cpu & M & R & H).
  - unfold regs_ok, u8, u16. vm_compute. repeat split; discriminate.
  - intros a Ha. unfold u16 in Ha. unfold demo_cells. destruct (_ =? 2); [|destruct (a <? 32768) eqn:E]; cbn [cell_ok]; unfold u8; lia.
  - exists cpu. split; [exact M|]. split; [exact R|].
    split; [exact (proj1 (H 0x234 ltac:(unfold u16; lia)))|].
    split; [exact (proj1 (H 0x1234 ltac:(unfold u16; lia)))|].
    split; [exact (proj1 (H 0x9000 ltac:(unfold u16; lia)))|].
    split; [exact (proj2 (H 0x234 ltac:(unfold u16; lia)) 7 ltac:(unfold u8; lia))|]. exact (proj1 (C124_ranges Debug cpu M)).
Qed.
