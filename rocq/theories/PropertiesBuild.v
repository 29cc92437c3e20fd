(** Property C105: a machine put together from the default machine and memory
    images holds exactly those images. *)
From Verif Require Import Base Arith ModelMap ModelStep ModelRegs6502 ModelCpu6502 ModelOperand ModelIsa6502
  ModelRun6502 ProofMap ProofAlike ProofBus SpecMap Link6502 SpecUse SpecBuild PropertiesAlike PropertiesRun6502.
From Coq Require Import Permutation.

(** ** The map of a built machine *)
Definition zero_page : entry memory := mkEntry 0 0xff (mkMemory ReadWrite 0 0xff (repeat 0 256)).
Definition stack_page : entry memory := mkEntry 0x100 0x1ff (mkMemory ReadWrite 0x100 0x1ff (repeat 0 256)).
Definition base_map : address_map memory := [stack_page; zero_page].
Definition entry_of (i : image) : entry memory :=
  mkEntry (im_lo i) (im_hi i) (mkMemory (im_kind i) (im_lo i) (im_hi i) (im_bytes i)).

Lemma default_is p : mos6502_default p = Ok (with_addressmap base_map).
Proof. destruct p; vm_compute; reflexivity. Qed.

Lemma add_one p (cpu : mos6502 memory) i : image_ok i -> 
  (forall e a, In e (amap cpu) -> within i a -> ~ covers e a) ->
  forall l, add_images p cpu (i :: l) = add_images p (set_amap cpu (entry_of i :: amap cpu)) l.
Proof.
  intros (H1 & H2 & H3 & H4) Hc l. cbn [add_images]. rewrite memory_new_ok by lia. cbn [bind].
  unfold register_address_space.
  assert (E : am_register (amap cpu) (im_lo i) (im_hi i)
    (memory_load (mkMemory (im_kind i) (im_lo i) (im_hi i) (repeat 0 (Z.to_nat (im_hi i - im_lo i + 1)))) (im_bytes i))
    = Some (entry_of i :: amap cpu)).
  { unfold am_register. destruct (existsb _ (amap cpu)) eqn:Ex.
    - exfalso. apply existsb_exists in Ex as (e & Hin & Ee).
      apply orb_true_iff in Ee as [Ee|Ee]; apply key_contains_iff in Ee;
        refine (Hc e _ Hin _ Ee); unfold within; lia.
    - unfold hm_insert, memory_load, entry_of. cbn [mem_kind start_address stop_address]. do 2 f_equal.
      clear Ex. revert Hc. generalize (amap cpu) as M. induction M as [|e M IH]; intros Hc; [reflexivity|]. cbn [filter].
      assert (N : (range_lo e =? im_lo i) && (range_hi e =? im_hi i) = false).
      { destruct ((range_lo e =? im_lo i) && (range_hi e =? im_hi i)) eqn:N; [|reflexivity]. exfalso.
        refine (Hc e (im_lo i) (or_introl eq_refl) _ _); unfold within, covers; lia. }
      rewrite N. cbn [negb]. f_equal. apply IH. intros f a Hf. apply Hc. right; exact Hf. }
  rewrite E. reflexivity.
Qed.

Lemma add_images_is p l : forall cpu : mos6502 memory, Forall image_ok l -> apart l ->
  (forall e i a, In e (amap cpu) -> In i l -> within i a -> ~ covers e a) ->
  add_images p cpu l = Ok (Some (set_amap cpu (rev (map entry_of l) ++ amap cpu))).
Proof.
  induction l as [|i l IH]; intros cpu Hok Hap Hc.
  - cbn. destruct cpu; reflexivity.
  - apply Forall_cons_iff in Hok as [Hi Hok]. inversion Hap as [|? ? Hi' Hap']; subst.
    rewrite add_one; [|exact Hi|intros e a He; apply (Hc e i a He); left; reflexivity].
    rewrite IH; [|exact Hok|exact Hap'|].
    + cbn [set_amap amap map rev]. rewrite <- app_assoc. reflexivity.
    + intros e j a [<-|He] Hj Hw.
      * intros Hcov. rewrite Forall_forall in Hi'. apply (Hi' j Hj a). split; [exact Hcov|exact Hw].
      * apply (Hc e j a He (or_intror Hj) Hw).
Qed.

Definition built_map (l : list image) : address_map memory := rev (map entry_of l) ++ base_map.

Lemma build_is p l : Forall image_ok l -> apart l -> build p l = Ok (Some (with_addressmap (built_map l))).
Proof.
  intros Hok Hap. unfold build. rewrite default_is. cbn [bind]. rewrite add_images_is; [reflexivity|assumption|assumption|].
  intros e i a He Hi Hw Hc. rewrite Forall_forall in Hok. destruct (Hok i Hi) as (K & _). unfold within in Hw.
  cbn [amap with_addressmap base_map] in He. destruct He as [<-|[<-|[]]]; unfold covers, stack_page, zero_page in Hc; cbn [range_lo range_hi] in Hc; lia.
Qed.

Lemma base_plain : plain_map base_map.
Proof. apply ProofReplay.plain_mapb_ok. vm_compute. reflexivity. Qed.

Lemma built_perm l : Permutation (map entry_of l ++ base_map) (built_map l).
Proof. apply Permutation_app_tail, Permutation_rev. Qed.

Lemma entries_plain l : Forall image_ok l -> apart l -> plain_map (map entry_of l ++ base_map).
Proof.
  induction l as [|i l IH]; intros Hok Hap; [exact base_plain|].
  assert (Hok0 := Hok). apply Forall_cons_iff in Hok as [Hi Hok]. inversion Hap as [|? ? Hi' Hap']; subst.
  destruct (IH Hok Hap') as [Hd Hr]. split.
  - cbn [map app]. apply disjoint_cons_rev; [exact Hd|]. intros a Ha e He Hc.
    apply in_app_or in He as [He|He].
    + apply in_map_iff in He as (j & <- & Hj). rewrite Forall_forall in Hi'. exact (Hi' j Hj a (conj Ha Hc)).
    + destruct Hi as (K & _). unfold covers, entry_of in Ha. cbn [range_lo range_hi] in Ha.
      destruct He as [<-|[<-|[]]]; unfold covers, stack_page, zero_page in Hc; cbn [range_lo range_hi] in Hc; lia.
  - cbn [map app]. constructor; [|exact Hr]. destruct Hi as (K1 & K2 & K3 & K4).
    unfold region_ok, entry_of. cbn [range_lo range_hi device start_address mem_inner].
    split; [lia|]. split; [lia|]. split; [lia|exact K4].
Qed.

Lemma built_plain l : Forall image_ok l -> apart l -> plain_map (built_map l).
Proof.
  intros Hok Hap. destruct (entries_plain l Hok Hap) as [Hd Hr]. split.
  - exact (disjoint_perm _ _ (built_perm l) Hd).
  - rewrite Forall_forall in *. intros e He. apply Hr. exact (Permutation_in _ (Permutation_sym (built_perm l)) He).
Qed.

Lemma entries_read p l a : Forall image_ok l -> apart l ->
  am_read p (map entry_of l ++ base_map) a = Ok (contents l a).
Proof.
  induction l as [|i l IH]; intros Hok Hap.
  - cbn [map app contents]. unfold base_map. cbn [am_read].
    assert (Z : forall lo, 0 <= lo <= 0xff00 -> lo <= a <= lo + 255 -> 
      dev_read p (mkMemory ReadWrite lo (lo + 255) (repeat 0 256)) a = Ok 0).
    { intros lo Hlo Ha. cbn [dev_read memory_device]. unfold memory_read. cbn [start_address mem_inner].
      rewrite sub_u16_ok by (unfold u16; lia). cbn [bind]. unfold vec_get.
      replace (a - lo <? 0) with false by lia. 
      assert (R : forall n k, (k < n)%nat -> nth_error (repeat 0 n) k = Some 0).
      { induction n as [|n IHn]; intros k Hk; [lia|]. destruct k; [reflexivity|]. cbn. apply IHn. lia. }
      rewrite R by lia. reflexivity. }
    unfold stack_page, zero_page. cbn [device].
    destruct (key_contains _ a) eqn:E1.
    + apply key_contains_iff in E1. unfold covers in E1. cbn [range_lo range_hi] in E1. apply (Z 0x100); lia.
    + destruct (key_contains (mkEntry 0 _ _) a) eqn:E2; [|reflexivity].
      apply key_contains_iff in E2. unfold covers in E2. cbn [range_lo range_hi] in E2. apply (Z 0); lia.
  - apply Forall_cons_iff in Hok as [Hi Hok]. inversion Hap as [|? ? Hi' Hap']; subst.
    cbn [map app am_read contents].
    change (key_contains (entry_of i) a) with ((im_lo i <=? a) && (a <=? im_hi i)).
    destruct ((im_lo i <=? a) && (a <=? im_hi i)) eqn:E; [|exact (IH Hok Hap')].
    destruct Hi as (K1 & K2 & K3 & K4). cbn [entry_of device dev_read memory_device]. unfold memory_read.
    cbn [start_address mem_inner]. rewrite sub_u16_ok by (unfold u16; lia). cbn [bind]. unfold vec_get.
    replace (a - im_lo i <? 0) with false by lia.
    rewrite (nth_error_nth' (im_bytes i) 0) by lia. reflexivity.
Qed.

Lemma built_read p l a : Forall image_ok l -> apart l -> am_read p (built_map l) a = Ok (contents l a).
Proof.
  intros Hok Hap. rewrite (read_perm p _ _ a (proj1 (entries_plain l Hok Hap)) (built_perm l)).
  exact (entries_read p l a Hok Hap).
Qed.

Lemma built_ram l a : Forall image_ok l -> (ram_at (built_map l) a <-> writable l a).
Proof.
  intros Hok. unfold ram_at, writable. split.
  - intros (e & He & Hc & Hk). apply (Permutation_in _ (Permutation_sym (built_perm l))) in He.
    apply in_app_or in He as [He|He].
    + apply in_map_iff in He as (i & <- & Hi). right. exists i. auto.
    + left. destruct He as [<-|[<-|[]]]; unfold stack_page, zero_page in Hc; cbn [range_lo range_hi] in Hc; lia.
  - intros [Ha|(i & Hi & Hw & Hk)].
    + destruct (Z_lt_le_dec a 0x100).
      * exists zero_page. split; [apply in_or_app; right; right; left; reflexivity|]. cbn [zero_page range_lo range_hi device mem_kind]. split; [lia|reflexivity].
      * exists stack_page. split; [apply in_or_app; right; left; reflexivity|]. cbn [stack_page range_lo range_hi device mem_kind]. split; [lia|reflexivity].
    + exists (entry_of i). split; [|auto].
      apply (Permutation_in _ (built_perm l)), in_or_app. left. apply in_map. exact Hi.
Qed.

Lemma refused_write p m a v : plain_map m -> u8 v -> ~ ram_at m a -> am_write p m a v = Ok (m, WErr).
Proof.
  intros [Hd Hr] Hv Hn. destruct (mapped_dec m a) as [Hu|(e & Hin & Hc)].
  - exact (write_unmapped p m a v Hu).
  - destruct (mem_kind (device e)) eqn:Hk; [exfalso; apply Hn; exists e; auto|].
    apply in_split in Hin as (l1 & l2 & ->). rewrite (write_mapped p l1 e l2 a v Hd Hc).
    rewrite (rom_refuses (device e) Hk p a v). destruct e; reflexivity.
Qed.

(** ** C105 *)
(** The default machine: it can always be made, its registers are the reset
    values, every address reads 0, the first two pages can be written and
    nothing else can. *)
Theorem C105_default : forall p, exists cpu, mos6502_default p = Ok cpu /\ fresh cpu /\
  (forall q a, am_read q (amap cpu) a = Ok 0) /\
  forall q a v, u8 v ->
    (0 <= a <= 0x1ff -> exists m', am_write q (amap cpu) a v = Ok (m', WOk v) /\
       forall b, am_read q m' b = Ok (if b =? a then v else 0)) /\
    (~ (0 <= a <= 0x1ff) -> am_write q (amap cpu) a v = Ok (amap cpu, WErr)).
Proof.
  intros p. exists (with_addressmap base_map). split; [exact (default_is p)|].
  split; [repeat split|]. cbn [amap with_addressmap].
  assert (Hrd : forall q a, am_read q base_map a = Ok 0) by (intros q a; exact (entries_read q [] a (Forall_nil _) (FOP_nil _))).
  split; [exact Hrd|].
  assert (Hram : forall a, ram_at base_map a <-> 0 <= a <= 0x1ff).
  { intros a. rewrite (built_ram [] a (Forall_nil _) : ram_at base_map a <-> _). unfold writable.
    split; [intros [H|(i & [] & _)]; exact H|left; assumption]. }
  intros q a v Hv. split; intros Ha.
  - destruct (plain_write_ok q base_map a v base_plain Hv (proj2 (Hram a) Ha)) as (m' & E). exists m'. split; [exact E|].
    destruct (plain_write q base_map a v m' v base_plain Hv E) as (Hp' & _ & Hpk).
    intros b. destruct (plain_read q m' b Hp') as (w & Ew & _). rewrite Ew. f_equal.
    assert (K := Hpk b). unfold peek in K. rewrite Ew, Hrd in K. exact K.
  - apply refused_write; [exact base_plain|exact Hv|]. rewrite Hram. exact Ha.
Qed.

(** Images that have no address in common with each other or with the first
    two pages are always accepted. The machine then has the registers of a new
    one, every address reads the byte of the image it lies in and 0 elsewhere,
    and exactly the first two pages and the RAM images can be written. *)
Theorem C105_build : forall p l, Forall image_ok l -> apart l ->
  exists cpu, build p l = Ok (Some cpu) /\ fresh cpu /\
    (forall q a, am_read q (amap cpu) a = Ok (contents l a)) /\
    forall q a v, u8 v ->
      (writable l a -> exists m', am_write q (amap cpu) a v = Ok (m', WOk v) /\
         forall b, am_read q m' b = Ok (if b =? a then v else contents l b)) /\
      (~ writable l a -> am_write q (amap cpu) a v = Ok (amap cpu, WErr)).
Proof.
  intros p l Hok Hap. exists (with_addressmap (built_map l)). split; [exact (build_is p l Hok Hap)|].
  split; [repeat split|]. cbn [amap with_addressmap].
  split; [intros q a; exact (built_read q l a Hok Hap)|].
  assert (Hpl := built_plain l Hok Hap). intros q a v Hv. split; intros Ha.
  - destruct (plain_write_ok q _ a v Hpl Hv (proj2 (built_ram l a Hok) Ha)) as (m' & E). exists m'. split; [exact E|].
    destruct (plain_write q _ a v m' v Hpl Hv E) as (Hp' & _ & Hpk).
    intros b. destruct (plain_read q m' b Hp') as (w & Ew & _). rewrite Ew. f_equal.
    assert (K := Hpk b). unfold peek in K. rewrite Ew, (built_read q l b Hok Hap) in K. exact K.
  - apply refused_write; [exact Hpl|exact Hv|]. rewrite (built_ram l a Hok). exact Ha.
Qed.

(** Any history of reads (anywhere) and writes (where that is possible)
    through the address map returns what it returns on an array that holds the
    images. *)
Lemma plain_history q (hist : list access) : forall m f,
  plain_map m -> (forall a, am_read q m a = Ok (f a)) ->
  Forall (fun x => match x with RdA _ => True | WrA a v => ram_at m a /\ u8 v end) hist ->
  device_run q m hist = Ok (array_run f hist).
Proof.
  induction hist as [|[a|a v] hist IH]; intros m f Hpl Hrd Hh; [reflexivity| |];
    apply Forall_cons_iff in Hh as [H1 Hh]; cbn [device_run array_run dev_read dev_write am_device].
  - rewrite Hrd. cbn [bind]. rewrite (IH m f Hpl Hrd Hh). reflexivity.
  - destruct H1 as [Ha Hv].
    destruct (plain_write_ok q m a v Hpl Hv Ha) as (m' & E). rewrite E. cbn [bind].
    destruct (plain_write q m a v m' v Hpl Hv E) as (Hp' & Hram & Hpk).
    rewrite (IH m' (fun b => if b =? a then v else f b) Hp'); [reflexivity| |].
    + intros b. destruct (plain_read q m' b Hp') as (w & Ew & _). rewrite Ew. f_equal.
      assert (K := Hpk b). unfold peek in K. rewrite Ew, Hrd in K. exact K.
    + eapply Forall_impl; [|exact Hh]. intros [b|b w]; [trivial|]. rewrite Hram. trivial.
Qed.

Theorem C105_memory : forall p l q hist, Forall image_ok l -> apart l ->
  Forall (fun x => match x with RdA _ => True | WrA a v => writable l a /\ u8 v end) hist ->
  exists cpu, build p l = Ok (Some cpu) /\ device_run q (amap cpu) hist = Ok (array_run (contents l) hist).
Proof.
  intros p l q hist Hok Hap Hh. exists (with_addressmap (built_map l)). split; [exact (build_is p l Hok Hap)|].
  apply plain_history; [exact (built_plain l Hok Hap)|intros a; exact (built_read q l a Hok Hap)|].
  eapply Forall_impl; [|exact Hh]. intros [b|b w]; [trivial|]. cbn [amap with_addressmap]. rewrite (built_ram l b Hok). trivial.
Qed.

(** Reset starts such a machine at the word the images hold at 0xfffc. *)
Theorem C105_reset : forall p l, Forall image_ok l -> apart l ->
  exists cpu cpu', build p l = Ok (Some cpu) /\ reset p cpu = Ok (NotReady 5 cpu') /\ amap cpu' = amap cpu /\
    fresh (set_pc cpu' 0) /\ reg_pc cpu' = contents l 0xfffc + 256 * contents l 0xfffd.
Proof.
  intros p l Hok Hap. exists (with_addressmap (built_map l)). eexists. split; [exact (build_is p l Hok Hap)|].
  split; [apply (C31_reset p _ (contents l)); intros a _; exact (built_read p l a Hok Hap)|].
  split; [reflexivity|]. split; [repeat split|reflexivity].
Qed.

(** An image one end of which lies in the first two pages or in an earlier
    image is refused, whatever comes after it. *)
Theorem C105_refused : forall p l i l', Forall image_ok l -> apart l -> 0 <= im_lo i <= im_hi i ->
  (exists a, (a = im_lo i \/ a = im_hi i) /\ (0 <= a <= 0x1ff \/ exists j, In j l /\ within j a)) ->
  build p (l ++ i :: l') = Ok None.
Proof.
  intros p l i l' Hok Hap Hi (a & Ha & Hc).
  assert (App : forall l1 cpu, add_images p cpu (l1 ++ i :: l') =
    do! r <- add_images p cpu l1 ; match r with Some c => add_images p c (i :: l') | None => Ok None end).
  { induction l1 as [|j l1 IH]; intros cpu; [reflexivity|]. cbn [app add_images].
    destruct (memory_new p (im_kind j) (im_lo j) (im_hi j)); [|reflexivity]. cbn [bind].
    destruct (register_address_space _ _ _ _); [apply IH|reflexivity]. }
  assert (B := build_is p l Hok Hap). unfold build in *. rewrite default_is in *. cbn [bind] in *.
  rewrite App, B. cbn [bind add_images]. rewrite memory_new_ok by lia. cbn [bind].
  unfold register_address_space.
  assert (E : forall d, am_register (amap (with_addressmap (built_map l))) (im_lo i) (im_hi i) d = None).
  { intros d. apply register_none. cbn [amap with_addressmap].
    assert (X : exists e, In e (built_map l) /\ covers e a).
    { destruct Hc as [Hc|(j & Hj & Hw)].
      - destruct (proj2 (built_ram l a Hok) (or_introl Hc)) as (e & He & Hcov & _). exists e. auto.
      - exists (entry_of j). split; [|exact Hw].
        apply (Permutation_in _ (built_perm l)), in_or_app. left. apply in_map. exact Hj. }
    destruct X as (e & He & Hcov). exists e. split; [exact He|]. destruct Ha as [<-|<-]; auto. }
  rewrite E. reflexivity.
Qed.

(** The order in which the images are registered makes no difference to any
    run: the same registers, the same regions with the same bytes, and a panic
    in both or in neither. *)
Lemma apart_perm l l' : Permutation l l' -> apart l -> apart l'.
Proof.
  induction 1 as [|i l l' HP IH|i j l|l l1 l' H1 IH1 H2 IH2]; intros Hap; auto.
  - inversion Hap as [|? ? Hi Hap']; subst. constructor; [|exact (IH Hap')].
    rewrite Forall_forall in *. intros j Hj. apply Hi. exact (Permutation_in _ (Permutation_sym HP) Hj).
  - inversion Hap as [|? ? Hi Hap']; subst. inversion Hap' as [|? ? Hj Hap'']; subst.
    apply Forall_cons_iff in Hi as [Hij Hi]. constructor; [constructor; [|exact Hj]|constructor; [exact Hi|exact Hap'']].
    intros a [H1 H2]. exact (Hij a (conj H2 H1)).
Qed.

Theorem C105_order : forall p l l' n, Forall image_ok l -> apart l -> Permutation l l' ->
  exists cpu cpu', build p l = Ok (Some cpu) /\ build p l' = Ok (Some cpu') /\
    same_registers cpu cpu' /\ Permutation (amap cpu) (amap cpu') /\
    forall pc, match run p (with_pc_register cpu pc) n, run p (with_pc_register cpu' pc) n with
    | Ok (Ready d), Ok (Ready d') => same_registers d d' /\ Permutation (amap d) (amap d')
    | Panic, Panic => True
    | _, _ => False
    end.
Proof.
  intros p l l' n Hok Hap HP.
  assert (Hok' : Forall image_ok l').
  { rewrite Forall_forall in *. intros i Hi. apply Hok. exact (Permutation_in _ (Permutation_sym HP) Hi). }
  assert (Hap' := apart_perm l l' HP Hap).
  exists (with_addressmap (built_map l)), (with_addressmap (built_map l')).
  split; [exact (build_is p l Hok Hap)|]. split; [exact (build_is p l' Hok' Hap')|].
  split; [repeat split|].
  assert (Hm : Permutation (built_map l) (built_map l')).
  { rewrite <- !built_perm. apply Permutation_app_tail, Permutation_map, HP. }
  split; [exact Hm|]. intros pc.
  assert (C := C70_registration_order memory _ p (with_pc_register (with_addressmap (built_map l)) pc)
    (with_pc_register (with_addressmap (built_map l')) pc) n (proj1 (built_plain l Hok Hap)) Hm).
  assert (S : same_registers (with_pc_register (with_addressmap (built_map l)) pc)
    (with_pc_register (with_addressmap (built_map l')) pc)) by (repeat split).
  specialize (C S). destruct C as [r1 r2 C|]; [|exact I].
  destruct C as (d1 & d2 & -> & -> & K1 & K2). split; assumption.
Qed.

Print Assumptions C105_default.
Print Assumptions C105_build.
Print Assumptions C105_memory.
Print Assumptions C105_reset.
Print Assumptions C105_refused.
Print Assumptions C105_order.

(** The example of the README and examples/basic.rs: a ROM at 0xffea with a
    program and the vectors, and a page of RAM. *)
Definition rom_image : image := mkImage ReadOnly 0xffea 0xffff example_rom.
Definition ram_image : image := mkImage ReadWrite 0x200 0x2ff (repeat 7 256).
Example C105_case : Forall image_ok [rom_image; ram_image] /\ apart [rom_image; ram_image] /\
  contents [rom_image; ram_image] 0xffeb = 1 /\ contents [rom_image; ram_image] 0x280 = 7 /\
  contents [rom_image; ram_image] 0x8000 = 0 /\
  writable [rom_image; ram_image] 0x280 /\ writable [rom_image; ram_image] 0x10 /\
  ~ writable [rom_image; ram_image] 0xffeb /\
  (exists cpu m', build Debug [rom_image; ram_image] = Ok (Some cpu) /\
     am_write Debug (amap cpu) 0x280 9 = Ok (m', WOk 9) /\ am_read Debug m' 0x280 = Ok 9) /\
  build Debug [rom_image; ram_image; mkImage ReadWrite 0x2f0 0x3ef (repeat 0 256)] = Ok None.
Proof.
  assert (U : Forall u8 example_rom /\ Forall u8 (repeat 7 256)).
  { split; apply Forall_forall; intros v Hv; [|apply repeat_spec in Hv; subst; unfold u8; lia].
    assert (B : forallb (fun v => (0 <=? v) && (v <? 256)) example_rom = true) by reflexivity.
    rewrite forallb_forall in B. specialize (B v Hv). unfold u8. lia. }
  split; [constructor; [|constructor; [|constructor]]; (split; [cbn; lia|]; split; [cbn; lia|]; split; [vm_compute; reflexivity|apply U])|].
  split; [constructor; [constructor; [|constructor]|constructor; [constructor|constructor]]; intros a; unfold within; cbn [rom_image ram_image im_lo im_hi]; lia|].
  split; [reflexivity|]. split; [vm_compute; reflexivity|]. split; [reflexivity|].
  split; [right; exists ram_image; split; [right; left; reflexivity|split; [unfold within; cbn; lia|reflexivity]]|].
  split; [left; lia|]. split.
  - intros [H|(i & [<-|[<-|[]]] & Hw & Hk)]; [lia|discriminate Hk|unfold within in Hw; cbn in Hw; lia].
  - split; [|vm_compute; reflexivity].
    exists (with_addressmap (built_map [rom_image; ram_image])).
    destruct (am_write Debug (amap (with_addressmap (built_map [rom_image; ram_image]))) 0x280 9) as [[m' r]|] eqn:E;
      [|vm_compute in E; discriminate E].
    exists m'. split; [vm_compute; reflexivity|]. vm_compute in E. injection E as <- <-. split; vm_compute; reflexivity.
Qed.
