(** Properties C01-C08: address map, RAM, ROM, pages. Statements only use the
    API modelled in ModelMap.v and the vocabulary of SpecMap.v. *)
From Verif Require Import Base Arith ModelMap SpecMap ProofMap.
From Coq Require Import Permutation.

(** ** C01 routing *)
Theorem C01_read_routed : forall (D : Type) (dev : Device D) p (m : address_map D) e a,
  disjoint m -> In e m -> covers e a ->
  am_read p m a = dev_read p (device e) a.
Proof. intros. exact (read_mapped p m a e H H0 H1). Qed.

Theorem C01_read_unmapped : forall (D : Type) (dev : Device D) p (m : address_map D) a,
  unmapped m a -> am_read p m a = Ok 0.
Proof. intros. exact (read_unmapped p m a H). Qed.

(** The write goes to the covering device, whose result is returned; all
    other entries are kept. If the device panics so does the write. *)
Theorem C01_write_routed : forall (D : Type) (dev : Device D) p before e after a v,
  disjoint (before ++ e :: after) -> covers e a ->
  am_write p (before ++ e :: after) a v =
  match dev_write p (device e) a v with
  | Ok (d', r) => Ok (before ++ mkEntry (range_lo e) (range_hi e) d' :: after, r)
  | Panic => Panic
  end.
Proof. intros. exact (write_mapped p before e after a v H H0). Qed.

Theorem C01_write_unmapped : forall (D : Type) (dev : Device D) p (m : address_map D) a v,
  unmapped m a -> am_write p m a v = Ok (m, WErr).
Proof. intros. exact (write_unmapped p m a v H). Qed.

(** A write is invisible at every address the written device does not cover. *)
Theorem C01_write_frame : forall (D : Type) (dev : Device D) p (m : address_map D) a v m' r,
  am_write p m a v = Ok (m', r) ->
  forall q b, (forall e, In e m -> covers e a -> ~ covers e b) ->
  am_read q m' b = am_read q m b.
Proof. intros D dev p m a v m' r. exact (write_frame p m a v m' r). Qed.

Print Assumptions C01_read_routed.
Print Assumptions C01_read_unmapped.
Print Assumptions C01_write_routed.
Print Assumptions C01_write_unmapped.
Print Assumptions C01_write_frame.

(** A concrete map: 4 bytes of RAM at 0x10 and 2 bytes of ROM at 0x20. *)
Definition demo_ram : memory := mkMemory ReadWrite 0x10 0x13 [1; 2; 3; 4].
Definition demo_rom : memory := mkMemory ReadOnly 0x20 0x21 [7; 8].
Definition demo_map : address_map memory :=
  [mkEntry 0x10 0x13 demo_ram; mkEntry 0x20 0x21 demo_rom].

Lemma demo_map_disjoint : disjoint demo_map.
Proof.
  apply disjoint_cons_rev; [apply disjoint_cons_rev; [apply disjoint_nil|]|].
  - intros a _ e [].
  - intros a Ha e [<-|[]]. unfold covers in *. cbn in *. lia.
Qed.

Example C01_nonvacuous :
  disjoint demo_map /\ covers (mkEntry 0x20 0x21 demo_rom) 0x21 /\ unmapped demo_map 0x14 /\
  am_read Debug demo_map 0x21 = Ok 8 /\ am_read Debug demo_map 0x14 = Ok 0 /\
  am_write Debug demo_map 0x12 9 =
    Ok ([mkEntry 0x10 0x13 (mkMemory ReadWrite 0x10 0x13 [1; 2; 9; 4]);
         mkEntry 0x20 0x21 demo_rom], WOk 9).
Proof.
  split; [exact demo_map_disjoint|]. split; [unfold covers; cbn; lia|].
  split; [|repeat split; reflexivity].
  intros e [<-|[<-|[]]]; unfold covers; cbn; lia.
Qed.

(** ** C02 registrations never overlap: false *)
Definition all_accepted_disjoint : Prop :=
  forall (l : list (request memory)) m, register_all am_new l = Some m -> disjoint m.

Theorem C02_no_overlap_refuted : ~ all_accepted_disjoint.
Proof.
  intros Hall.
  assert (Hd := Hall [mkRequest 0x11 0x12 demo_ram; mkRequest 0x10 0x13 demo_rom] _ eq_refl).
  assert (E : 0%nat = 1%nat); [|discriminate].
  refine (Hd 0%nat 1%nat _ _ 0x11 eq_refl eq_refl _ _); unfold covers; cbn; lia.
Qed.

(** Missing from the full statement: registrations that strictly enclose an
    earlier range, which the code accepts. *)
Theorem C02_no_overlap_partial : forall (D : Type) (l : list (request D)) m,
  register_all am_new l = Some m ->
  (forall l1 q l2 r l3, l = l1 ++ q :: l2 ++ r :: l3 ->
     ~ encloses (req_lo r) (req_hi r) (req_lo q) (req_hi q)) ->
  disjoint m.
Proof.
  intros D l m Hr Hl. apply (register_all_disjoint l am_new m disjoint_nil Hr); [|exact Hl].
  intros q e _ [].
Qed.

(** The condition is exact: adding an accepted range to a disjoint map keeps
    it disjoint iff the new range encloses none of the old ones. *)
Theorem C02_overlap_iff_encloses : forall (D : Type) (m : address_map D) lo hi d m',
  disjoint m -> am_register m lo hi d = Some m' ->
  (disjoint m' <-> forall e, In e m -> ~ encloses lo hi (range_lo e) (range_hi e)).
Proof. intros D m lo hi d m' Hd Hr. symmetry. exact (register_disjoint m lo hi d m' Hd Hr). Qed.

Print Assumptions C02_no_overlap_refuted.
Print Assumptions C02_no_overlap_partial.
Print Assumptions C02_overlap_iff_encloses.

Example C02_nonvacuous :
  exists m, register_all am_new [mkRequest 0x10 0x13 demo_ram; mkRequest 0x20 0x21 demo_rom] = Some m
            /\ length m = 2%nat.
Proof. eexists. split; reflexivity. Qed.

(** ** C03 iteration order *)
Theorem C03_read_order : forall (D : Type) (dev : Device D) p (m m' : address_map D) a,
  disjoint m -> Permutation m m' -> am_read p m' a = am_read p m a.
Proof. intros. exact (read_perm p m m' a H H0). Qed.

Theorem C03_write_order : forall (D : Type) (dev : Device D) p (m m' : address_map D) a v,
  disjoint m -> Permutation m m' -> same_write (am_write p m a v) (am_write p m' a v).
Proof. intros. exact (write_perm p m m' a v H H0). Qed.

(** Without disjointness (reachable, see C02) the order does matter. *)
Theorem C03_overlapping_order_matters :
  exists (l : list (request memory)) m m' a,
    register_all am_new l = Some m /\ Permutation m m' /\
    am_read Debug m a <> am_read Debug m' a.
Proof.
  exists [mkRequest 0x11 0x12 (mkMemory ReadWrite 0x11 0x12 [0x55; 0x55]);
          mkRequest 0x10 0x13 demo_ram].
  eexists. eexists. exists 0x11. split; [reflexivity|]. split; [apply perm_swap|].
  cbn. discriminate.
Qed.

Print Assumptions C03_read_order.
Print Assumptions C03_write_order.
Print Assumptions C03_overlapping_order_matters.

Example C03_nonvacuous : disjoint demo_map /\ Permutation demo_map (rev demo_map) /\
  demo_map <> rev demo_map.
Proof.
  split; [exact demo_map_disjoint|]. split; [apply Permutation_rev|]. discriminate.
Qed.

(** ** C04 registration *)
Theorem C04_refused_iff : forall (D : Type) (m : address_map D) lo hi d,
  am_register m lo hi d = None <-> exists e, In e m /\ (covers e lo \/ covers e hi).
Proof. intros. exact (register_none m lo hi d). Qed.

(** [m''] is the map after registration in any iteration order. *)
Theorem C04_keeps_others : forall (D : Type) (dev : Device D) p (m m' m'' : address_map D) lo hi d a,
  disjoint m -> am_register m lo hi d = Some m' -> Permutation m' m'' ->
  ~ (lo <= a <= hi) -> am_read p m'' a = am_read p m a.
Proof. intros D dev p m m' m'' lo hi d a. exact (register_keeps_read p m m' m'' lo hi d a). Qed.

Theorem C04_keeps_writes : forall (D : Type) (dev : Device D) p (m m' m'' : address_map D) lo hi d a v,
  disjoint m -> am_register m lo hi d = Some m' -> Permutation m' m'' ->
  ~ (lo <= a <= hi) ->
  match am_write p m a v, am_write p m'' a v with
  | Panic, Panic => True
  | Ok (m1, r1), Ok (m2, r2) =>
      r1 = r2 /\ forall q b, ~ (lo <= b <= hi) -> am_read q m2 b = am_read q m1 b
  | _, _ => False
  end.
Proof. intros D dev p m m' m'' lo hi d a v. exact (register_keeps_write p m m' m'' lo hi d a v). Qed.

Theorem C04_routes_new : forall (D : Type) (dev : Device D) p (m m' m'' : address_map D) lo hi d a,
  am_register m lo hi d = Some m' -> Permutation m' m'' ->
  lo <= a <= hi -> unmapped m a ->
  am_read p m'' a = dev_read p d a.
Proof. intros D dev p m m' m'' lo hi d a. exact (register_routes_new p m m' m'' lo hi d a). Qed.

Theorem C04_routes_new_writes : forall (D : Type) (dev : Device D) p (m m' m'' : address_map D) lo hi d a v,
  am_register m lo hi d = Some m' -> Permutation m' m'' ->
  lo <= a <= hi -> unmapped m a ->
  exists before after, m'' = before ++ mkEntry lo hi d :: after /\
    am_write p m'' a v =
    match dev_write p d a v with
    | Ok (d', r) => Ok (before ++ mkEntry lo hi d' :: after, r)
    | Panic => Panic
    end.
Proof. intros D dev p m m' m'' lo hi d a v. exact (register_routes_new_write p m m' m'' lo hi d a v). Qed.

Print Assumptions C04_refused_iff.
Print Assumptions C04_keeps_others.
Print Assumptions C04_keeps_writes.
Print Assumptions C04_routes_new.
Print Assumptions C04_routes_new_writes.

Example C04_nonvacuous :
  am_register demo_map 0x13 0x18 demo_rom = None /\
  am_register demo_map 0x0c 0x10 demo_rom = None /\
  am_register demo_map 0x14 0x1f demo_rom = Some (mkEntry 0x14 0x1f demo_rom :: demo_map) /\
  disjoint demo_map /\ unmapped demo_map 0x14.
Proof.
  repeat split; try reflexivity; [exact demo_map_disjoint|].
  intros e [<-|[<-|[]]]; unfold covers; cbn; lia.
Qed.

(** ** C05 RAM is an array *)
Theorem C05_ram_is_array : forall p start stop,
  u16 start -> u16 stop -> start <= stop ->
  exists ram, memory_new p ReadWrite start stop = Ok ram /\
    forall history, Forall (fun x => start <= access_addr x <= stop) history ->
      device_run p ram history = Ok (array_run (fun _ => 0) history).
Proof. exact ram_is_array. Qed.

(** The same seen through an address map that registered the RAM. *)
Theorem C05_mapped_ram_is_array : forall p start stop m m',
  u16 start -> u16 stop -> start <= stop ->
  disjoint m -> (forall e, In e m -> ~ encloses start stop (range_lo e) (range_hi e)) ->
  forall ram, memory_new p ReadWrite start stop = Ok ram ->
  am_register m start stop ram = Some m' ->
  forall history, Forall (fun x => start <= access_addr x <= stop) history ->
    device_run p m' history = Ok (array_run (fun _ => 0) history).
Proof. exact mapped_ram_is_array. Qed.

Print Assumptions C05_ram_is_array.
Print Assumptions C05_mapped_ram_is_array.

Example C05_nonvacuous :
  device_run Debug (mkMemory ReadWrite 0x10 0x13 [0; 0; 0; 0])
    [RdA 0x10; WrA 0x10 5; WrA 0x13 6; RdA 0x10; WrA 0x10 7; RdA 0x10; RdA 0x13; RdA 0x12]
  = Ok [0; 5; 6; 5; 7; 7; 6; 0].
Proof. reflexivity. Qed.

(** ** C06 ROM (device level; CPU level in PropertiesRun6502.v) *)
Theorem C06_rom_write_rejected : forall p m a v,
  mem_kind m = ReadOnly -> dev_write p m a v = Ok (m, WErr).
Proof. intros. exact (rom_refuses m H p a v). Qed.

Print Assumptions C06_rom_write_rejected.

(** ** C07 load and dump *)
Theorem C07_dump_load : forall m data, memory_dump (memory_load m data) = data.
Proof. reflexivity. Qed.

Theorem C07_read_loaded : forall p m data a,
  u16 (start_address m) -> u16 a -> start_address m <= a ->
  dev_read p (memory_load m data) a =
  match nth_error data (Z.to_nat (a - start_address m)) with
  | Some v => Ok v
  | None => Panic
  end.
Proof. exact load_read. Qed.

Theorem C07_load_keeps_range : forall m data,
  start_address (memory_load m data) = start_address m /\
  stop_address (memory_load m data) = stop_address m /\
  mem_kind (memory_load m data) = mem_kind m.
Proof. intros. repeat split. Qed.

(** [load] of what was dumped is the identity. *)
Theorem C07_load_dump : forall m, memory_load m (memory_dump m) = m.
Proof. intros [k s t i]. reflexivity. Qed.

(** A range that ends before it starts: a debug build panics; a release build
    panics unless the range ends just before it starts, which gives a memory of
    no bytes that panics on every read. *)
Theorem C07_reversed_range : forall p k start stop, stop < start ->
  match memory_new p k start stop with
  | Panic => p = Debug \/ start <> stop + 1
  | Ok m => p = Release /\ start = stop + 1 /\ mem_kind m = k /\ start_address m = start /\ stop_address m = stop /\
            memory_dump m = [] /\ forall q a, dev_read q m a = Panic
  end.
Proof.
  intros p k start stop H. unfold memory_new. replace (start <=? stop) with false by lia. destruct p; [left; reflexivity|].
  destruct (start =? stop + 1) eqn:E; [|right; lia]. repeat split; [lia|]. intros q a. cbn [dev_read memory_device]. unfold memory_read.
  destruct (sub_u16 q a _) as [o|]; [|reflexivity]. cbn [bind mem_inner]. unfold vec_get.
  destruct (o <? 0); [reflexivity|]. destruct (Z.to_nat o); reflexivity.
Qed.
(** Otherwise it has a zero for every address of the range. *)
Theorem C07_new : forall p k start stop, start <= stop -> exists m, memory_new p k start stop = Ok m /\
  mem_kind m = k /\ start_address m = start /\ stop_address m = stop /\
  Z.of_nat (length (memory_dump m)) = stop - start + 1 /\ Forall (eq 0) (memory_dump m).
Proof.
  intros p k start stop H. rewrite memory_new_ok by exact H. eexists. split; [reflexivity|].
  do 3 (split; [reflexivity|]). unfold memory_dump. cbn [mem_inner]. split; [rewrite repeat_length; lia|].
  apply Forall_forall. intros v Hv. apply repeat_spec in Hv. congruence.
Qed.
Print Assumptions C07_reversed_range.
Print Assumptions C07_new.
Print Assumptions C07_dump_load.
Print Assumptions C07_read_loaded.
Print Assumptions C07_load_keeps_range.
Print Assumptions C07_load_dump.

Example C07_nonvacuous :
  dev_read Debug (memory_load demo_ram [9]) 0x10 = Ok 9 /\
  dev_read Debug (memory_load demo_ram [9]) 0x11 = Panic /\
  memory_new Release ReadWrite 5 4 = Ok (mkMemory ReadWrite 5 4 []) /\ memory_new Release ReadWrite 5 3 = Panic /\
  memory_new Debug ReadWrite 5 4 = Panic.
Proof. repeat split; reflexivity. Qed.

(** ** C08 pages *)
Theorem C08_page_of_address : forall p a b, u16 a -> u16 b ->
  exists pg, page_from_u16 p a = Ok pg /\
    (page_contains pg b = true <-> a / 256 = b / 256).
Proof. exact page_of_address. Qed.

Theorem C08_page_of_byte : forall a b, u8 a -> u16 b ->
  (page_contains (page_from_u8 a) b = true <-> b < 256).
Proof. exact page_of_byte. Qed.

Theorem C08_page_new : forall lo hi b, page_contains (page_new lo hi) b = true <-> lo <= b <= hi.
Proof. intros lo hi b. unfold page_contains, page_new. cbn [page_lo page_hi]. lia. Qed.

Print Assumptions C08_page_of_address.
Print Assumptions C08_page_of_byte.
Print Assumptions C08_page_new.

Example C08_nonvacuous : exists pg, page_from_u16 Debug 0xffff = Ok pg /\
  page_contains pg 0xff00 = true /\ page_contains pg 0xfeff = false.
Proof. eexists. repeat split; reflexivity. Qed.
