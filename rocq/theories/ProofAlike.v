(** Machines on buses that are alike do the same. *)
From Verif Require Import Base Arith ModelMap ModelStep ModelRegs6502 ModelCpu6502 ModelOperand ModelIsa6502
  ModelRun6502 ModelIo ModelBus ProofBusMap SpecBus SpecMap ProofMap.
From Coq Require Import Permutation.

Lemma agree_bind {A1 A2 B1 B2} (R : A1 -> A2 -> Prop) (Q : B1 -> B2 -> Prop) x y f g :
  agree R x y -> (forall a b, R a b -> agree Q (f a) (g b)) -> agree Q (bind x f) (bind y g).
Proof. intros [a b H|] G; cbn [bind]; [apply G, H|constructor]. Qed.

Lemma agree_weaken {A B} (R Q : A -> B -> Prop) x y :
  agree R x y -> (forall a b, R a b -> Q a b) -> agree Q x y.
Proof. intros [a b H|] G; constructor. apply G, H. Qed.

Lemma agree_refl {A} (x : res A) : agree eq x x.
Proof. destruct x; constructor. reflexivity. Qed.

Section Alike.
Context {S1 S2 : Type} (R : S1 -> S2 -> Prop) (b1 : bus S1) (b2 : bus S2).
Context (Hal : alike R b1 b2).
Variable p : profile.

Definition both {A} (x : A * S1) (y : A * S2) : Prop := fst x = fst y /\ R (snd x) (snd y).

Lemma answer_alike {A} (x : io A) : forall s1 s2, R s1 s2 ->
  agree both (answer b1 x s1) (answer b2 x s2).
Proof.
  induction x as [a| |addr k IH]; intros s1 s2 Hs; cbn [answer].
  - constructor. split; [reflexivity|exact Hs].
  - constructor.
  - eapply agree_bind; [exact (proj1 Hal s1 s2 addr Hs)|].
    intros [v t1] [w t2] [E Ht]. cbn [fst snd] in *. subst w. apply IH. exact Ht.
Qed.

Lemma execute_alike mc (cpu : core) s1 s2 : R s1 s2 ->
  agree both (execute_bus b1 p (cpu, s1) mc) (execute_bus b2 p (cpu, s2) mc).
Proof.
  intros Hs.
  assert (G : agree both (do! cpu' <- execute_mut p cpu mc ; Ok (cpu', s1))
                         (do! cpu' <- execute_mut p cpu mc ; Ok (cpu', s2))).
  { destruct (execute_mut p cpu mc); cbn [bind]; constructor. split; [reflexivity|exact Hs]. }
  destruct mc; cbn [execute_bus]; try exact G.
  eapply agree_bind; [apply (proj2 Hal), Hs|]. intros t1 t2 Ht. constructor. split; [reflexivity|exact Ht].
Qed.

Lemma fold_alike l : forall (cpu : core) s1 s2, R s1 s2 ->
  agree both (foldM (execute_bus b1 p) l (cpu, s1)) (foldM (execute_bus b2 p) l (cpu, s2)).
Proof.
  induction l as [|mc l IH]; intros cpu s1 s2 Hs; cbn [foldM].
  - constructor. split; [reflexivity|exact Hs].
  - eapply agree_bind; [apply execute_alike, Hs|]. intros [c1 t1] [c2 t2] [E Ht]. cbn [fst snd] in *. subst c2.
    apply IH, Ht.
Qed.

Definition stepped (x : operations * (core * S1)) (y : operations * (core * S2)) : Prop :=
  fst x = fst y /\ both (snd x) (snd y).

Lemma next_alike (cpu : core) s1 s2 : R s1 s2 ->
  agree stepped (next_bus b1 p (cpu, s1)) (next_bus b2 p (cpu, s2)).
Proof.
  intros Hs. unfold next_bus. eapply agree_bind; [apply answer_alike, Hs|].
  intros [m1 t1] [m2 t2] [E Ht]. cbn [fst snd] in *. subst m2.
  destruct (operations_into_cycles m1) as [cs|]; cbn [bind]; [|constructor].
  eapply agree_bind; [apply fold_alike, Ht|]. intros x y Hxy. constructor. split; [reflexivity|exact Hxy].
Qed.

Lemma iterate_alike k : forall (cpu : core) s1 s2, R s1 s2 ->
  agree (fun x y => fst x = fst y /\ both (snd x) (snd y))
    (iterate_bus b1 p k (cpu, s1)) (iterate_bus b2 p k (cpu, s2)).
Proof.
  induction k as [|k IH]; intros cpu s1 s2 Hs; cbn [iterate_bus].
  - constructor. split; [reflexivity|]. split; [reflexivity|exact Hs].
  - eapply agree_bind; [apply next_alike, Hs|].
    intros [m1 [c1 t1]] [m2 [c2 t2]] [E [Ec Ht]]. cbn [fst snd] in *. subst m2 c2.
    eapply agree_bind; [apply IH, Ht|]. intros [n1 x] [n2 y] [En Hxy]. cbn [fst snd] in *. subst n2.
    constructor. split; [reflexivity|exact Hxy].
Qed.

Definition pipes (q1 : bus_pipeline S1) (q2 : bus_pipeline S2) : Prop :=
  R (bp_bus q1) (bp_bus q2) /\ bp_buffer q1 = bp_buffer q2 /\ bp_iter q1 = bp_iter q2 /\ bp_state q1 = bp_state q2.

Lemma cycle_alike q1 q2 : pipes q1 q2 -> agree pipes (bus_pipeline_cycle b1 p q1) (bus_pipeline_cycle b2 p q2).
Proof.
  destruct q1 as [s1 buf it st], q2 as [s2 buf2 it2 st2]. intros (Hs & E1 & E2 & E3).
  cbn [bp_bus bp_buffer bp_iter bp_state] in *. subst buf2 it2 st2. unfold bus_pipeline_cycle.
  cbn [bp_bus bp_buffer bp_iter bp_state].
  eapply agree_bind with (R := fun x y => R (fst (fst x)) (fst (fst y)) /\ snd (fst x) = snd (fst y) /\ snd x = snd y).
  - destruct buf as [|c buf].
    + eapply agree_bind; [apply next_alike, Hs|].
      intros [m1 [c1 t1]] [m2 [c2 t2]] [E [Ec Ht]]. cbn [fst snd] in *. subst m2 c2.
      destruct (operations_into_cycles m1); cbn [bind]; constructor. repeat split; exact Ht.
    + constructor. repeat split; exact Hs.
  - intros [[t1 cs] i1] [[t2 cs2] i2] (Ht & E4 & E5). cbn [fst snd] in *. subst cs2 i2.
    destruct cs as [|c cs]; [constructor|].
    eapply agree_bind; [apply fold_alike, Ht|]. intros [c1 u1] [c2 u2] [E Hu]. cbn [fst snd] in *. subst c2.
    constructor. repeat split; exact Hu.
Qed.

Lemma run_alike n : forall q1 q2, pipes q1 q2 ->
  agree pipes (bus_pipeline_run b1 p n q1) (bus_pipeline_run b2 p n q2).
Proof.
  induction n as [|n IH]; intros q1 q2 Hq; cbn [bus_pipeline_run]; [constructor; exact Hq|].
  eapply agree_bind; [apply cycle_alike, Hq|]. intros x y Hxy. apply IH, Hxy.
Qed.

Lemma run_bus_alike (cpu : core) s1 s2 n : R s1 s2 ->
  agree both (run_bus b1 p cpu s1 n) (run_bus b2 p cpu s2 n).
Proof.
  intros Hs. unfold run_bus. eapply agree_bind; [apply run_alike; repeat split; exact Hs|].
  intros q1 q2 (Hb & _ & _ & E). constructor. split; [cbn [fst]; rewrite E; reflexivity|exact Hb].
Qed.
End Alike.

(** ** The same for machines with address maps *)
Section Maps.
Context {D1 D2 : Type} {dev1 : Device D1} {dev2 : Device D2} (p : profile)
  (R : address_map D1 -> address_map D2 -> Prop).
Context (Hal : alike R (map_bus p) (map_bus p)).

Definition twins (c1 : mos6502 D1) (c2 : mos6502 D2) : Prop :=
  core_of c1 = core_of c2 /\ R (amap c1) (amap c2).

Lemma core_of_assemble D (c : core) (m : address_map D) : amap c = [] -> core_of (assemble (c, m)) = c.
Proof. destruct c as [am a x y s pc ps]. cbn. intros ->. reflexivity. Qed.

(** The core keeps its empty map. *)
Lemma empty_map (c : core) : amap c = [].
Proof. destruct (amap c) as [|e l]; [reflexivity|destruct (device e)]. Qed.

Lemma twins_of c m1 m2 : R m1 m2 -> twins (assemble (c, m1)) (assemble (c, m2)).
Proof.
  intros Hm. split; [|exact Hm]. rewrite !core_of_assemble; auto using empty_map.
Qed.

Lemma map_next_alike c1 c2 : twins c1 c2 ->
  agree (fun x y => fst x = fst y /\ twins (snd x) (snd y)) (next p c1) (next p c2).
Proof.
  intros [Ec Hm]. rewrite !next_map, Ec.
  eapply agree_bind; [apply (next_alike R _ _ Hal), Hm|].
  intros [m1 [k1 t1]] [m2 [k2 t2]] [E [Ek Ht]]. cbn [fst snd] in *. subst m2 k2.
  constructor. split; [reflexivity|]. apply twins_of, Ht.
Qed.

Lemma map_fold_alike l c1 c2 : twins c1 c2 ->
  agree twins (foldM (execute_mut p) l c1) (foldM (execute_mut p) l c2).
Proof.
  intros [Ec Hm]. rewrite <- (assemble_id c1), <- (assemble_id c2), !fold_map, Ec.
  eapply agree_bind; [apply (fold_alike R _ _ Hal), Hm|].
  intros [k1 t1] [k2 t2] [E Ht]. cbn [fst snd] in *. subst k2. constructor. apply twins_of, Ht.
Qed.

Lemma map_take_alike n : forall buf c1 c2, twins c1 c2 ->
  agree eq (take_cycles p n buf c1) (take_cycles p n buf c2).
Proof.
  induction n as [|n IH]; intros buf c1 c2 Hc; cbn [take_cycles]; [constructor; reflexivity|].
  assert (G : forall c buf' c1 c2, twins c1 c2 ->
    agree eq (do! rest <- take_cycles p n buf' c1 ; Ok (c :: rest)) (do! rest <- take_cycles p n buf' c2 ; Ok (c :: rest))).
  { intros c buf' d1 d2 Hd. eapply agree_bind; [apply IH, Hd|]. intros a b ->. constructor. reflexivity. }
  destruct buf as [|c buf]; [|apply G, Hc].
  eapply agree_bind; [apply map_next_alike, Hc|].
  intros [m1 d1] [m2 d2] [E Hd]. cbn [fst snd] in *. subst m2.
  destruct (operations_into_cycles m1) as [cs|]; cbn [bind]; [|constructor].
  destruct cs as [|c cs]; [constructor|apply G, Hd].
Qed.

Lemma map_run_alike n c1 c2 : twins c1 c2 ->
  agree (fun x y => exists d1 d2, x = Ready d1 /\ y = Ready d2 /\ twins d1 d2) (run p c1 n) (run p c2 n).
Proof.
  intros Hc. unfold run. eapply agree_bind; [apply map_take_alike, Hc|]. intros cs cs2 <-.
  eapply agree_bind; [apply map_fold_alike, Hc|]. intros d1 d2 Hd. constructor.
  exists d1, d2. split; [reflexivity|]. split; [reflexivity|exact Hd].
Qed.

Lemma map_reset_alike c1 c2 : twins c1 c2 ->
  agree (fun x y => exists d1 d2, x = NotReady 5 d1 /\ y = NotReady 5 d2 /\ twins d1 d2) (reset p c1) (reset p c2).
Proof.
  intros [Ec Hm]. unfold reset.
  assert (Hr : forall a, am_read p (amap c1) a = am_read p (amap c2) a).
  { intros a. pose proof (proj1 Hal _ _ a Hm) as H. cbn [map_bus b_read] in H.
    destruct (am_read p (amap c1) a), (am_read p (amap c2) a); cbn [bind] in H; inversion H; [|reflexivity].
    match goal with Hx : fst _ = fst _ /\ _ |- _ => destruct Hx as [Hx _]; cbn [fst] in Hx; congruence end. }
  cbn [with_addressmap amap]. rewrite !Hr.
  destruct (am_read p (amap c2) RESET_VECTOR_LL); cbn [bind]; [|constructor].
  destruct (am_read p (amap c2) RESET_VECTOR_HH); cbn [bind]; [|constructor].
  constructor. eexists. eexists. split; [reflexivity|]. split; [reflexivity|]. split; [reflexivity|exact Hm].
Qed.
End Maps.

(** ** Representations that are alike *)

(** The order of a map without overlaps. *)
Definition reordered {D} (m1 m2 : address_map D) : Prop := disjoint m1 /\ Permutation m1 m2.

Lemma reordered_alike D (dev : Device D) p : alike (@reordered D) (map_bus p) (map_bus p).
Proof.
  split.
  - intros m1 m2 a [Hd Hp]. cbn [map_bus b_read]. rewrite (read_perm p m1 m2 a Hd Hp).
    destruct (am_read p m1 a); cbn [bind]; constructor. repeat split; assumption.
  - intros m1 m2 a v [Hd Hp]. cbn [map_bus b_write]. pose proof (write_perm p m1 m2 a v Hd Hp) as W.
    destruct (am_write p m1 a v) as [[n1 [w1|]]|] eqn:E1, (am_write p m2 a v) as [[n2 [w2|]]|] eqn:E2;
      cbn in W; try destruct W; try discriminate; try contradiction; constructor.
    split; [|assumption]. apply (disjoint_layout m1); [|assumption]. exact (write_layout _ _ _ _ _ _ E1).
Qed.

(** One block of memory against two blocks in a row. *)
Definition halves (k : mem_type) (lo mid hi : Z) (m1 m2 : address_map memory) : Prop :=
  exists d1 d2 others,
    Z.of_nat (length d1) = mid - lo + 1 /\ Z.of_nat (length d2) = hi - mid /\
    m1 = mkEntry lo hi (mkMemory k lo hi (d1 ++ d2)) :: others /\
    m2 = mkEntry lo mid (mkMemory k lo mid d1) :: mkEntry (mid + 1) hi (mkMemory k (mid + 1) hi d2) :: others.

Lemma vec_get_left {A} (l1 l2 : list A) i : i < Z.of_nat (length l1) -> vec_get (l1 ++ l2) i = vec_get l1 i.
Proof.
  intros Hi. unfold vec_get. destruct (i <? 0) eqn:E; [reflexivity|].
  rewrite nth_error_app1 by lia. reflexivity.
Qed.
Lemma vec_get_right {A} (l1 l2 : list A) i : Z.of_nat (length l1) <= i ->
  vec_get (l1 ++ l2) i = vec_get l2 (i - Z.of_nat (length l1)).
Proof.
  intros Hi. unfold vec_get. replace (i <? 0) with false by lia.
  replace (i - Z.of_nat (length l1) <? 0) with false by lia.
  rewrite nth_error_app2 by lia. replace (Z.to_nat (i - Z.of_nat (length l1))) with (Z.to_nat i - length l1)%nat by lia.
  reflexivity.
Qed.
Lemma list_upd_left {A} (l1 l2 : list A) v : forall n, (n < length l1)%nat -> list_upd (l1 ++ l2) n v = list_upd l1 n v ++ l2.
Proof.
  induction l1 as [|x l1 IH]; intros n Hn; cbn [length] in Hn; [lia|].
  destruct n as [|n]; cbn [app list_upd]; [reflexivity|]. rewrite IH by lia. reflexivity.
Qed.
Lemma list_upd_right {A} (l1 l2 : list A) v : forall n, (length l1 <= n)%nat ->
  list_upd (l1 ++ l2) n v = l1 ++ list_upd l2 (n - length l1) v.
Proof.
  induction l1 as [|x l1 IH]; intros n Hn; cbn [length app] in *; [rewrite Nat.sub_0_r; reflexivity|].
  destruct n as [|n]; [lia|]. cbn [list_upd]. rewrite IH by lia. reflexivity.
Qed.

Lemma halves_alike p k lo mid hi : u16 lo -> u16 hi -> lo <= mid < hi ->
  alike (halves k lo mid hi) (map_bus p) (map_bus p).
Proof.
  intros Hlo Hhi Hmid. unfold u16 in *. split.
  - intros m1 m2 a (d1 & d2 & others & L1 & L2 & -> & ->). cbn [map_bus b_read am_read].
    unfold key_contains. cbn [range_lo range_hi device dev_read memory_device memory_read].
    assert (H : halves k lo mid hi (mkEntry lo hi (mkMemory k lo hi (d1 ++ d2)) :: others)
      (mkEntry lo mid (mkMemory k lo mid d1) :: mkEntry (mid + 1) hi (mkMemory k (mid + 1) hi d2) :: others))
      by (exists d1, d2, others; auto).
    assert (T : forall r : res Z, agree
      (fun x y : Z * address_map memory => fst x = fst y /\ halves k lo mid hi (snd x) (snd y))
      (do! v <- r ; Ok (v, mkEntry lo hi (mkMemory k lo hi (d1 ++ d2)) :: others))
      (do! v <- r ; Ok (v, mkEntry lo mid (mkMemory k lo mid d1) :: mkEntry (mid + 1) hi (mkMemory k (mid + 1) hi d2) :: others))).
    { intros [v|]; cbn [bind]; constructor. split; [reflexivity|exact H]. }
    unfold memory_read. cbn [start_address mem_inner].
    destruct ((lo <=? a) && (a <=? hi)) eqn:E.
    + destruct (a <=? mid) eqn:Em.
      * replace ((lo <=? a) && true) with true by lia.
        rewrite !sub_u16_ok by (unfold u16; lia). cbn [bind]. rewrite vec_get_left by lia. apply T.
      * replace ((lo <=? a) && false) with false by lia.
        replace ((mid + 1 <=? a) && (a <=? hi)) with true by lia.
        rewrite !sub_u16_ok by (unfold u16; lia). cbn [bind]. rewrite vec_get_right by lia.
        replace (a - lo - Z.of_nat (length d1)) with (a - (mid + 1)) by lia. apply T.
    + replace ((lo <=? a) && (a <=? mid)) with false by lia.
      replace ((mid + 1 <=? a) && (a <=? hi)) with false by lia. apply T.
  - intros m1 m2 a v (d1 & d2 & others & L1 & L2 & -> & ->). cbn [map_bus b_write am_write].
    unfold key_contains. cbn [range_lo range_hi device dev_write memory_device]. unfold memory_write.
    cbn [start_address stop_address mem_inner mem_kind].
    destruct ((lo <=? a) && (a <=? hi)) eqn:E.
    + destruct (a <=? mid) eqn:Em.
      * replace ((lo <=? a) && true) with true by lia.
        destruct k; cbn [bind]; [|constructor].
        rewrite !sub_u16_ok by (unfold u16; lia). cbn [bind].
        rewrite !vec_set_ok by (rewrite ?app_length; lia). cbn [bind]. constructor.
        exists (list_upd d1 (Z.to_nat (a - lo)) v), d2, others.
        rewrite list_upd_length, list_upd_left by lia. repeat split; assumption.
      * replace ((lo <=? a) && false) with false by lia.
        replace ((mid + 1 <=? a) && (a <=? hi)) with true by lia.
        destruct k; cbn [bind]; [|constructor].
        rewrite !sub_u16_ok by (unfold u16; lia). cbn [bind].
        rewrite !vec_set_ok by (rewrite ?app_length; lia). cbn [bind]. constructor.
        exists d1, (list_upd d2 (Z.to_nat (a - (mid + 1))) v), others.
        rewrite list_upd_length, list_upd_right by lia.
        replace (Z.to_nat (a - lo) - length d1)%nat with (Z.to_nat (a - (mid + 1))) by lia.
        repeat split; assumption.
    + replace ((lo <=? a) && (a <=? mid)) with false by lia.
      replace ((mid + 1 <=? a) && (a <=? hi)) with false by lia.
      destruct (am_write p others a v) as [[m [w|]]|]; cbn [bind]; constructor.
      exists d1, d2, m. auto.
Qed.

(** A map whose devices are maps themselves against the flat map. *)
Definition within {D} (e : entry (address_map D)) : Prop :=
  forall x, In x (device e) -> range_lo e <= range_lo x /\ range_hi x <= range_hi e.
Definition nested {D} (m1 : address_map (address_map D)) (m2 : address_map D) : Prop :=
  disjoint m1 /\ Forall within m1 /\ m2 = concat (map device m1).

Lemma read_app D (dev : Device D) p (l1 l2 : address_map D) a :
  unmapped l1 a -> am_read p (l1 ++ l2) a = am_read p l2 a.
Proof.
  induction l1 as [|e l1 IH]; intros Hu; [reflexivity|]. cbn [app am_read].
  replace (key_contains e a) with false
    by (symmetry; apply key_contains_niff, Hu; left; reflexivity).
  apply IH. intros x Hx. apply Hu. right. exact Hx.
Qed.

Lemma within_unmapped D (e : entry (address_map D)) a : within e -> ~ covers e a -> unmapped (device e) a.
Proof. intros Hw Hn x Hx Hc. destruct (Hw x Hx). apply Hn. unfold covers in *. lia. Qed.

Lemma flat_unmapped D (m : address_map (address_map D)) a : Forall within m -> unmapped m a ->
  unmapped (concat (map device m)) a.
Proof.
  intros Hw Hu x Hx. apply in_concat in Hx. destruct Hx as (l & Hl & Hx).
  apply in_map_iff in Hl. destruct Hl as (e & <- & He).
  rewrite Forall_forall in Hw. exact (within_unmapped _ e a (Hw e He) (Hu e He) x Hx).
Qed.

Lemma read_app_mapped D (dev : Device D) p (l1 l2 : address_map D) a :
  unmapped l2 a -> am_read p (l1 ++ l2) a = am_read p l1 a.
Proof.
  intros Hu. induction l1 as [|e l1 IH]; cbn [app am_read]; [apply read_unmapped, Hu|].
  destruct (key_contains e a); [reflexivity|exact IH].
Qed.

Lemma write_app_mapped D (dev : Device D) p (l1 l2 : address_map D) a v :
  unmapped l2 a -> am_write p (l1 ++ l2) a v = (do! ' (m, r) <- am_write p l1 a v ; Ok (m ++ l2, r)).
Proof.
  intros Hu. induction l1 as [|e l1 IH]; cbn [app am_write bind].
  - rewrite (write_unmapped p l2 a v Hu). reflexivity.
  - destruct (key_contains e a).
    + destruct (dev_write p (device e) a v) as [[d r]|]; reflexivity.
    + rewrite IH. destruct (am_write p l1 a v) as [[m r]|]; reflexivity.
Qed.

Lemma write_ranges D (dev : Device D) p (m : address_map D) a v m' r :
  am_write p m a v = Ok (m', r) -> forall x, In x m' -> exists y, In y m /\ range_lo y = range_lo x /\ range_hi y = range_hi x.
Proof.
  revert m' r. induction m as [|e m IH]; intros m' r E x Hx; cbn [am_write] in E.
  - injection E as <- <-. destruct Hx.
  - destruct (key_contains e a).
    + destruct (dev_write p (device e) a v) as [[d w]|]; cbn [bind] in E; [|discriminate]. injection E as <- <-.
      destruct Hx as [<-|Hx]; [exists e|exists x]; cbn; auto.
    + destruct (am_write p m a v) as [[n w]|]; cbn [bind] in E; [|discriminate]. injection E as <- <-.
      destruct Hx as [<-|Hx]; [exists e; cbn; auto|].
      destruct (IH _ _ eq_refl x Hx) as (y & Hy & H1). exists y. cbn. auto.
Qed.

Lemma nested_alike D (dev : Device D) p :
  alike (@nested D) (@map_bus (address_map D) am_device p) (map_bus p).
Proof.
  split.
  - intros m1 m2 a (Hd & Hw & ->). cbn [map_bus b_read].
    assert (E : am_read p m1 a = am_read p (concat (map device m1)) a).
    { clear - Hd Hw. induction m1 as [|e m IH]; [reflexivity|].
      destruct (disjoint_cons e m Hd) as (Hd' & Hu). inversion Hw as [|? ? We Wm]; subst.
      cbn [map concat am_read]. destruct (key_contains e a) eqn:E.
      - apply key_contains_iff in E. cbn [dev_read am_device].
        rewrite read_app_mapped; [reflexivity|]. apply flat_unmapped; auto.
      - apply key_contains_niff in E. rewrite read_app by (apply within_unmapped; assumption).
        apply IH; assumption. }
    rewrite E. destruct (am_read p (concat (map device m1)) a); cbn [bind]; constructor.
    repeat split; assumption.
  - intros m1 m2 a v (Hd & Hw & ->). cbn [map_bus b_write].
    assert (E : agree (fun x y => snd x = snd y /\ Forall within (fst x) /\ fst y = concat (map device (fst x)))
                  (am_write p m1 a v) (am_write p (concat (map device m1)) a v)).
    { clear - Hd Hw. induction m1 as [|e m IH]; [constructor; auto|].
      destruct (disjoint_cons e m Hd) as (Hd' & Hu). inversion Hw as [|? ? We Wm]; subst.
      cbn [map concat am_write]. destruct (key_contains e a) eqn:E.
      - apply key_contains_iff in E. cbn [dev_write am_device].
        rewrite write_app_mapped by (apply flat_unmapped; auto).
        destruct (am_write p (device e) a v) as [[n r]|] eqn:Ew; cbn [bind]; constructor.
        cbn [fst snd map concat device]. split; [reflexivity|]. split; [|reflexivity].
        constructor; [|assumption]. intros x Hx. cbn [device range_lo range_hi] in *.
        destruct (write_ranges _ _ _ _ _ _ _ _ Ew x Hx) as (y & Hy & <- & <-). apply We, Hy.
      - apply key_contains_niff in E. rewrite write_skip by (apply within_unmapped; assumption).
        specialize (IH Hd' Wm). inversion IH as [[n1 r1] [n2 r2] (H1 & H2 & H3) E1 E2|E1 E2]; cbn [bind]; constructor.
        cbn [fst snd map concat] in *. subst. split; [reflexivity|]. split; [constructor; assumption|reflexivity]. }
    inversion E as [[n1 r1] [n2 r2] (H1 & H2 & H3) E1 E2|E1 E2]; [|constructor].
    cbn [fst snd] in *. subst r2 n2. destruct r1; constructor.
    split; [|split; [assumption|reflexivity]].
    apply (disjoint_layout m1); [|assumption]. symmetry in E1. exact (write_layout _ _ _ _ _ _ E1).
Qed.
