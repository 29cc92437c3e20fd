(** Property C106: the address map, the ring and the memory for every address
    and value type. *)
From Coq Require Import Permutation.
From Verif Require Import Base Arith ModelGeneric SpecGeneric ProofMap.
From Verif Require ModelMap ModelChip8.

Section Generic.
Context {O V D : Type} (ty : address_type O) (default : V) (dev : addressable O V D).
Implicit Types (m : gmap O D) (s t : slot O D).

Lemma contains_iff s a : slot_contains ty s a = true <-> lies_in ty s a.
Proof. unfold slot_contains, lies_in, in_range. rewrite andb_true_iff. reflexivity. Qed.
Lemma contains_niff s a : slot_contains ty s a = false <-> ~ lies_in ty s a.
Proof. rewrite <- contains_iff. destruct (slot_contains ty s a); split; congruence. Qed.
Lemma nowhere_cons s m a : nowhere ty (s :: m) a <-> ~ lies_in ty s a /\ nowhere ty m a.
Proof.
  unfold nowhere. split.
  - intros H. split; [apply H; left; reflexivity|]. intros t Ht. apply H. right; exact Ht.
  - intros [H1 H2] t [<-|Ht]; auto.
Qed.
Lemma nowhere_app m1 m2 a : nowhere ty (m1 ++ m2) a <-> nowhere ty m1 a /\ nowhere ty m2 a.
Proof.
  induction m1 as [|s m1 IH]; cbn [app].
  - unfold nowhere. split; [intros H; split; [intros s []|exact H]|intros [_ H]; exact H].
  - rewrite !nowhere_cons, IH. tauto.
Qed.

Lemma read_nowhere m a : nowhere ty m a -> g_read ty default dev m a = Ok default.
Proof.
  induction m as [|s m IH]; intros H; cbn [g_read]; [reflexivity|]. apply nowhere_cons in H as [H1 H2].
  apply contains_niff in H1. rewrite H1. auto.
Qed.
Lemma write_nowhere m a v : nowhere ty m a -> g_write ty dev m a v = Ok (m, None).
Proof.
  induction m as [|s m IH]; intros H; cbn [g_write]; [reflexivity|]. apply nowhere_cons in H as [H1 H2].
  apply contains_niff in H1. rewrite H1. rewrite IH by exact H2. reflexivity.
Qed.
Lemma read_skip m1 m2 a : nowhere ty m1 a -> g_read ty default dev (m1 ++ m2) a = g_read ty default dev m2 a.
Proof.
  induction m1 as [|s m1 IH]; intros H; cbn [app g_read]; [reflexivity|]. apply nowhere_cons in H as [H1 H2].
  apply contains_niff in H1. rewrite H1. auto.
Qed.
Lemma write_skip m1 m2 a v : nowhere ty m1 a ->
  g_write ty dev (m1 ++ m2) a v = do! ' (m', r) <- g_write ty dev m2 a v ; Ok (m1 ++ m', r).
Proof.
  induction m1 as [|s m1 IH]; intros H; cbn [app g_write].
  - destruct (g_write ty dev m2 a v) as [[m' r]|]; reflexivity.
  - apply nowhere_cons in H as [H1 H2]. apply contains_niff in H1. rewrite H1, (IH H2).
    destruct (g_write ty dev m2 a v) as [[m' r]|]; reflexivity.
Qed.
End Generic.

(** ** Reading and writing *)
(** A read goes to the device whose range contains the address, whatever the
    order of the entries, and gives the default value when there is none. *)
Theorem C106_read : forall O V D (ty : address_type O) (default : V) (dev : addressable O V D) before s after a,
  only_in ty before s after a ->
  g_read ty default dev (before ++ s :: after) a = a_read dev (s_device s) a.
Proof.
  intros O V D ty default dev before s after a (H1 & H2 & _). rewrite read_skip by exact H2.
  cbn [g_read]. apply contains_iff in H1. rewrite H1. reflexivity.
Qed.
Theorem C106_read_nowhere : forall O V D (ty : address_type O) (default : V) (dev : addressable O V D) m a,
  nowhere ty m a -> g_read ty default dev m a = Ok default.
Proof. intros. apply read_nowhere. assumption. Qed.

(** So does a write; its result is that of the device, every other entry stays
    as it is, and so does what is read at every address outside the range. *)
Theorem C106_write : forall O V D (ty : address_type O) (dev : addressable O V D) before s after a v,
  only_in ty before s after a ->
  g_write ty dev (before ++ s :: after) a v =
  match a_write dev (s_device s) a v with
  | Ok (d', r) => Ok (before ++ mkSlot (s_lo s) (s_hi s) d' :: after, r)
  | Panic => Panic
  end.
Proof.
  intros O V D ty dev before s after a v (H1 & H2 & _). rewrite write_skip by exact H2.
  cbn [g_write]. apply contains_iff in H1. rewrite H1.
  destruct (a_write dev (s_device s) a v) as [[d' r]|]; reflexivity.
Qed.
Theorem C106_write_nowhere : forall O V D (ty : address_type O) (dev : addressable O V D) m a v,
  nowhere ty m a -> g_write ty dev m a v = Ok (m, None).
Proof. intros. apply write_nowhere. assumption. Qed.
Theorem C106_write_elsewhere : forall O V D (ty : address_type O) (default : V) (dev : addressable O V D) m a v m' r,
  g_write ty dev m a v = Ok (m', r) ->
  forall b, (forall s, In s m -> lies_in ty s a -> ~ lies_in ty s b) ->
  g_read ty default dev m' b = g_read ty default dev m b.
Proof.
  intros O V D ty default dev. induction m as [|s m IH]; intros a v m' r E b Hb; cbn [g_write] in E.
  - congruence.
  - destruct (slot_contains ty s a) eqn:C.
    + destruct (a_write dev (s_device s) a v) as [[d' w]|]; cbn [bind] in E; [|discriminate].
      assert (m' = mkSlot (s_lo s) (s_hi s) d' :: m) by congruence. subst m'.
      apply contains_iff in C. assert (N := Hb s (or_introl eq_refl) C). apply contains_niff in N.
      cbn [g_read]. change (slot_contains ty (mkSlot (s_lo s) (s_hi s) d') b) with (slot_contains ty s b).
      rewrite N. reflexivity.
    + destruct (g_write ty dev m a v) as [[m1 w]|] eqn:W; cbn [bind] in E; [|discriminate].
      assert (m' = s :: m1) by congruence. subst m'. cbn [g_read].
      rewrite (IH a v m1 w W b); [reflexivity|]. intros t Ht. apply Hb. right; exact Ht.
Qed.

(** The iteration order does not matter where no two ranges meet. *)
Lemma separate_cons {O D} (ty : address_type O) (s : slot O D) m : separate ty (s :: m) ->
  separate ty m /\ forall a, lies_in ty s a -> nowhere ty m a.
Proof.
  intros H. split.
  - intros a before t after -> Ha. destruct (H a (s :: before) t after eq_refl Ha) as [K1 K2].
    split; [|exact K2]. apply nowhere_cons in K1. apply K1.
  - intros a Ha. exact (proj2 (H a [] s m eq_refl Ha)).
Qed.
Lemma nowhere_perm {O D} (ty : address_type O) (m m' : gmap O D) a : Permutation m m' -> nowhere ty m a -> nowhere ty m' a.
Proof. intros P H s Hs. apply H. exact (Permutation_in _ (Permutation_sym P) Hs). Qed.
Lemma where_dec {O D} (ty : address_type O) (m : gmap O D) a :
  nowhere ty m a \/ exists before s after, m = before ++ s :: after /\ lies_in ty s a.
Proof.
  induction m as [|s m IH]; [left; intros s []|]. destruct (slot_contains ty s a) eqn:C.
  - right. exists [], s, m. split; [reflexivity|]. apply contains_iff. exact C.
  - destruct IH as [H|(b & t & af & -> & H)].
    + left. apply nowhere_cons. split; [apply contains_niff; exact C|exact H].
    + right. exists (s :: b), t, af. auto.
Qed.
Lemma only_perm {O D} (ty : address_type O) (before after m' : gmap O D) s a :
  only_in ty before s after a -> Permutation (before ++ s :: after) m' ->
  exists b' a', m' = b' ++ s :: a' /\ only_in ty b' s a' a /\ Permutation (before ++ after) (b' ++ a').
Proof.
  intros (H1 & H2 & H3) P.
  assert (Hin : In s m') by (apply (Permutation_in _ P), in_elt).
  apply in_split in Hin as (b' & a' & ->). exists b', a'. split; [reflexivity|].
  apply Permutation_app_inv in P. split; [|exact P]. split; [exact H1|].
  apply nowhere_app. apply (nowhere_perm ty _ _ a P). apply nowhere_app. auto.
Qed.
Theorem C106_order : forall O V D (ty : address_type O) (default : V) (dev : addressable O V D) m m' a v,
  separate ty m -> Permutation m m' ->
  g_read ty default dev m' a = g_read ty default dev m a /\
  match g_write ty dev m a v, g_write ty dev m' a v with
  | Ok (m1, r1), Ok (m2, r2) => r1 = r2 /\ Permutation m1 m2
  | Panic, Panic => True
  | _, _ => False
  end.
Proof.
  intros O V D ty default dev m m' a v Hs P. destruct (where_dec ty m a) as [H|(b & s & af & -> & H)].
  - assert (H' := nowhere_perm ty _ _ a P H). rewrite !read_nowhere, !write_nowhere by assumption. auto.
  - destruct (Hs a b s af eq_refl H) as [H2 H3].
    assert (On : only_in ty b s af a) by (split; [exact H|split; assumption]).
    destruct (only_perm ty b af m' s a On P) as (b' & a' & -> & On' & P').
    rewrite !(C106_read _ _ _ ty default dev) by assumption. split; [reflexivity|].
    rewrite !(C106_write _ _ _ ty dev) by assumption.
    destruct (a_write dev (s_device s) a v) as [[d' r]|]; [|exact I]. split; [reflexivity|].
    apply Permutation_elt. exact P'.
Qed.

(** ** Registration *)
Theorem C106_refused_iff : forall O D (ty : address_type O) (m : gmap O D) lo hi d,
  g_register ty m lo hi d = None <-> exists s, In s m /\ (lies_in ty s lo \/ lies_in ty s hi).
Proof.
  intros O D ty m lo hi d. unfold g_register. destruct (existsb _ m) eqn:E.
  - split; [intros _|reflexivity]. apply existsb_exists in E as (s & Hin & Hs). exists s. split; [exact Hin|].
    apply orb_true_iff in Hs as [Hs|Hs]; apply contains_iff in Hs; auto.
  - split; [discriminate|]. intros (s & Hin & Hs). exfalso.
    assert (existsb (fun s => slot_contains ty s lo || slot_contains ty s hi) m = true).
    { apply existsb_exists. exists s. split; [exact Hin|]. apply orb_true_iff.
      destruct Hs as [Hs|Hs]; apply contains_iff in Hs; auto. }
    congruence.
Qed.

(** An accepted registration changes nothing outside its range, for maps with
    or without overlapping ranges. *)
Lemma insert_is {O D} (ty : address_type O) (m : gmap O D) lo hi d m' :
  g_register ty m lo hi d = Some m' -> m' = g_insert ty m lo hi d.
Proof. unfold g_register. destruct (existsb _ m); [discriminate|congruence]. Qed.
Lemma filter_read {O V D} (ty : address_type O) (default : V) (dev : addressable O V D) (f : slot O D -> bool) (m : gmap O D) a :
  (forall s, In s m -> f s = false -> ~ lies_in ty s a) ->
  g_read ty default dev (filter f m) a = g_read ty default dev m a.
Proof.
  induction m as [|s m IH]; intros H; [reflexivity|]. cbn [filter].
  assert (IH' := IH (fun t Ht => H t (or_intror Ht))). destruct (f s) eqn:F.
  - cbn [g_read]. rewrite IH'. reflexivity.
  - cbn [g_read]. assert (N := H s (or_introl eq_refl) F). apply contains_niff in N. rewrite N. exact IH'.
Qed.
Theorem C106_registered_elsewhere : forall O V D (ty : address_type O) (default : V) (dev : addressable O V D) m lo hi d m',
  eq_is_equality ty -> g_register ty m lo hi d = Some m' ->
  forall a, ~ in_range ty lo hi a -> g_read ty default dev m' a = g_read ty default dev m a.
Proof.
  intros O V D ty default dev m lo hi d m' He E a Ha. apply insert_is in E as ->. unfold g_insert. cbn [g_read].
  assert (N : slot_contains ty (mkSlot lo hi d) a = false) by (apply contains_niff; exact Ha). rewrite N.
  apply filter_read. intros s _ F Hs. apply negb_false_iff, andb_true_iff in F as [F1 F2].
  apply He in F1, F2. apply Ha. unfold lies_in in Hs. congruence.
Qed.

(** Inside its range the new device answers, unless an older range is there
    too. *)
Lemma nowhere_filter {O D} (ty : address_type O) (f : slot O D -> bool) (m : gmap O D) a : nowhere ty m a -> nowhere ty (filter f m) a.
Proof. intros H s Hs. apply filter_In in Hs as [Hs _]. exact (H s Hs). Qed.
Theorem C106_registered : forall O V D (ty : address_type O) (default : V) (dev : addressable O V D) m lo hi d m',
  g_register ty m lo hi d = Some m' ->
  forall m'' a v, Permutation m' m'' -> in_range ty lo hi a -> nowhere ty m a ->
  g_read ty default dev m'' a = a_read dev d a /\
  match a_write dev d a v with
  | Ok (d', r) => exists before after, m'' = before ++ mkSlot lo hi d :: after /\
      g_write ty dev m'' a v = Ok (before ++ mkSlot lo hi d' :: after, r)
  | Panic => g_write ty dev m'' a v = Panic
  end.
Proof.
  intros O V D ty default dev m lo hi d m' E m'' a v P Ha Hn. apply insert_is in E as ->. unfold g_insert in P.
  assert (On : only_in ty [] (mkSlot lo hi d) (filter (fun s => negb (o_eq ty (s_lo s) lo && o_eq ty (s_hi s) hi)) m) a).
  { split; [exact Ha|]. split; [intros s []|apply nowhere_filter, Hn]. }
  destruct (only_perm ty [] _ m'' _ a On P) as (b & af & -> & On' & _).
  rewrite (C106_read _ _ _ ty default dev _ _ _ _ On'). split; [reflexivity|].
  rewrite (C106_write _ _ _ ty dev _ _ _ _ v On'). cbn [s_device s_lo s_hi].
  destruct (a_write dev d a v) as [[d' r]|]; [|reflexivity]. exists b, af. auto.
Qed.

(** For a total order, an accepted range meets an older one only by enclosing
    it; if it encloses none, no two ranges meet afterwards. *)
Theorem C106_overlap : forall O D (ty : address_type O) (m : gmap O D) lo hi d m',
  total_order ty -> g_register ty m lo hi d = Some m' ->
  forall s a, In s m -> lies_in ty s a -> in_range ty lo hi a -> less ty lo (s_lo s) /\ less ty (s_hi s) hi.
Proof.
  intros O D ty m lo hi d m' (Ht & Htr & Ha) E s a Hs [L1 L2] [R1 R2].
  assert (N : forall x, x = lo \/ x = hi -> ~ lies_in ty s x).
  { intros x Hx Hl. assert (K : g_register ty m lo hi d = None); [|congruence].
    apply C106_refused_iff. exists s. split; [exact Hs|]. destruct Hx as [->| ->]; auto. }
  assert (N1 := N lo (or_introl eq_refl)). assert (N2 := N hi (or_intror eq_refl)).
  unfold lies_in, in_range in N1, N2. unfold less. split.
  - destruct (o_le ty (s_lo s) lo) eqn:X; [|reflexivity]. exfalso. apply N1. split; [reflexivity|]. exact (Htr _ _ _ R1 L2).
  - destruct (o_le ty hi (s_hi s)) eqn:X; [|reflexivity]. exfalso. apply N2. split; [|reflexivity]. exact (Htr _ _ _ L1 R2).
Qed.
Theorem C106_stays_separate : forall O D (ty : address_type O) (m : gmap O D) lo hi d m',
  total_order ty -> separate ty m -> g_register ty m lo hi d = Some m' ->
  (forall s, In s m -> ~ (less ty lo (s_lo s) /\ less ty (s_hi s) hi)) -> separate ty m'.
Proof.
  intros O D ty m lo hi d m' Ho Hs E Hn.
  assert (No : forall s a, In s m -> lies_in ty s a -> ~ in_range ty lo hi a).
  { intros s a Hin Hl Hr. exact (Hn s Hin (C106_overlap O D ty m lo hi d m' Ho E s a Hin Hl Hr)). }
  apply insert_is in E as ->. unfold g_insert.
  set (f := fun s : slot O D => negb (o_eq ty (s_lo s) lo && o_eq ty (s_hi s) hi)).
  assert (Fi : separate ty (filter f m)).
  { clear -Hs. induction m as [|s m IH]; [exact Hs|]. apply separate_cons in Hs as [Hs Hc]. cbn [filter].
    destruct (f s); [|exact (IH Hs)]. intros a before t after E Ht. destruct before as [|b before]; cbn [app] in E.
    - assert (s = t) by congruence. subst t. assert (after = filter f m) by congruence. subst after.
      split; [intros x []|apply nowhere_filter, Hc, Ht].
    - assert (b = s) by congruence. subst b. assert (Ef : filter f m = before ++ t :: after) by congruence.
      destruct (IH Hs a before t after Ef Ht) as [K1 K2]. split; [|exact K2]. apply nowhere_cons. split; [|exact K1].
      intros Hl. apply (nowhere_filter ty f m a (Hc a Hl) t); [rewrite Ef; apply in_elt|exact Ht]. }
  intros a before t after E Ht. destruct before as [|b before]; cbn [app] in E.
  - assert (t = mkSlot lo hi d) by congruence. subst t. assert (after = filter f m) by congruence. subst after.
    split; [intros x []|]. apply nowhere_filter. intros s Hin Hl. exact (No s a Hin Hl Ht).
  - assert (b = mkSlot lo hi d) by congruence. subst b. assert (Ef : filter f m = before ++ t :: after) by congruence.
    destruct (Fi a before t after Ef Ht) as [K1 K2]. split; [|exact K2]. apply nowhere_cons. split; [|exact K1].
    intros Hl. assert (Hin : In t m).
    { assert (X : In t (filter f m)) by (rewrite Ef; apply in_elt). apply filter_In in X. apply X. }
    exact (No t a Hin Ht Hl).
Qed.

(** ** The instances used by the two processors *)
Definition u16_address : address_type Z := mkAddressType Z.leb Z.eqb.
Definition slot_of {D} (e : ModelMap.entry D) : slot Z D :=
  mkSlot (ModelMap.range_lo e) (ModelMap.range_hi e) (ModelMap.device e).
Definition answer_of (w : wresult) : option Z := match w with WOk v => Some v | WErr => None end.
Definition device_of (D : Type) (d : ModelMap.Device D) (p : profile) : addressable Z Z D :=
  mkAddressable (ModelMap.dev_read p)
    (fun x a v => do! ' (x', w) <- ModelMap.dev_write p x a v ; Ok (x', answer_of w)).
Theorem C106_instance_map : forall D (dev : ModelMap.Device D) p (m : ModelMap.address_map D) a v lo hi d,
  ModelMap.am_read p m a = g_read u16_address 0 (device_of D dev p) (map slot_of m) a /\
  (do! ' (m', w) <- ModelMap.am_write p m a v ; Ok (map slot_of m', answer_of w)) =
    g_write u16_address (device_of D dev p) (map slot_of m) a v /\
  option_map (map slot_of) (ModelMap.am_register m lo hi d) = g_register u16_address (map slot_of m) lo hi d.
Proof.
  intros D dev p m a v lo hi d. split; [|split].
  - induction m as [|e m IH]; [reflexivity|]. cbn [map ModelMap.am_read g_read]. rewrite IH.
    change (slot_contains u16_address (slot_of e) a) with (ModelMap.key_contains e a). destruct (ModelMap.key_contains e a); reflexivity.
  - induction m as [|e m IH]; [reflexivity|]. cbn [map ModelMap.am_write g_write].
    change (slot_contains u16_address (slot_of e) a) with (ModelMap.key_contains e a). destruct (ModelMap.key_contains e a).
    + cbn [device_of a_write slot_of s_device]. destruct (ModelMap.dev_write p (ModelMap.device e) a v) as [[d' w]|]; reflexivity.
    + rewrite <- IH. destruct (ModelMap.am_write p m a v) as [[m' w]|]; reflexivity.
  - unfold ModelMap.am_register, g_register.
    assert (E : existsb (fun s => slot_contains u16_address s lo || slot_contains u16_address s hi) (map slot_of m) =
      existsb (fun e => ModelMap.key_contains e lo || ModelMap.key_contains e hi) m).
    { induction m as [|e m IH]; [reflexivity|]. cbn [map existsb]. rewrite IH. reflexivity. }
    rewrite E. destruct (existsb _ m); [reflexivity|]. cbn [option_map]. f_equal.
    unfold ModelMap.hm_insert, g_insert. cbn [map]. f_equal. clear E.
    induction m as [|e m IH]; [reflexivity|]. cbn [map filter]. rewrite <- IH.
    change (o_eq u16_address (s_lo (slot_of e)) lo) with (ModelMap.range_lo e =? lo).
    change (o_eq u16_address (s_hi (slot_of e)) hi) with (ModelMap.range_hi e =? hi).
    destruct ((ModelMap.range_lo e =? lo) && (ModelMap.range_hi e =? hi)); reflexivity.
Qed.
Definition gring_of (r : ModelChip8.ring) : gring Z := mkGring (ModelChip8.ring_capacity r) (ModelChip8.ring_inner r).
Theorem C106_instance_ring : forall n (r : ModelChip8.ring) o v,
  gring_of (ModelChip8.ring_new n) = gring_new 0 n /\
  ModelChip8.ring_read r o = gring_read 0 (gring_of r) o /\
  (do! ' (r', w) <- ModelChip8.ring_write r o v ; Ok (gring_of r', answer_of w)) = gring_write (gring_of r) o v.
Proof.
  intros n r o v. split; [reflexivity|]. unfold ModelChip8.ring_read, ModelChip8.ring_write, ModelChip8.ring_offset, gring_read, gring_write, gring_of.
  cbn [gr_capacity gr_inner]. destruct (ModelChip8.ring_capacity r =? 0); [split; reflexivity|]. cbn [bind]. split; [reflexivity|].
  destruct (_ <? _); reflexivity.
Qed.

(** ** Rings and memories of any value type *)
Lemma nth_upd {T} (l : list T) n k v d : (n < length l)%nat ->
  nth k (list_upd l n v) d = if Nat.eqb k n then v else nth k l d.
Proof.
  revert n k. induction l as [|x l IH]; intros n k H; cbn [length] in H; [lia|].
  destruct n, k; cbn; try reflexivity. apply IH. lia.
Qed.
(** A ring of a non-zero capacity is an array addressed modulo the capacity,
    over any history; no write is refused. *)
Definition ring_holds {T} (n : nat) (default : T) (r : gring T) (f : Z -> T) : Prop :=
  gr_capacity r = Z.of_nat n /\ length (gr_inner r) = n /\
  forall i, 0 <= i < Z.of_nat n -> nth (Z.to_nat i) (gr_inner r) default = f i.
Lemma ring_holds_read {T} n (default : T) r f a : (0 < n)%nat -> ring_holds n default r f ->
  gring_read default r a = Ok (f (a mod Z.of_nat n)).
Proof.
  intros Hn (H1 & H2 & H3). unfold gring_read. rewrite H1. replace (Z.of_nat n =? 0) with false by lia.
  assert (B := Z.mod_pos_bound a (Z.of_nat n)). rewrite (nth_error_nth' _ default) by lia. f_equal. apply H3. lia.
Qed.
Lemma ring_holds_write {T} n (default : T) r f a v : (0 < n)%nat -> ring_holds n default r f ->
  exists r', gring_write r a v = Ok (r', Some v) /\
    ring_holds n default r' (fun b => if b =? a mod Z.of_nat n then v else f b).
Proof.
  intros Hn (H1 & H2 & H3). unfold gring_write. rewrite H1. replace (Z.of_nat n =? 0) with false by lia.
  assert (B := Z.mod_pos_bound a (Z.of_nat n)). rewrite H2.
  replace (a mod Z.of_nat n <? Z.of_nat n) with true by lia. eexists. split; [reflexivity|].
  split; [reflexivity|]. split; [cbn [gr_inner]; rewrite list_upd_length; exact H2|].
  intros i Hi. cbn [gr_inner]. rewrite nth_upd by lia.
  destruct (i =? a mod Z.of_nat n) eqn:E.
  - replace (Z.to_nat i =? Z.to_nat (a mod Z.of_nat n))%nat with true; [reflexivity|]. symmetry. apply Nat.eqb_eq. f_equal. lia.
  - replace (Z.to_nat i =? Z.to_nat (a mod Z.of_nat n))%nat with false; [apply H3; exact Hi|]. symmetry. apply Nat.eqb_neq. lia.
Qed.
Lemma ring_holds_new {T} n (default : T) : ring_holds n default (gring_new default n) (fun _ => default).
Proof.
  split; [reflexivity|]. split; [apply repeat_length|]. intros i _. cbn [gring_new gr_inner].
  generalize (Z.to_nat i) as k. induction n as [|n IH]; intros k; destruct k; cbn; auto.
Qed.
Lemma ring_run {T} n (default : T) l : (0 < n)%nat -> forall r f, ring_holds n default r f ->
  device_history (gring_device default) r l = Ok (modulo_array (Z.of_nat n) f l).
Proof.
  intros Hn. induction l as [|[a|a v] l IH]; intros r f Hr; cbn [device_history modulo_array gring_device a_read a_write]; [reflexivity| |].
  - rewrite (ring_holds_read n default r f a Hn Hr). cbn [bind]. change (mkAddressable (gring_read default) gring_write) with (gring_device default).
    rewrite (IH r f Hr). reflexivity.
  - destruct (ring_holds_write n default r f a v Hn Hr) as (r' & E & Hr'). rewrite E. cbn [bind].
    change (mkAddressable (gring_read default) gring_write) with (gring_device default). rewrite (IH r' _ Hr'). reflexivity.
Qed.
Theorem C106_ring : forall T (default : T) n l, (0 < n)%nat ->
  device_history (gring_device default) (gring_new default n) l = Ok (modulo_array (Z.of_nat n) (fun _ => default) l).
Proof. intros T default n l Hn. exact (ring_run n default l Hn _ _ (ring_holds_new n default)). Qed.

(** Any device behaves in a map as on its own, as long as only addresses of
    its range are used and no other range has them. *)
Lemma history_in_map {O V D} (ty : address_type O) (default : V) (dev : addressable O V D) l : forall before s after,
  Forall (fun x => only_in ty before s after (address_of x)) l ->
  device_history (g_device ty default dev) (before ++ s :: after) l = device_history dev (s_device s) l.
Proof.
  induction l as [|x l IH]; intros before s after H; [reflexivity|]. apply Forall_cons_iff in H as [H1 H].
  destruct x as [a|a v]; cbn [device_history address_of] in *; cbn [g_device a_read a_write].
  - rewrite (C106_read _ _ _ ty default dev _ _ _ _ H1). destruct (a_read dev (s_device s) a); [|reflexivity]. cbn [bind].
    change (mkAddressable (g_read ty default dev) (g_write ty dev)) with (g_device ty default dev). rewrite (IH _ _ _ H). reflexivity.
  - rewrite (C106_write _ _ _ ty dev _ _ _ _ v H1). destruct (a_write dev (s_device s) a v) as [[d' r]|]; [|reflexivity]. cbn [bind].
    destruct r; [|reflexivity].
    change (mkAddressable (g_read ty default dev) (g_write ty dev)) with (g_device ty default dev).
    rewrite (IH before (mkSlot (s_lo s) (s_hi s) d') after); [reflexivity|]. exact H.
Qed.
Theorem C106_in_map : forall O V D (ty : address_type O) (default : V) (dev : addressable O V D) m lo hi d m' m'' l,
  g_register ty m lo hi d = Some m' -> Permutation m' m'' ->
  Forall (fun x => in_range ty lo hi (address_of x) /\ nowhere ty m (address_of x)) l ->
  device_history (g_device ty default dev) m'' l = device_history dev d l.
Proof.
  intros O V D ty default dev m lo hi d m' m'' l E P H. apply insert_is in E as ->. unfold g_insert in P.
  set (f := fun s : slot O D => negb (o_eq ty (s_lo s) lo && o_eq ty (s_hi s) hi)) in P.
  destruct l as [|x l]; [reflexivity|].
  assert (On : forall y, In y (x :: l) -> only_in ty [] (mkSlot lo hi d) (filter f m) (address_of y)).
  { intros y Hy. rewrite Forall_forall in H. destruct (H y Hy) as [K1 K2].
    split; [exact K1|]. split; [intros s []|apply nowhere_filter, K2]. }
  destruct (only_perm ty [] _ m'' _ _ (On x (or_introl eq_refl)) P) as (b & a & -> & _ & P').
  apply (history_in_map ty default dev (x :: l) b (mkSlot lo hi d) a). apply Forall_forall. intros y Hy.
  destruct (On y Hy) as (K1 & _ & K3). split; [exact K1|]. apply nowhere_app. exact (nowhere_perm ty _ _ _ P' K3).
Qed.

(** A memory of any value type: as many default values as the range is long;
    what is loaded is dumped, and the bounds stay. *)
Theorem C106_memory : forall O V (into : O -> Z) (default : V) p lo hi data, into lo <= into hi ->
  exists m, gmemory_new into default p lo hi = Ok m /\
    gm_start m = lo /\ gm_stop m = hi /\
    Z.of_nat (length (gmemory_dump m)) = into hi - into lo + 1 /\ Forall (eq default) (gmemory_dump m) /\
    gmemory_dump (gmemory_load m data) = data /\
    gm_start (gmemory_load m data) = lo /\ gm_stop (gmemory_load m data) = hi /\
    gmemory_load m (gmemory_dump m) = m.
Proof.
  intros O V into default p lo hi data H. unfold gmemory_new. replace (into lo <=? into hi) with true by lia.
  eexists. split; [reflexivity|]. unfold gmemory_dump, gmemory_load. cbn [gm_start gm_stop gm_inner].
  do 2 (split; [reflexivity|]). split; [rewrite repeat_length; lia|].
  split; [apply Forall_forall; intros v Hv; apply repeat_spec in Hv; congruence|]. repeat split.
Qed.

Theorem C106_memory_reversed : forall O V (into : O -> Z) (default : V) p lo hi, into hi < into lo ->
  match gmemory_new into default p lo hi with
  | Panic => p = Debug \/ into lo <> into hi + 1
  | Ok m => p = Release /\ into lo = into hi + 1 /\ gm_start m = lo /\ gm_stop m = hi /\ gmemory_dump m = []
  end.
Proof.
  intros O V into default p lo hi H. unfold gmemory_new. replace (into lo <=? into hi) with false by lia.
  destruct p; [left; reflexivity|]. destruct (into lo =? into hi + 1) eqn:E; [|right; lia]. repeat split. lia.
Qed.

Print Assumptions C106_memory_reversed.
Print Assumptions C106_read.
Print Assumptions C106_read_nowhere.
Print Assumptions C106_write.
Print Assumptions C106_write_nowhere.
Print Assumptions C106_write_elsewhere.
Print Assumptions C106_order.
Print Assumptions C106_refused_iff.
Print Assumptions C106_registered_elsewhere.
Print Assumptions C106_registered.
Print Assumptions C106_overlap.
Print Assumptions C106_stays_separate.
Print Assumptions C106_instance_map.
Print Assumptions C106_instance_ring.
Print Assumptions C106_ring.
Print Assumptions C106_in_map.
Print Assumptions C106_memory.

(** A map from [usize] to booleans with two rings; the order of [usize] is
    total. *)
Definition two_rings : gmap Z (gring bool) :=
  [mkSlot 100 199 (gring_new false 4); mkSlot 0 9 (gring_new false 3)].
Example C106_case :
  total_order usize_address /\ eq_is_equality usize_address /\ separate usize_address two_rings /\
  g_register usize_address [mkSlot 0 9 (gring_new false 3)] 100 199 (gring_new false 4) = Some two_rings /\
  g_register usize_address two_rings 5 50 (gring_new false 1) = None /\
  device_history (g_device usize_address false (gring_device false)) two_rings
    [Wr 101 true; Rd 105; Rd 100; Rd 1; Wr 8 true; Rd 2; Rd 50] = Ok [true; true; false; false; true; true; false] /\
  device_history (gring_device false) (gring_new false 4) [Wr 101 true; Rd 105; Rd 100] = Ok [true; true; false].
Proof.
  split; [|split; [|split; [|repeat split; reflexivity]]].
  - unfold total_order, usize_address. cbn [o_le]. repeat split; intros; lia.
  - intros a b. cbn. lia.
  - intros a before s after E Hl. unfold two_rings in E. unfold lies_in, in_range, usize_address in Hl. cbn [o_le] in Hl.
    assert (N : forall x y : Z, x <= a <= y -> nowhere usize_address (@nil (slot Z (gring bool))) a) by (intros x y _ t []).
    destruct before as [|b [|c before]]; cbn [app] in E.
    + assert (s = mkSlot 100 199 (gring_new false 4)) by congruence. assert (after = [mkSlot 0 9 (gring_new false 3)]) by congruence. subst.
      cbn [s_lo s_hi] in Hl. split; [intros t []|]. intros t [<-|[]]. unfold lies_in, in_range, usize_address. cbn [o_le s_lo s_hi]. lia.
    + assert (s = mkSlot 0 9 (gring_new false 3)) by congruence. assert (b = mkSlot 100 199 (gring_new false 4)) by congruence.
      assert (after = []) by congruence. subst. cbn [s_lo s_hi] in Hl. split; [|intros t []]. intros t [<-|[]].
      unfold lies_in, in_range, usize_address. cbn [o_le s_lo s_hi]. lia.
    + exfalso. assert (L := f_equal (@length _) E). cbn [length] in L. rewrite app_length in L. cbn [length] in L. lia.
Qed.
