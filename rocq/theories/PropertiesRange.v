(** C108: ranges that were iterated before they are registered. *)
From Verif Require Import Base Arith ModelMap ModelRange SpecMap SpecRange.
From Coq Require Import Permutation.

(** ** Ranges *)
Lemma interval_empty lo hi : hi < lo -> interval lo hi = [].
Proof. intros H. unfold interval. replace (Z.to_nat (hi - lo + 1)) with 0%nat by lia. reflexivity. Qed.
Lemma interval_front lo hi : lo <= hi -> interval lo hi = lo :: interval (lo + 1) hi.
Proof.
  intros H. unfold interval. replace (Z.to_nat (hi - lo + 1)) with (S (Z.to_nat (hi - (lo + 1) + 1))) by lia.
  cbn [seq map]. f_equal; [lia|]. rewrite <- seq_shift, map_map. apply map_ext. intros i. lia.
Qed.
Lemma interval_back lo hi : lo <= hi -> interval lo hi = interval lo (hi - 1) ++ [hi].
Proof.
  intros H. unfold interval. replace (Z.to_nat (hi - lo + 1)) with (S (Z.to_nat (hi - 1 - lo + 1))) by lia.
  rewrite seq_S, map_app. cbn [map]. f_equal. f_equal. lia.
Qed.
Lemma in_interval lo hi a : In a (interval lo hi) <-> lo <= a <= hi.
Proof.
  unfold interval. rewrite in_map_iff. split.
  - intros (i & <- & Hi). apply in_seq in Hi. lia.
  - intros Ha. exists (Z.to_nat (a - lo)). split; [lia|]. apply in_seq. lia.
Qed.

Definition items (r : range) : list Z := if rg_exhausted r then [] else interval (rg_start r) (rg_end r).
Definition sound (r : range) : Prop := rg_exhausted r = true -> rg_start r = rg_end r.

Lemma taken_items t r : sound r ->
  sound (snd (taken t r)) /\
  items (snd (taken t r)) = match t with Front => tl (items r) | Back => removelast (items r) end /\
  fst (taken t r) = match t with Front => first (items r) | Back => final (items r) end.
Proof.
  destruct r as [lo hi x]. unfold sound, items, taken, range_next, range_next_back, range_is_empty. cbn [rg_start rg_end rg_exhausted]. intros Hs.
  destruct x; cbn [orb].
  - destruct t; cbn; auto.
  - destruct (lo <=? hi) eqn:E1; cbn [negb].
    + apply Z.leb_le in E1. destruct (lo <? hi) eqn:E2; destruct t; cbn [fst snd rg_start rg_end rg_exhausted].
      * rewrite (interval_front lo hi) by lia. cbn. repeat split; discriminate.
      * split; [discriminate|]. unfold final. rewrite (interval_back lo hi) by lia. rewrite removelast_last, rev_app_distr. split; reflexivity.
      * assert (lo = hi) by lia. subst hi. rewrite (interval_front lo lo), (interval_empty (lo + 1)) by lia. repeat split.
      * assert (lo = hi) by lia. subst hi. rewrite (interval_front lo lo), (interval_empty (lo + 1)) by lia. repeat split.
    + apply Z.leb_gt in E1. destruct t; cbn [fst snd rg_start rg_end rg_exhausted]; rewrite (interval_empty lo hi) by lia; repeat split; discriminate.
Qed.

Lemma after_items lo hi l : sound (after lo hi l) /\ items (after lo hi l) = left_after (interval lo hi) l.
Proof.
  unfold after, left_after. assert (K : forall r s, sound r -> items r = s ->
    sound (fold_left (fun r t => snd (taken t r)) l r) /\
    items (fold_left (fun r t => snd (taken t r)) l r) = fold_left (fun s t => match t with Front => tl s | Back => removelast s end) l s).
  { induction l as [|t l IH]; intros r s Hs Hi; cbn [fold_left]; [auto|]. destruct (taken_items t r Hs) as (S1 & I1 & _).
    apply IH; [exact S1|]. rewrite I1, Hi. reflexivity. }
  apply K; [discriminate|reflexivity].
Qed.
Lemma contains_items r a : sound r -> (range_contains r a = true <-> In a (items r)).
Proof.
  destruct r as [lo hi x]. unfold sound, items, range_contains. cbn [rg_start rg_end rg_exhausted]. intros Hs. destruct x.
  - specialize (Hs eq_refl). cbn [In]. lia.
  - rewrite in_interval. lia.
Qed.
Lemma obtainable_sound r : obtainable r -> sound r.
Proof. intros (lo & hi & l & ->). apply after_items. Qed.

(** ** C108 *)
(** Iterating [lo..=hi] from both ends delivers its addresses, each once, and a
    range contains exactly the addresses that it would still deliver. *)
Theorem C108_iterated : forall lo hi l a t,
  (range_contains (after lo hi l) a = true <-> In a (left_after (interval lo hi) l)) /\
  fst (taken t (after lo hi l)) = match t with Front => first | Back => final end (left_after (interval lo hi) l) /\
  (forall b, In b (interval lo hi) <-> lo <= b <= hi) /\ NoDup (interval lo hi).
Proof.
  intros lo hi l a t. destruct (after_items lo hi l) as [S I]. split; [rewrite (contains_items _ _ S), I; reflexivity|].
  split; [|split].
  - destruct (taken_items t _ S) as (_ & _ & K). rewrite K, I. destruct t; reflexivity.
  - intros b. apply in_interval.
  - apply FinFun.Injective_map_NoDup; [|apply seq_NoDup]. intros i j E. lia.
Qed.

(** A range is used up exactly when it had items and delivered them all. *)
Theorem C108_used_up_iff : forall lo hi l,
  used_up (after lo hi l) <-> lo <= hi /\ left_after (interval lo hi) l = [].
Proof.
  intros lo hi l. unfold used_up, after, left_after.
  assert (K : forall r s, sound r -> items r = s -> (rg_exhausted r = true \/ rg_start r <= rg_end r) ->
    rg_exhausted (fold_left (fun r t => snd (taken t r)) l r) = true <->
    fold_left (fun s t => match t with Front => tl s | Back => removelast s end) l s = []).
  { induction l as [|t l IH]; intros r s Hs Hi Hn; cbn [fold_left].
    - destruct r as [a b x]. unfold items in Hi. cbn [rg_start rg_end rg_exhausted] in *. destruct x; [subst; tauto|].
      destruct Hn as [Hn|Hn]; [discriminate|]. rewrite interval_front in Hi by lia. subst s. split; discriminate.
    - destruct (taken_items t r Hs) as (S1 & I1 & _). apply IH; [exact S1|rewrite I1, Hi; reflexivity|].
      destruct r as [a b x]. unfold taken, range_next, range_next_back, range_is_empty. cbn [rg_start rg_end rg_exhausted] in *.
      destruct x; cbn [orb]; [left; destruct t; reflexivity|]. destruct Hn as [Hn|Hn]; [discriminate|].
      replace (a <=? b) with true by lia. cbn [negb]. destruct (a <? b) eqn:E; destruct t; cbn [snd rg_start rg_end rg_exhausted]; auto; right; lia. }
  destruct (Z_le_dec lo hi) as [L|L].
  - rewrite (K (range_new lo hi) (interval lo hi)); [|discriminate|reflexivity|right; cbn; exact L]. tauto.
  - split; [|tauto]. intros H. exfalso. clear K.
    assert (N : forall l, fold_left (fun r t => snd (taken t r)) l (range_new lo hi) = range_new lo hi).
    { induction l0 as [|t l0 IH]; [reflexivity|]. cbn [fold_left]. rewrite <- IH at 2. f_equal.
      unfold taken, range_next, range_next_back, range_is_empty, range_new. cbn [rg_start rg_end rg_exhausted orb].
      replace (lo <=? hi) with false by lia. destruct t; reflexivity. }
    rewrite N in H. discriminate H.
Qed.

Lemma contains_used r a : sound r -> rg_exhausted r = true -> range_contains r a = false.
Proof.
  intros Hs Hx. destruct (range_contains r a) eqn:E; [|reflexivity]. apply (contains_items r a Hs) in E. unfold items in E. rewrite Hx in E. contradiction.
Qed.
Lemma contains_fresh r a : rg_exhausted r = false -> range_contains r a = (rg_start r <=? a) && (a <=? rg_end r).
Proof. intros H. unfold range_contains. rewrite H. reflexivity. Qed.

(** Maps built by registering are made of such ranges. *)
Lemma registered_good D (m : range_map D) : registered m -> good m.
Proof.
  induction 1 as [|m r d m' Hm IH Hr E]; [constructor|]. unfold rm_register in E. destruct (existsb _ m); [discriminate|].
  injection E as <-. constructor; [exact Hr|]. unfold good in *. rewrite Forall_forall in *. intros e He. apply IH. apply filter_In in He. tauto.
Qed.

(** Entries whose range is used up are never read or written: reads, writes and
    their results are those of the map without them, and a write keeps them. *)
Theorem C108_invisible : forall D (H : Device D) p (m : range_map D) a v, registered m ->
  rm_read p m a = am_read p (visible m) a /\
  match rm_write p m a v, am_write p (visible m) a v with
  | Ok (m', w), Ok (n', w') => w = w' /\ visible m' = n' /\ map re_key m' = map re_key m /\
      (forall e, In e m -> used_up (re_key e) -> In e m')
  | Panic, Panic => True
  | _, _ => False
  end.
Proof.
  intros D H p m a v Hr. apply registered_good in Hr. unfold good in Hr. induction Hr as [|e m He Hm [IH1 IH2]].
  - split; [reflexivity|]. cbn. repeat split. intros e [].
  - apply obtainable_sound in He. cbn [rm_read rm_write visible]. destruct (rg_exhausted (re_key e)) eqn:X.
    + rewrite (contains_used _ a He X). split; [exact IH1|].
      destruct (rm_write p m a v) as [[m1 w]|]; cbn [bind]; [|exact IH2]. destruct (am_write p (visible m) a v) as [[n1 w']|]; [|exact IH2].
      destruct IH2 as (Ew & En & Ek & Eu). split; [exact Ew|]. cbn [visible map]. rewrite X. split; [exact En|]. split; [f_equal; exact Ek|].
      intros f [<-|Hf] Hu; [left; reflexivity|right; exact (Eu f Hf Hu)].
    + rewrite (contains_fresh _ a X). cbn [am_read am_write]. unfold key_contains. cbn [range_lo range_hi device].
      destruct ((rg_start (re_key e) <=? a) && (a <=? rg_end (re_key e))).
      * split; [reflexivity|]. destruct (dev_write p (re_device e) a v) as [[d' w]|]; cbn [bind]; [|exact I].
        split; [reflexivity|]. cbn [visible map re_key re_device]. rewrite X. split; [reflexivity|]. split; [reflexivity|].
        intros f [<-|Hf] Hu; [unfold used_up in Hu; congruence|right; exact Hf].
      * split; [exact IH1|]. destruct (rm_write p m a v) as [[m1 w]|], (am_write p (visible m) a v) as [[n1 w']|]; cbn [bind]; try exact IH2.
        destruct IH2 as (Ew & En & Ek & Eu). split; [exact Ew|]. cbn [visible map]. rewrite X. split; [f_equal; exact En|]. split; [f_equal; exact Ek|].
        intros f [<-|Hf] Hu; [left; reflexivity|right; exact (Eu f Hf Hu)].
Qed.

Lemma refused_visible D (m : range_map D) a : good m ->
  existsb (fun e => range_contains (re_key e) a) m = existsb (fun e => key_contains e a) (visible m).
Proof.
  intros Hg. induction Hg as [|e m He Hm IH]; [reflexivity|]. cbn [existsb visible]. apply obtainable_sound in He.
  destruct (rg_exhausted (re_key e)) eqn:X; [rewrite (contains_used _ a He X); exact IH|].
  cbn [existsb]. rewrite (contains_fresh _ a X), IH. reflexivity.
Qed.
Lemma existsb_or {A} (f g : A -> bool) l : existsb (fun x => f x || g x) l = existsb f l || existsb g l.
Proof. induction l as [|x l IH]; [reflexivity|]. cbn [existsb]. rewrite IH. destruct (f x), (g x), (existsb f l), (existsb g l); reflexivity. Qed.

(** Registering a range that is not used up is what it is without the used-up
    entries. Registering a used-up range changes no read and no write; it is refused
    exactly when an entry that is not used up has the end the range was left with. *)
Theorem C108_register : forall D (m : range_map D) r d, registered m -> obtainable r ->
  (~ used_up r -> option_map visible (rm_register m r d) = am_register (visible m) (rg_start r) (rg_end r) d) /\
  (used_up r -> match rm_register m r d with
                | None => exists e, In e (visible m) /\ covers e (rg_end r)
                | Some m' => unmapped (visible m) (rg_end r) /\ visible m' = visible m
                end).
Proof.
  intros D m r d Hm Hr. assert (Hg := registered_good D m Hm). apply obtainable_sound in Hr. unfold used_up, rm_register, am_register.
  rewrite !existsb_or, !refused_visible by exact Hg. split.
  - intros Hx. apply not_true_is_false in Hx.
    destruct (existsb (fun e => key_contains e (rg_start r)) (visible m) || existsb (fun e => key_contains e (rg_end r)) (visible m)); [reflexivity|].
    cbn [option_map]. f_equal. unfold rm_insert, hm_insert. cbn [visible re_key re_device]. rewrite Hx. f_equal. clear Hm Hg Hr.
    induction m as [|e m IH]; [reflexivity|]. cbn [filter visible].
    assert (Q : range_eq (re_key e) r = (rg_start (re_key e) =? rg_start r) && (rg_end (re_key e) =? rg_end r) && Bool.eqb (rg_exhausted (re_key e)) false)
      by (unfold range_eq; rewrite Hx; reflexivity). rewrite Q.
    destruct (rg_exhausted (re_key e)) eqn:X; cbn [Bool.eqb].
    + rewrite andb_false_r. cbn [negb visible]. rewrite X. exact IH.
    + rewrite andb_true_r. cbn [filter range_lo range_hi]. destruct (negb _); cbn [visible]; [rewrite X; f_equal|]; exact IH.
  - intros Hx. rewrite (Hr Hx), orb_diag. destruct (existsb (fun e => key_contains e (rg_end r)) (visible m)) eqn:E.
    + apply existsb_exists in E as (e & Hin & He). exists e. split; [exact Hin|]. unfold key_contains in He. unfold covers. lia.
    + split.
      * intros e Hin He. assert (N : existsb (fun e => key_contains e (rg_end r)) (visible m) = true); [|congruence].
        apply existsb_exists. exists e. split; [exact Hin|]. unfold key_contains, covers in *. lia.
      * unfold rm_insert. cbn [visible re_key]. rewrite Hx. clear Hm Hg Hr E.
        induction m as [|e m IH]; [reflexivity|]. cbn [filter visible].
        assert (Q : range_eq (re_key e) r = (rg_start (re_key e) =? rg_start r) && (rg_end (re_key e) =? rg_end r) && Bool.eqb (rg_exhausted (re_key e)) true)
          by (unfold range_eq; rewrite Hx; reflexivity). rewrite Q.
        destruct (rg_exhausted (re_key e)) eqn:X; cbn [Bool.eqb].
        -- rewrite andb_true_r. destruct (negb _); cbn [visible]; [rewrite X|]; exact IH.
        -- rewrite andb_false_r. cbn [negb visible]. rewrite X. f_equal. exact IH.
Qed.

(** A used-up range and a fresh one with the same two ends are two keys: the
    fresh one can be registered after the used-up one, not the other way round. *)
Theorem C108_both_keys : forall D (d d2 : D) a,
  let used := after a a [Front] in
  used_up used /\
  (exists m, rm_register [] used d = Some m /\ exists m2, rm_register m (range_new a a) d2 = Some m2 /\ length m2 = 2%nat) /\
  (exists m, rm_register [] (range_new a a) d2 = Some m /\ rm_register m used d = None).
Proof.
  intros D d d2 a used. assert (U : used = mkRange a a true).
  { unfold used, after. cbn [fold_left]. unfold taken, range_next, range_is_empty, range_new. cbn [rg_start rg_end rg_exhausted orb snd].
    replace (a <=? a) with true by lia. replace (a <? a) with false by lia. reflexivity. }
  rewrite U. split; [reflexivity|]. split.
  - eexists. split; [reflexivity|]. unfold rm_register, rm_insert, range_contains, range_eq, range_new. cbn [existsb filter re_key rg_start rg_end rg_exhausted Bool.eqb].
    replace (a <? a) with false by lia. rewrite !andb_false_r. cbn [orb negb]. eexists. split; reflexivity.
  - eexists. split; [reflexivity|]. unfold rm_register, rm_insert, range_contains, range_new. cbn [existsb filter re_key rg_start rg_end rg_exhausted].
    replace (a <=? a) with true by lia. reflexivity.
Qed.

(** Without used-up ranges these are the maps of ModelMap.v. *)
Theorem C108_fresh : forall D (H : Device D) p (m : range_map D) a v, registered m -> (forall e, In e m -> ~ used_up (re_key e)) ->
  visible m = map (fun e => mkEntry (rg_start (re_key e)) (rg_end (re_key e)) (re_device e)) m /\
  rm_read p m a = am_read p (visible m) a /\
  match rm_write p m a v, am_write p (visible m) a v with
  | Ok (m', w), Ok (n', w') => w = w' /\ visible m' = n' | Panic, Panic => True | _, _ => False end.
Proof.
  intros D H p m a v Hm Hn. destruct (C108_invisible D H p m a v Hm) as [K1 K2]. split; [|split; [exact K1|]].
  - clear - Hn. induction m as [|e m IH]; [reflexivity|]. cbn [visible map].
    assert (X : rg_exhausted (re_key e) = false) by (apply not_true_is_false, (Hn e); left; reflexivity).
    rewrite X. f_equal. apply IH. intros f Hf. apply Hn. right. exact Hf.
  - destruct (rm_write p m a v) as [[m' w]|], (am_write p (visible m) a v) as [[n' w']|]; try exact K2. tauto.
Qed.

Print Assumptions C108_iterated.
Print Assumptions C108_used_up_iff.
Print Assumptions C108_invisible.
Print Assumptions C108_register.
Print Assumptions C108_both_keys.
Print Assumptions C108_fresh.

(** A range of which two items were taken keeps the rest; a used-up range does
    not hide the memory registered after it. *)
Example C108_case :
  left_after (interval 0x10 0x14) [Front; Back] = [0x11; 0x12; 0x13] /\
  after 0x10 0x14 [Front; Back] = mkRange 0x11 0x13 false /\
  let rom := mkMemory ReadOnly 0x10 0x10 [7] in let ram := mkMemory ReadWrite 0x10 0x12 [1; 2; 3] in
  exists m m2, rm_register [] (after 0x10 0x10 [Front]) rom = Some m /\ rm_register m (range_new 0x10 0x12) ram = Some m2 /\
    registered m2 /\ forall p, rm_read p m 0x10 = Ok 0 /\ rm_read p m2 0x10 = Ok 1 /\
    exists m3, rm_write p m2 0x10 9 = Ok (m3, WOk 9) /\ rm_read p m3 0x10 = Ok 9.
Proof.
  split; [vm_compute; reflexivity|]. split; [vm_compute; reflexivity|]. cbv zeta. eexists. eexists.
  split; [vm_compute; reflexivity|]. split; [vm_compute; reflexivity|]. split.
  - assert (R1 := registered_one [] (after 0x10 0x10 [Front]) (mkMemory ReadOnly 0x10 0x10 [7]) _ registered_none
      (ex_intro _ 0x10 (ex_intro _ 0x10 (ex_intro _ [Front] eq_refl))) eq_refl).
    exact (registered_one _ (range_new 0x10 0x12) (mkMemory ReadWrite 0x10 0x12 [1; 2; 3]) _ R1
      (ex_intro _ 0x10 (ex_intro _ 0x12 (ex_intro _ [] eq_refl))) eq_refl).
  - intros p. split; [reflexivity|]. split; [destruct p; vm_compute; reflexivity|]. exists [mkREntry (range_new 0x10 0x12) (mkMemory ReadWrite 0x10 0x12 [9; 2; 3]); mkREntry (mkRange 0x10 0x10 true) (mkMemory ReadOnly 0x10 0x10 [7])].
    split; destruct p; vm_compute; reflexivity.
Qed.
