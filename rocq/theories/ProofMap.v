(** Lemmas about ModelMap.v. *)
From Verif Require Import Base Arith ModelMap SpecMap.
From Coq Require Import Permutation.

Section Map.
Context {D : Type} `{Device D}.
Implicit Type m : address_map D.

Lemma key_contains_iff (e : entry D) a : key_contains e a = true <-> covers e a.
Proof. unfold key_contains, covers. lia. Qed.
Lemma key_contains_niff (e : entry D) a : key_contains e a = false <-> ~ covers e a.
Proof. unfold key_contains, covers. lia. Qed.

Lemma disjoint_cons (e : entry D) m : disjoint (e :: m) ->
  disjoint m /\ (forall a, covers e a -> unmapped m a).
Proof.
  intros Hd. split.
  - intros i j f g a Hi Hj Hf Hg.
    specialize (Hd (S i) (S j) f g a Hi Hj Hf Hg). congruence.
  - intros a He f Hin Hf. apply In_nth_error in Hin as [j Hj].
    specialize (Hd 0%nat (S j) e f a eq_refl Hj He Hf). discriminate.
Qed.

Lemma disjoint_cons_rev (e : entry D) m : disjoint m -> (forall a, covers e a -> unmapped m a) ->
  disjoint (e :: m).
Proof.
  intros Hd He i j f g a Hi Hj Hf Hg.
  destruct i as [|i], j as [|j]; cbn in Hi, Hj; try reflexivity.
  - injection Hi as <-. exfalso. apply nth_error_In in Hj. exact (He a Hf g Hj Hg).
  - injection Hj as <-. exfalso. apply nth_error_In in Hi. exact (He a Hg f Hi Hf).
  - f_equal. exact (Hd i j f g a Hi Hj Hf Hg).
Qed.

Lemma disjoint_nil : disjoint (@nil (entry D)).
Proof. intros i j e f a Hi. destruct i; discriminate. Qed.

Lemma read_unmapped p m a : unmapped m a -> am_read p m a = Ok 0.
Proof.
  induction m as [|e m IH]; intros Hu; cbn; [reflexivity|].
  destruct (key_contains e a) eqn:E.
  - apply key_contains_iff in E. exfalso. exact (Hu e (or_introl eq_refl) E).
  - apply IH. intros f Hf. apply Hu. right; exact Hf.
Qed.

Lemma write_unmapped p m a v : unmapped m a -> am_write p m a v = Ok (m, WErr).
Proof.
  induction m as [|e m IH]; intros Hu; cbn; [reflexivity|].
  destruct (key_contains e a) eqn:E.
  - apply key_contains_iff in E. exfalso. exact (Hu e (or_introl eq_refl) E).
  - rewrite IH; [reflexivity|]. intros f Hf. apply Hu. right; exact Hf.
Qed.

Lemma read_mapped p m a e : disjoint m -> In e m -> covers e a ->
  am_read p m a = dev_read p (device e) a.
Proof.
  induction m as [|f m IH]; intros Hd Hin Hc; cbn; [destruct Hin|].
  apply disjoint_cons in Hd as [Hd Hf].
  destruct Hin as [->|Hin].
  - apply key_contains_iff in Hc. rewrite Hc. reflexivity.
  - destruct (key_contains f a) eqn:E.
    + apply key_contains_iff in E. exfalso. exact (Hf a E e Hin Hc).
    + exact (IH Hd Hin Hc).
Qed.

Lemma write_skip p (l1 l2 : address_map D) a v : unmapped l1 a ->
  am_write p (l1 ++ l2) a v =
  (do! ' (m, r) <- am_write p l2 a v ; Ok (l1 ++ m, r)).
Proof.
  induction l1 as [|f l1 IH]; intros Hu; cbn.
  - destruct (am_write p l2 a v) as [[m r]|]; reflexivity.
  - destruct (key_contains f a) eqn:E.
    + apply key_contains_iff in E. exfalso. exact (Hu f (or_introl eq_refl) E).
    + rewrite IH; [|intros g Hg; apply Hu; right; exact Hg].
      destruct (am_write p l2 a v) as [[m r]|]; reflexivity.
Qed.

Lemma disjoint_split (l1 : address_map D) e l2 a : disjoint (l1 ++ e :: l2) -> covers e a ->
  unmapped l1 a /\ unmapped l2 a.
Proof.
  induction l1 as [|f l1 IH]; cbn; intros Hd Hc.
  - apply disjoint_cons in Hd as [Hd He]. split; [intros g []|]. exact (He a Hc).
  - apply disjoint_cons in Hd as [Hd Hf]. destruct (IH Hd Hc) as [H1 H2]. split; [|exact H2].
    intros g [->|Hg]; [|exact (H1 g Hg)].
    intros Hg. apply (Hf a Hg e); [|exact Hc]. apply in_or_app. right; left; reflexivity.
Qed.

Lemma write_mapped p (l1 : address_map D) e l2 a v : disjoint (l1 ++ e :: l2) -> covers e a ->
  am_write p (l1 ++ e :: l2) a v =
  (do! ' (d', r) <- dev_write p (device e) a v ;
   Ok (l1 ++ mkEntry (range_lo e) (range_hi e) d' :: l2, r)).
Proof.
  intros Hd Hc. destruct (disjoint_split _ _ _ _ Hd Hc) as [H1 _].
  rewrite write_skip by exact H1. cbn.
  apply key_contains_iff in Hc. rewrite Hc.
  destruct (dev_write p (device e) a v) as [[d' r]|]; reflexivity.
Qed.

(** A write only replaces one device. *)
Lemma write_shape p m a v m' r : am_write p m a v = Ok (m', r) ->
  (m' = m /\ r = WErr /\ unmapped m a) \/
  (exists l1 e l2 d', m = l1 ++ e :: l2 /\ unmapped l1 a /\ covers e a /\
     dev_write p (device e) a v = Ok (d', r) /\
     m' = l1 ++ mkEntry (range_lo e) (range_hi e) d' :: l2).
Proof.
  revert m'. induction m as [|f m IH]; cbn; intros m' Hw.
  - injection Hw as <- <-. left. repeat split. intros e [].
  - destruct (key_contains f a) eqn:E.
    + destruct (dev_write p (device f) a v) as [[d' r']|] eqn:Ew; cbn in Hw; [|discriminate].
      injection Hw as <- <-. right. exists [], f, m, d'. repeat split; auto.
      * intros g [].
      * apply key_contains_iff; exact E.
      * apply key_contains_iff; exact E.
    + destruct (am_write p m a v) as [[m'' r']|] eqn:Ew; cbn in Hw; [|discriminate].
      injection Hw as <- <-. apply key_contains_niff in E.
      destruct (IH m'' eq_refl) as [(-> & -> & Hu)|(l1 & e & l2 & d' & -> & Hu & Hc & Hd & ->)].
      * left. repeat split; auto. intros g [->|Hg]; auto.
      * right. exists (f :: l1), e, l2, d'. repeat split; auto; try apply Hc.
        intros g [->|Hg]; auto.
Qed.

Lemma layout_app (l1 l2 : address_map D) : layout (l1 ++ l2) = layout l1 ++ layout l2.
Proof. unfold layout. apply map_app. Qed.

Lemma write_layout p m a v m' r : am_write p m a v = Ok (m', r) -> layout m' = layout m.
Proof.
  intros Hw. destruct (write_shape _ _ _ _ _ _ Hw)
    as [(-> & _ & _)|(l1 & e & l2 & d' & -> & _ & _ & _ & ->)]; [reflexivity|].
  rewrite !layout_app. reflexivity.
Qed.

(** Disjointness only depends on the ranges. *)
Lemma disjoint_layout m m' : layout m' = layout m -> disjoint m -> disjoint m'.
Proof.
  intros Hl Hd i j e f a Hi Hj He Hf.
  assert (K : forall k g, nth_error m' k = Some g ->
              exists g', nth_error m k = Some g' /\ range_lo g' = range_lo g /\ range_hi g' = range_hi g).
  { intros k g Hk.
    assert (Hk' : nth_error (layout m') k = Some (range_lo g, range_hi g))
      by (unfold layout; rewrite nth_error_map, Hk; reflexivity).
    rewrite Hl in Hk'. unfold layout in Hk'. rewrite nth_error_map in Hk'.
    destruct (nth_error m k) as [g'|]; [|discriminate].
    cbn in Hk'. injection Hk' as E1 E2. exists g'. auto. }
  destruct (K i e Hi) as (e' & Hi' & Elo & Ehi).
  destruct (K j f Hj) as (f' & Hj' & Flo & Fhi).
  apply (Hd i j e' f' a Hi' Hj'); unfold covers in *; lia.
Qed.

Lemma covers_layout m m' a : layout m' = layout m -> unmapped m a -> unmapped m' a.
Proof.
  intros Hl Hu e Hin Hc.
  assert (Hin' : In (range_lo e, range_hi e) (layout m'))
    by (unfold layout; apply in_map_iff; exists e; auto).
  rewrite Hl in Hin'. unfold layout in Hin'. apply in_map_iff in Hin' as (f & Ef & Hf).
  injection Ef as E1 E2. apply (Hu f Hf). unfold covers in *. lia.
Qed.

(** A write does not change what is read from addresses of other devices. *)
Lemma write_frame p m a v m' r : am_write p m a v = Ok (m', r) ->
  forall q b, (forall e, In e m -> covers e a -> ~ covers e b) ->
  am_read q m' b = am_read q m b.
Proof.
  intros Hw q b Hb.
  destruct (write_shape _ _ _ _ _ _ Hw)
    as [(-> & _ & _)|(l1 & e & l2 & d' & -> & Hu & Hc & Hd & ->)]; [reflexivity|].
  assert (Hn : ~ covers e b) by (apply Hb; [apply in_or_app; right; left; reflexivity|exact Hc]).
  clear Hb Hw Hu. induction l1 as [|f l1 IH]; cbn.
  - assert (E1 : key_contains e b = false) by (apply key_contains_niff; exact Hn).
    assert (E2 : key_contains (mkEntry (range_lo e) (range_hi e) d') b = false)
      by (rewrite <- E1; reflexivity).
    rewrite E1, E2. reflexivity.
  - destruct (key_contains f b); [reflexivity|exact IH].
Qed.

(** ** Permutations *)
Lemma unmapped_perm m m' a : Permutation m m' -> unmapped m a -> unmapped m' a.
Proof.
  intros Hp Hu e Hin. apply Hu. apply (Permutation_in e (Permutation_sym Hp)). exact Hin.
Qed.

Lemma disjoint_perm m m' : Permutation m m' -> disjoint m -> disjoint m'.
Proof.
  induction 1 as [|e l l' Hp IH|e f l|l l' l'' Hp1 IH1 Hp2 IH2]; intros Hd.
  - exact Hd.
  - apply disjoint_cons in Hd as [Hd He]. apply disjoint_cons_rev; [auto|].
    intros a Ha. apply (unmapped_perm _ _ _ Hp). auto.
  - apply disjoint_cons in Hd as [Hd Hf]. apply disjoint_cons in Hd as [Hd He].
    apply disjoint_cons_rev; [apply disjoint_cons_rev; auto|].
    + intros a Ha g Hg. apply (Hf a Ha). right; exact Hg.
    + intros a Ha g [->|Hg]; [|exact (He a Ha g Hg)].
      intros Hc. exact (Hf a Hc e (or_introl eq_refl) Ha).
  - auto.
Qed.

Lemma mapped_dec m a : unmapped m a \/ exists e, In e m /\ covers e a.
Proof.
  induction m as [|f m IH]; [left; intros e []|].
  destruct (key_contains f a) eqn:E.
  - right. exists f. split; [left; reflexivity|apply key_contains_iff; exact E].
  - destruct IH as [Hu|(e & Hin & Hc)].
    + left. intros g [->|Hg]; [apply key_contains_niff; exact E|exact (Hu g Hg)].
    + right. exists e. split; [right; exact Hin|exact Hc].
Qed.

Lemma read_perm p m m' a : disjoint m -> Permutation m m' -> am_read p m' a = am_read p m a.
Proof.
  intros Hd Hp. destruct (mapped_dec m a) as [Hu|(e & Hin & Hc)].
  - rewrite (read_unmapped p m a Hu). apply read_unmapped. exact (unmapped_perm _ _ _ Hp Hu).
  - rewrite (read_mapped p m a e Hd Hin Hc).
    apply read_mapped; [exact (disjoint_perm _ _ Hp Hd)|exact (Permutation_in _ Hp Hin)|exact Hc].
Qed.

Lemma write_perm p m m' a v : disjoint m -> Permutation m m' ->
  same_write (am_write p m a v) (am_write p m' a v).
Proof.
  intros Hd Hp. destruct (mapped_dec m a) as [Hu|(e & Hin & Hc)].
  - rewrite (write_unmapped p m a v Hu), (write_unmapped p m' a v (unmapped_perm _ _ _ Hp Hu)).
    cbn. auto.
  - assert (Hin' := Permutation_in _ Hp Hin).
    assert (Hd' := disjoint_perm _ _ Hp Hd).
    apply in_split in Hin as (l1 & l2 & ->). apply in_split in Hin' as (k1 & k2 & ->).
    rewrite (write_mapped p l1 e l2 a v Hd Hc), (write_mapped p k1 e k2 a v Hd' Hc).
    destruct (dev_write p (device e) a v) as [[d' r]|]; cbn; [|exact I].
    split; [|reflexivity].
    apply Permutation_app_inv in Hp.
    apply Permutation_elt. exact Hp.
Qed.

(** ** Registration *)
Lemma register_none m lo hi d :
  am_register m lo hi d = None <-> exists e, In e m /\ (covers e lo \/ covers e hi).
Proof.
  unfold am_register. destruct (existsb _ m) eqn:E.
  - split; [intros _|reflexivity]. apply existsb_exists in E as (e & Hin & He).
    exists e. split; [exact Hin|]. apply orb_true_iff in He as [He|He];
      apply key_contains_iff in He; auto.
  - split; [discriminate|]. intros (e & Hin & He). exfalso.
    assert (existsb (fun e0 => key_contains e0 lo || key_contains e0 hi) m = true).
    { apply existsb_exists. exists e. split; [exact Hin|]. apply orb_true_iff.
      destruct He as [He|He]; apply key_contains_iff in He; auto. }
    congruence.
Qed.

Lemma register_some m lo hi d m' : am_register m lo hi d = Some m' ->
  m' = hm_insert m lo hi d /\ forall e, In e m -> ~ covers e lo /\ ~ covers e hi.
Proof.
  intros Hr.
  assert (Hn : am_register m lo hi d <> None) by congruence.
  split.
  - unfold am_register in Hr. destruct (existsb _ m); [discriminate|]. congruence.
  - intros e Hin. split; intros Hc; apply Hn, register_none; exists e; auto.
Qed.

Lemma insert_in m lo hi d e : In e (hm_insert m lo hi d) ->
  e = mkEntry lo hi d \/ In e m.
Proof.
  unfold hm_insert. intros [<-|Hin]; [left; reflexivity|].
  apply filter_In in Hin as [Hin _]. right; exact Hin.
Qed.

(** An old entry can only be dropped when it has the same, empty range. *)
Lemma insert_keeps m lo hi d e a : (forall e, In e m -> ~ covers e lo /\ ~ covers e hi) ->
  In e m -> covers e a -> In e (hm_insert m lo hi d).
Proof.
  intros Hn Hin Hc. right. apply filter_In. split; [exact Hin|].
  destruct (Hn e Hin) as [H1 H2]. unfold covers in *.
  destruct ((range_lo e =? lo) && (range_hi e =? hi)) eqn:E; [|reflexivity]. lia.
Qed.

Lemma filter_disjoint (f : entry D -> bool) m : disjoint m -> disjoint (filter f m).
Proof.
  induction m as [|e m IH]; intros Hd; [exact Hd|].
  apply disjoint_cons in Hd as [Hd He]. cbn. destruct (f e); [|auto].
  apply disjoint_cons_rev; [auto|]. intros a Ha g Hg. apply filter_In in Hg as [Hg _].
  exact (He a Ha g Hg).
Qed.

Lemma register_disjoint m lo hi d m' : disjoint m -> am_register m lo hi d = Some m' ->
  ((forall e, In e m -> ~ encloses lo hi (range_lo e) (range_hi e)) <-> disjoint m').
Proof.
  intros Hd Hr. apply register_some in Hr as [-> Hn]. split.
  - intros He. unfold hm_insert. apply disjoint_cons_rev; [apply filter_disjoint; exact Hd|].
    intros a Ha f Hf Hc. apply filter_In in Hf as [Hf _].
    destruct (Hn f Hf) as [H1 H2]. specialize (He f Hf).
    unfold covers, encloses in *. cbn in *. lia.
  - intros Hd' e Hin He.
    assert (Hce : covers e (range_lo e)) by (unfold covers, encloses in *; lia).
    assert (Hin' := insert_keeps m lo hi d e (range_lo e) Hn Hin Hce).
    assert (Hcn : covers (mkEntry lo hi d) (range_lo e)) by (unfold covers, encloses in *; cbn; lia).
    unfold hm_insert in *. apply disjoint_cons in Hd' as [_ Hu].
    specialize (Hu (range_lo e) Hcn). destruct Hin' as [<-|Hin'].
    + unfold encloses in He. cbn in He. lia.
    + exact (Hu e Hin' Hce).
Qed.
End Map.

Section RegisterAll.
Context {D : Type}.

Lemma register_subset (m m' : address_map D) lo hi d e :
  am_register m lo hi d = Some m' -> In e m' -> e = mkEntry lo hi d \/ In e m.
Proof. intros Hr Hin. apply register_some in Hr as [-> _]. apply insert_in in Hin. exact Hin. Qed.

Lemma register_all_disjoint (l : list (request D)) : forall m m',
  disjoint m -> register_all m l = Some m' ->
  (forall q e, In q l -> In e m ->
     ~ encloses (req_lo q) (req_hi q) (range_lo e) (range_hi e)) ->
  (forall l1 q l2 r l3, l = l1 ++ q :: l2 ++ r :: l3 ->
     ~ encloses (req_lo r) (req_hi r) (req_lo q) (req_hi q)) ->
  disjoint m'.
Proof.
  induction l as [|q l IH]; intros m m' Hd Hr He Hl; cbn in Hr.
  - injection Hr as <-; exact Hd.
  - destruct (am_register m (req_lo q) (req_hi q) (req_device q)) as [m1|] eqn:E; [|discriminate].
    apply (IH m1 m'); [|exact Hr| |].
    + apply (register_disjoint m _ _ _ m1 Hd E). intros e Hin. apply He; [left; reflexivity|exact Hin].
    + intros r e Hr' Hin. destruct (register_subset _ _ _ _ _ _ E Hin) as [->|Hin'].
      * cbn. apply in_split in Hr' as (l2 & l3 & ->). apply (Hl [] q l2 r l3). reflexivity.
      * apply He; [right; exact Hr'|exact Hin'].
    + intros l1 q' l2 r l3 ->. apply (Hl (q :: l1) q' l2 r l3). reflexivity.
Qed.
End RegisterAll.

(** ** RAM and ROM *)
Lemma memory_new_ok p k start stop : start <= stop ->
  memory_new p k start stop = Ok (mkMemory k start stop (repeat 0 (Z.to_nat (stop - start + 1)))).
Proof. intros Hs. unfold memory_new. replace (start <=? stop) with true by lia. reflexivity. Qed.

Lemma list_upd_length {A} (l : list A) n v : length (list_upd l n v) = length l.
Proof. revert n. induction l as [|x l IH]; intros [|n]; cbn; auto. Qed.

Lemma list_upd_nth {A} (l : list A) n v k : (n < length l)%nat ->
  nth_error (list_upd l n v) k = if Nat.eqb k n then Some v else nth_error l k.
Proof.
  revert n k. induction l as [|x l IH]; intros [|n] [|k] Hn; cbn in *; try lia; auto.
  apply IH. lia.
Qed.

Lemma vec_set_ok {A} (l : list A) i v : 0 <= i < Z.of_nat (length l) ->
  vec_set l i v = Ok (list_upd l (Z.to_nat i) v).
Proof.
  intros Hi. unfold vec_set.
  replace ((0 <=? i) && (i <? Z.of_nat (length l))) with true by lia. reflexivity.
Qed.

Lemma vec_get_set {A} (l : list A) i v j : 0 <= i < Z.of_nat (length l) -> 0 <= j ->
  vec_get (list_upd l (Z.to_nat i) v) j = if j =? i then Ok v else vec_get l j.
Proof.
  intros Hi Hj. unfold vec_get. replace (j <? 0) with false by lia.
  rewrite list_upd_nth by lia.
  destruct (j =? i) eqn:E.
  - replace (Nat.eqb (Z.to_nat j) (Z.to_nat i)) with true by lia. reflexivity.
  - replace (Nat.eqb (Z.to_nat j) (Z.to_nat i)) with false by lia. reflexivity.
Qed.

(** The memory holds the array [f] on its whole range. *)
Definition holds (p : profile) (m : memory) (f : Z -> Z) : Prop :=
  mem_kind m = ReadWrite /\ u16 (start_address m) /\ u16 (stop_address m) /\
  length (mem_inner m) = Z.to_nat (stop_address m - start_address m + 1) /\
  forall a, start_address m <= a <= stop_address m ->
    vec_get (mem_inner m) (a - start_address m) = Ok (f a).

Lemma holds_new p start stop m : u16 start -> u16 stop -> start <= stop ->
  memory_new p ReadWrite start stop = Ok m -> holds p m (fun _ => 0).
Proof.
  intros H1 H2 Hs Hm. rewrite memory_new_ok in Hm by exact Hs. injection Hm as <-.
  repeat split; cbn; try apply H1; try apply H2.
  - apply repeat_length.
  - intros a Ha. unfold vec_get. replace (a - start <? 0) with false by lia.
    rewrite nth_error_repeat by lia. reflexivity.
Qed.

Lemma sub_u16_ok p a b : u16 a -> u16 b -> b <= a -> sub_u16 p a b = Ok (a - b).
Proof. intros Ha Hb Hle. apply checked_ok. unfold u16 in *. lia. Qed.

Lemma holds_read p m f a : holds p m f -> start_address m <= a <= stop_address m ->
  memory_read p m a = Ok (f a).
Proof.
  intros (Hk & Hs & Ht & Hl & Hf) Ha. unfold memory_read.
  rewrite sub_u16_ok; [cbn; exact (Hf a Ha)| | |lia]; unfold u16 in *; lia.
Qed.

Lemma holds_write p m f a v : holds p m f -> start_address m <= a <= stop_address m ->
  exists m', memory_write p m a v = Ok (m', WOk v) /\
    start_address m' = start_address m /\ stop_address m' = stop_address m /\
    holds p m' (fun b => if b =? a then v else f b).
Proof.
  intros (Hk & Hs & Ht & Hl & Hf) Ha. unfold memory_write. rewrite Hk.
  rewrite sub_u16_ok; [|unfold u16 in *; lia|exact Hs|lia]. cbn.
  rewrite vec_set_ok by (rewrite Hl; lia). cbn.
  eexists. split; [reflexivity|]. repeat split; cbn; try apply Hs; try apply Ht.
  - rewrite list_upd_length. exact Hl.
  - intros b Hb. rewrite vec_get_set by (try rewrite Hl; lia).
    replace (b - start_address m =? a - start_address m) with (b =? a) by lia.
    destruct (b =? a); [reflexivity|exact (Hf b Hb)].
Qed.

Lemma ram_run p l : forall m f, holds p m f ->
  Forall (fun x => start_address m <= access_addr x <= stop_address m) l ->
  device_run p m l = Ok (array_run f l).
Proof.
  induction l as [|[a|a v] l IH]; intros m f Hh Hl; [reflexivity| |];
    apply Forall_cons_iff in Hl as [Ha Hl]; cbn -[memory_read memory_write] in *.
  - rewrite (holds_read p m f a Hh Ha). cbn. rewrite (IH m f Hh Hl). reflexivity.
  - destruct (holds_write p m f a v Hh Ha) as (m' & Hw & H1 & H2 & Hh').
    rewrite Hw. cbn. rewrite (IH m' _ Hh'); [reflexivity|]. rewrite H1, H2. exact Hl.
Qed.

Lemma rom_refuses m : mem_kind m = ReadOnly -> refuses_writes m.
Proof. intros Hk p a v. cbn. unfold memory_write. rewrite Hk. reflexivity. Qed.

Lemma load_read p m data a : u16 (start_address m) -> u16 a -> start_address m <= a ->
  memory_read p (memory_load m data) a =
  match nth_error data (Z.to_nat (a - start_address m)) with Some v => Ok v | None => Panic end.
Proof.
  intros Hs Ha Hle. unfold memory_read. cbn. rewrite sub_u16_ok by assumption. cbn.
  unfold vec_get. replace (a - start_address m <? 0) with false by lia. reflexivity.
Qed.

(** ** Devices that refuse writes *)
Section Rom.
Context {D : Type} `{Device D}.

Lemma write_keeps_rom p (m : address_map D) a v m' r e :
  am_write p m a v = Ok (m', r) -> In e m -> refuses_writes (device e) -> In e m'.
Proof.
  intros Hw Hin Hr. destruct (write_shape _ _ _ _ _ _ Hw)
    as [(-> & _ & _)|(l1 & f & l2 & d' & -> & _ & _ & Hd & ->)]; [exact Hin|].
  apply in_app_or in Hin as [Hin|[->|Hin]].
  - apply in_or_app; left; exact Hin.
  - apply in_or_app; right; left. rewrite Hr in Hd. injection Hd as <- _.
    destruct e; reflexivity.
  - apply in_or_app; right; right; exact Hin.
Qed.
End Rom.

(** ** Pages *)
Lemma page_from_u16_total p a : u16 a ->
  page_from_u16 p a = Ok (mkPage (256 * (a / 256)) (256 * (a / 256) + 255)).
Proof.
  intros Ha. unfold page_from_u16, add_u16, sub_u16.
  rewrite checked_ok by lia. cbn [bind]. change (0xff + 1) with 256.
  unfold u16 in *.
  rewrite checked_ok by lia. cbn [bind].
  rewrite checked_ok by lia. cbn [bind].
  rewrite checked_ok by lia. cbn [bind].
  f_equal. f_equal; lia.
Qed.

Lemma page_of_address p a b : u16 a -> u16 b ->
  exists pg, page_from_u16 p a = Ok pg /\ (page_contains pg b = true <-> a / 256 = b / 256).
Proof.
  intros Ha Hb. eexists. split; [apply page_from_u16_total; exact Ha|].
  unfold page_contains, u16 in *. cbn [page_lo page_hi]. lia.
Qed.

Lemma page_of_byte a b : u8 a -> u16 b ->
  (page_contains (page_from_u8 a) b = true <-> b < 256).
Proof. intros Ha Hb. unfold page_contains, page_from_u8, u16 in *. cbn. lia. Qed.

(** ** Arrays *)
Lemma ram_is_array p start stop : u16 start -> u16 stop -> start <= stop ->
  exists ram, memory_new p ReadWrite start stop = Ok ram /\
    forall history, Forall (fun x => start <= access_addr x <= stop) history ->
      device_run p ram history = Ok (array_run (fun _ => 0) history).
Proof.
  intros H1 H2 Hle. eexists. split; [apply memory_new_ok; exact Hle|].
  intros l Hl. apply ram_run; [|exact Hl].
  apply (holds_new p start stop); auto. apply memory_new_ok; exact Hle.
Qed.

(** Accesses covered by one entry of a disjoint map are accesses of its device. *)
Lemma mapped_run {D} `{Device D} p (l : list access) : forall before e after,
  disjoint (before ++ e :: after) -> Forall (fun x => covers e (access_addr x)) l ->
  device_run p (before ++ e :: after) l = device_run p (device e) l.
Proof.
  induction l as [|[a|a v] l IH]; intros before e after Hd Hl; [reflexivity| |];
    apply Forall_cons_iff in Hl as [Ha Hl]; cbn [device_run access_addr] in *.
  - change (@dev_read _ am_device) with (@am_read D _).
    rewrite (read_mapped p _ a e Hd) by (try exact Ha; apply in_elt).
    rewrite (IH before e after Hd Hl). reflexivity.
  - change (@dev_write _ am_device) with (@am_write D _).
    rewrite (write_mapped p before e after a v Hd Ha).
    destruct (dev_write p (device e) a v) as [[d' [w|]]|]; cbn; try reflexivity.
    rewrite (IH before (mkEntry (range_lo e) (range_hi e) d') after); [reflexivity| |exact Hl].
    apply (disjoint_layout (before ++ e :: after)); [|exact Hd].
    rewrite !layout_app. reflexivity.
Qed.

Lemma mapped_ram_is_array p start stop m m' : u16 start -> u16 stop -> start <= stop ->
  disjoint m -> (forall e, In e m -> ~ encloses start stop (range_lo e) (range_hi e)) ->
  forall ram, memory_new p ReadWrite start stop = Ok ram ->
  am_register m start stop ram = Some m' ->
  forall history, Forall (fun x => start <= access_addr x <= stop) history ->
    device_run p m' history = Ok (array_run (fun _ => 0) history).
Proof.
  intros H1 H2 Hle Hd He ram Hram Hreg l Hl.
  assert (Hd' := proj1 (register_disjoint m start stop ram m' Hd Hreg) He).
  apply register_some in Hreg as [-> _]. unfold hm_insert in *.
  etransitivity; [apply (mapped_run p l [] (mkEntry start stop ram) _ Hd' Hl)|]. cbn [device].
  destruct (ram_is_array p start stop H1 H2 Hle) as (ram' & E & Hrun).
  rewrite Hram in E. injection E as <-. apply Hrun. exact Hl.
Qed.

(** ** Registration and later accesses *)
Section RegisterAccess.
Context {D : Type} `{Device D}.
Implicit Types (m : address_map D) (e : entry D).

Lemma unmapped_cons (e : entry D) m a : ~ covers e a -> unmapped m a -> unmapped (e :: m) a.
Proof. intros He Hu f [<-|Hf]; auto. Qed.

(** A map that may overlap, but not at [a]. *)
Lemma read_unique p (m : address_map D) a before e after :
  m = before ++ e :: after -> unmapped before a -> covers e a ->
  am_read p m a = dev_read p (device e) a.
Proof.
  intros -> Hu Hc. induction before as [|f before IH]; cbn.
  - apply key_contains_iff in Hc. rewrite Hc. reflexivity.
  - destruct (key_contains f a) eqn:E.
    + apply key_contains_iff in E. exfalso. exact (Hu f (or_introl eq_refl) E).
    + apply IH. intros g Hg. apply Hu. right; exact Hg.
Qed.

Definition once (m : address_map D) a (e : entry D) : Prop :=
  exists before after, m = before ++ e :: after /\ unmapped before a /\ unmapped after a /\ covers e a.

Lemma once_perm m m' a e : Permutation m m' -> once m a e -> once m' a e.
Proof.
  intros Hp (b1 & b2 & -> & H1 & H2 & Hc).
  assert (Hin : In e m') by (apply (Permutation_in e Hp), in_elt).
  apply in_split in Hin as (c1 & c2 & ->). exists c1, c2. split; [reflexivity|].
  apply Permutation_app_inv in Hp.
  assert (Hu : unmapped (c1 ++ c2) a).
  { apply (unmapped_perm _ _ _ Hp). intros f Hf. apply in_app_or in Hf as [Hf|Hf]; auto. }
  repeat split; try apply Hc; intros f Hf; apply Hu, in_or_app; auto.
Qed.

Lemma once_read p m a e : once m a e -> am_read p m a = dev_read p (device e) a.
Proof. intros (b & c & E & H1 & _ & Hc). exact (read_unique p m a b e c E H1 Hc). Qed.

Lemma once_disjoint m a e : disjoint m -> In e m -> covers e a -> once m a e.
Proof.
  intros Hd Hin Hc. apply in_split in Hin as (b & c & ->).
  destruct (disjoint_split _ _ _ _ Hd Hc). exists b, c. auto.
Qed.

Lemma filter_once (f : entry D -> bool) m a e : f e = true -> once m a e -> once (filter f m) a e.
Proof.
  intros Hf (b & c & -> & H1 & H2 & Hc). exists (filter f b), (filter f c).
  rewrite filter_app. cbn. rewrite Hf. split; [reflexivity|].
  repeat split; try apply Hc; intros g Hg; apply filter_In in Hg as [Hg _]; auto.
Qed.

Lemma register_once m lo hi d m' a e : disjoint m -> am_register m lo hi d = Some m' ->
  ~ (lo <= a <= hi) -> In e m -> covers e a -> once m' a e.
Proof.
  intros Hd Hr Ha Hin Hc. apply register_some in Hr as [-> Hn].
  assert (Hk := insert_keeps m lo hi d e a Hn Hin Hc). unfold hm_insert in *.
  destruct Hk as [<-|Hk]; [unfold covers in Hc; cbn in Hc; lia|].
  apply filter_In in Hk as [_ Hf].
  destruct (filter_once (fun e => negb ((range_lo e =? lo) && (range_hi e =? hi))) m a e Hf (once_disjoint m a e Hd Hin Hc)) as (b & c & E & H1 & H2 & _).
  rewrite E. exists (mkEntry lo hi d :: b), c. split; [reflexivity|].
  split; [|split; [exact H2|exact Hc]]. apply unmapped_cons; [|exact H1].
  unfold covers; cbn; lia.
Qed.

Lemma register_unmapped m lo hi d m' a : am_register m lo hi d = Some m' ->
  ~ (lo <= a <= hi) -> unmapped m a -> unmapped m' a.
Proof.
  intros Hr Ha Hu e Hin. destruct (register_subset _ _ _ _ _ _ Hr Hin) as [->|Hin'].
  - unfold covers; cbn; lia.
  - exact (Hu e Hin').
Qed.

Lemma register_keeps_read p m m' m'' lo hi d a : disjoint m ->
  am_register m lo hi d = Some m' -> Permutation m' m'' ->
  ~ (lo <= a <= hi) -> am_read p m'' a = am_read p m a.
Proof.
  intros Hd Hr Hp Ha. destruct (mapped_dec m a) as [Hu|(e & Hin & Hc)].
  - rewrite (read_unmapped p m a Hu). apply read_unmapped, (unmapped_perm _ _ _ Hp).
    exact (register_unmapped m lo hi d m' a Hr Ha Hu).
  - rewrite (read_mapped p m a e Hd Hin Hc). apply once_read, (once_perm _ _ _ _ Hp).
    exact (register_once m lo hi d m' a e Hd Hr Ha Hin Hc).
Qed.

Lemma register_routes_new p m m' m'' lo hi d a :
  am_register m lo hi d = Some m' -> Permutation m' m'' ->
  lo <= a <= hi -> unmapped m a -> am_read p m'' a = dev_read p d a.
Proof.
  intros Hr Hp Ha Hu. apply (once_read p m'' a (mkEntry lo hi d)), (once_perm _ _ _ _ Hp).
  apply register_some in Hr as [-> _]. unfold hm_insert. exists []. eexists.
  split; [reflexivity|]. repeat split; try (cbn; lia).
  - intros e [].
  - intros e He. apply filter_In in He as [He _]. exact (Hu e He).
Qed.

Lemma once_write p m a e v : once m a e -> exists before after,
  m = before ++ e :: after /\ unmapped before a /\ unmapped after a /\
  am_write p m a v =
  match dev_write p (device e) a v with
  | Ok (d', r) => Ok (before ++ mkEntry (range_lo e) (range_hi e) d' :: after, r)
  | Panic => Panic
  end.
Proof.
  intros (b & c & -> & H1 & H2 & Hc). exists b, c. split; [reflexivity|]. split; [exact H1|].
  split; [exact H2|].
  rewrite write_skip by exact H1. cbn. apply key_contains_iff in Hc. rewrite Hc.
  destruct (dev_write p (device e) a v) as [[d' r]|]; reflexivity.
Qed.

Lemma register_routes_new_write p m m' m'' lo hi d a v :
  am_register m lo hi d = Some m' -> Permutation m' m'' ->
  lo <= a <= hi -> unmapped m a ->
  exists before after, m'' = before ++ mkEntry lo hi d :: after /\
    am_write p m'' a v =
    match dev_write p d a v with
    | Ok (d', r) => Ok (before ++ mkEntry lo hi d' :: after, r)
    | Panic => Panic
    end.
Proof.
  intros Hr Hp Ha Hu.
  assert (O : once m'' a (mkEntry lo hi d)).
  { apply (once_perm _ _ _ _ Hp). apply register_some in Hr as [-> _]. unfold hm_insert. exists []. eexists.
    split; [reflexivity|]. repeat split; try (cbn; lia).
    - intros e [].
    - intros e He. apply filter_In in He as [He _]. exact (Hu e He). }
  destruct (once_write p m'' a _ v O) as (b & c & E & _ & _ & W). exists b, c. auto.
Qed.

Lemma register_keeps_write p m m' m'' lo hi d a v : disjoint m ->
  am_register m lo hi d = Some m' -> Permutation m' m'' ->
  ~ (lo <= a <= hi) ->
  match am_write p m a v, am_write p m'' a v with
  | Panic, Panic => True
  | Ok (m1, r1), Ok (m2, r2) =>
      r1 = r2 /\ forall q b, ~ (lo <= b <= hi) -> am_read q m2 b = am_read q m1 b
  | _, _ => False
  end.
Proof.
  intros Hd Hr Hp Ha. destruct (mapped_dec m a) as [Hu|(e & Hin & Hc)].
  - rewrite (write_unmapped p m a v Hu).
    rewrite write_unmapped by (apply (unmapped_perm _ _ _ Hp);
      exact (register_unmapped m lo hi d m' a Hr Ha Hu)).
    split; [reflexivity|]. intros q b Hb.
    exact (register_keeps_read q m m' m'' lo hi d b Hd Hr Hp Hb).
  - assert (Ho'' := once_perm _ _ _ _ Hp (register_once m lo hi d m' a e Hd Hr Ha Hin Hc)).
    destruct (once_write p m a e v (once_disjoint m a e Hd Hin Hc)) as (b1 & c1 & E1 & _ & _ & W1).
    destruct (once_write p m'' a e v Ho'') as (b2 & c2 & E2 & _ & _ & W2).
    rewrite W1, W2. destruct (dev_write p (device e) a v) as [[d' r]|]; [|exact I].
    split; [reflexivity|]. intros q b Hb.
    set (e' := mkEntry (range_lo e) (range_hi e) d').
    set (keep := fun f : entry D => negb ((range_lo f =? lo) && (range_hi f =? hi))).
    assert (Hkeep : keep e = true).
    { apply register_some in Hr as [_ Hn]. destruct (Hn e Hin) as [N1 N2].
      unfold keep, covers in *. lia. }
    assert (Hlay : layout (b1 ++ e' :: c1) = layout m)
      by (rewrite E1, !layout_app; reflexivity).
    assert (Hr1 : am_register (b1 ++ e' :: c1) lo hi d = Some (hm_insert (b1 ++ e' :: c1) lo hi d)).
    { destruct (am_register (b1 ++ e' :: c1) lo hi d) as [k|] eqn:Ek.
      - apply register_some in Ek as [-> _]. reflexivity.
      - exfalso. apply register_none in Ek as (f & Hf & Hcf).
        apply register_some in Hr as [_ Hn].
        assert (Hf' : In (range_lo f, range_hi f) (layout m))
          by (rewrite <- Hlay; unfold layout; apply in_map_iff; exists f; auto).
        unfold layout in Hf'. apply in_map_iff in Hf' as (g & Eg & Hg).
        injection Eg as G1 G2. destruct (Hn g Hg) as [N1 N2]. unfold covers in *. lia. }
    apply (register_keeps_read q (b1 ++ e' :: c1) _ _ lo hi d b
             (disjoint_layout _ _ Hlay Hd) Hr1); [|exact Hb].
    apply register_some in Hr as [-> _]. unfold hm_insert in *. fold keep. fold keep in Hp.
    rewrite E1, E2 in Hp. rewrite filter_app in *. cbn in *.
    replace (keep e') with true by (rewrite <- Hkeep; reflexivity). rewrite Hkeep in Hp.
    change (mkEntry lo hi d :: filter keep b1 ++ e :: filter keep c1)
      with ((mkEntry lo hi d :: filter keep b1) ++ e :: filter keep c1) in Hp.
    apply Permutation_app_inv in Hp.
    change (mkEntry lo hi d :: filter keep b1 ++ e' :: filter keep c1)
      with ((mkEntry lo hi d :: filter keep b1) ++ e' :: filter keep c1).
    apply Permutation_elt. exact Hp.
Qed.
End RegisterAccess.
