(** Lists of all words over an alphabet, and the pigeonhole principle
    (C101, C102). *)
From Coq Require Import Lia.
From Verif Require Import Base Arith.

Local Open Scope nat_scope.

(** All lists of [n] elements of [l]. *)
Fixpoint words {A} (l : list A) (n : nat) : list (list A) :=
  match n with O => [[]] | S n' => flat_map (fun a => map (cons a) (words l n')) l end.

Lemma in_words {A} (l : list A) w : (forall a, In a w -> In a l) -> In w (words l (length w)).
Proof.
  induction w as [|a w IH]; intros H; [left; reflexivity|]. cbn [words length]. apply in_flat_map. exists a.
  split; [apply H; left; reflexivity|]. apply in_map. apply IH. intros b Hb. apply H. right. exact Hb.
Qed.

Lemma length_flat_const {A B} (f : A -> list B) (n : nat) (l : list A) : (forall a, In a l -> length (f a) = n) ->
  length (flat_map f l) = length l * n.
Proof.
  induction l as [|a l IH]; intros H; [reflexivity|]. cbn [flat_map length]. rewrite app_length, H by (left; reflexivity).
  rewrite IH by (intros b Hb; apply H; right; exact Hb). lia.
Qed.

Lemma length_words {A} (l : list A) n : length (words l n) = length l ^ n.
Proof.
  induction n as [|n IH]; [reflexivity|]. cbn [words Nat.pow]. apply length_flat_const. intros a _. rewrite map_length. exact IH.
Qed.

Definition below (n : nat) : list Z := map Z.of_nat (seq 0 n).
Lemma in_below n v : (0 <= v < Z.of_nat n)%Z -> In v (below n).
Proof. intros H. unfold below. apply in_map_iff. exists (Z.to_nat v). split; [lia|]. apply in_seq. lia. Qed.
Lemma below_in n v : In v (below n) -> (0 <= v < Z.of_nat n)%Z.
Proof. unfold below. intros H. apply in_map_iff in H. destruct H as (i & <- & Hi). apply in_seq in Hi. lia. Qed.
Lemma length_below n : length (below n) = n.
Proof. unfold below. rewrite map_length, seq_length. reflexivity. Qed.

(** A list with a repeated element. *)
Lemma twice {A} (dec : forall a b : A, {a = b} + {a <> b}) (l : list A) : ~ NoDup l ->
  exists a l1 l2 l3, l = l1 ++ a :: l2 ++ a :: l3.
Proof.
  induction l as [|a l IH]; intros N; [destruct (N (NoDup_nil A))|]. destruct (in_dec dec a l) as [I|I].
  - destruct (in_split a l I) as (l2 & l3 & ->). exists a, [], l2, l3. reflexivity.
  - destruct IH as (b & l1 & l2 & l3 & ->); [intros M; exact (N (NoDup_cons a I M))|]. exists b, (a :: l1), l2, l3. reflexivity.
Qed.

(** More items than values: two items have the same value. *)
Lemma pigeons {A B} (dec : forall a b : B, {a = b} + {a <> b}) (f : A -> B) (values : list B) (l : list A) :
  (forall a, In a l -> In (f a) values) -> length values < length l ->
  exists i k a b, nth_error l i = Some a /\ nth_error l (i + S k) = Some b /\ i + S k < length l /\ f a = f b.
Proof.
  intros H L. assert (N : ~ NoDup (map f l)).
  { intros N. assert (Hi : incl (map f l) values).
    { intros x Hx. apply in_map_iff in Hx. destruct Hx as (s & <- & Hs). exact (H s Hs). }
    pose proof (NoDup_incl_length N Hi) as K. rewrite map_length in K. lia. }
  destruct (twice dec _ N) as (x & m1 & m2 & m3 & E).
  assert (E1 : nth_error (map f l) (length m1) = Some x).
  { rewrite E, nth_error_app2, Nat.sub_diag by lia. reflexivity. }
  assert (E2 : nth_error (map f l) (length m1 + S (length m2)) = Some x).
  { rewrite E, nth_error_app2 by lia. replace (length m1 + S (length m2) - length m1) with (S (length m2)) by lia.
    cbn [nth_error]. rewrite nth_error_app2, Nat.sub_diag by lia. reflexivity. }
  assert (K : length m1 + S (length m2) < length l).
  { rewrite <- (map_length f l). apply nth_error_Some. rewrite E2. discriminate. }
  rewrite nth_error_map in E1, E2.
  destruct (nth_error l (length m1)) as [s1|] eqn:F1; [|discriminate]. cbn [option_map] in E1.
  destruct (nth_error l (length m1 + S (length m2))) as [s2|] eqn:F2; [|discriminate]. cbn [option_map] in E2.
  exists (length m1), (length m2), s1, s2. repeat split; try assumption. congruence.
Qed.
