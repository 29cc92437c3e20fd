(** C100: the Unix random number generator. *)
From Verif Require Import Base Arith ModelUnixRng.

(** ** Specification *)
(** The device answers [k] reads with an interruption. *)
Definition interruptions (k : nat) : list answer := repeat Interrupted k.
(** How many handles are open after the calls, [opened] opens having
    succeeded. *)
Definition handles (calls : list call) (opened : nat) : Z :=
  Z.of_nat opened - Z.of_nat (length (filter (fun c => match c with Close => true | _ => false end) calls)).
(** The answers of a device that works: it can be opened, and every read gives
    a byte, possibly after interruptions. [bytes] are the bytes it gives. *)
Inductive works : list answer -> list Z -> Prop :=
| works_none : works [] []
| works_byte k b l bytes : works l bytes -> works (Opened :: interruptions k ++ Got b :: l) (b :: bytes).

Lemma read_exact_interrupted k l : read_exact (interruptions k ++ l) =
  mkOutcome (repeat Read k ++ o_calls (read_exact l)) (o_rest (read_exact l)) (o_end (read_exact l)).
Proof.
  induction k as [|k IH]; cbn [interruptions repeat app read_exact].
  - destruct (read_exact l); reflexivity.
  - change (repeat Interrupted k) with (interruptions k). rewrite IH. reflexivity.
Qed.
Lemma split_interruptions l : exists k l', l = interruptions k ++ l' /\ (forall m, l' <> Interrupted :: m).
Proof.
  induction l as [|a l IH]; [exists 0%nat, []; split; [reflexivity|discriminate]|].
  destruct a; try (exists 0%nat; eexists; split; [reflexivity|]; discriminate).
  destruct IH as (k & l' & -> & H). exists (S k), l'. split; [reflexivity|exact H].
Qed.

(** ** C100 *)
(** A byte that is returned was read from the device by this very call: the
    device was opened, all reads but the last were interrupted, and the last one
    gave the byte. *)
Theorem C100_returns_device_byte : forall answers b,
  o_end (unix_random answers) = Returns b <->
  exists k, answers = Opened :: interruptions k ++ Got b :: o_rest (unix_random answers).
Proof.
  intros answers b. split.
  - destruct answers as [|[| |c| | |] l]; cbn [unix_random o_end o_rest]; try discriminate.
    destruct (split_interruptions l) as (k & l' & -> & H). rewrite read_exact_interrupted. cbn [o_end o_rest].
    destruct l' as [|[| |c| | |] l']; cbn [read_exact o_end o_rest]; try discriminate; [|exfalso; eapply H; reflexivity].
    intros E. exists k. congruence.
  - intros (k & E). rewrite E. cbn [unix_random o_end]. rewrite read_exact_interrupted. reflexivity.
Qed.

(** It panics exactly when the device cannot be opened, is at its end, or fails
    with an error other than an interruption. *)
Theorem C100_panics_iff : forall answers,
  o_end (unix_random answers) = Panics <->
  (exists l, answers = OpenFailed :: l) \/
  (exists k l, answers = Opened :: interruptions k ++ EndOfFile :: l \/ answers = Opened :: interruptions k ++ ReadFailed :: l).
Proof.
  intros answers. split.
  - destruct answers as [|[| |c| | |] l]; cbn [unix_random o_end]; try discriminate; [|eauto].
    destruct (split_interruptions l) as (k & l' & -> & H). rewrite read_exact_interrupted. cbn [o_end].
    destruct l' as [|[| |c| | |] l']; cbn [read_exact o_end]; try discriminate; intros E; try discriminate E;
      right; exists k, l'; auto. exfalso. eapply H. reflexivity.
  - intros [(l & ->)|(k & l & [-> | ->])]; [reflexivity| |]; cbn [unix_random o_end]; rewrite read_exact_interrupted; reflexivity.
Qed.

(** The device is opened once; if that succeeds and the call is over, by
    returning or by panicking, the device was closed again, and only then. *)
Theorem C100_closes_handle : forall l, o_end (unix_random (Opened :: l)) <> Waits ->
  exists k, o_calls (unix_random (Opened :: l)) = Open :: repeat Read (S k) ++ [Close].
Proof.
  intros l H. cbn [unix_random o_calls o_end] in *. destruct (split_interruptions l) as (k & l' & -> & N).
  rewrite read_exact_interrupted in *. cbn [o_calls o_end] in *. exists k. f_equal.
  assert (K : o_calls (read_exact l') = [Read; Close]).
  { destruct l' as [|[| |c| | |] l']; try reflexivity; try (exfalso; apply H; reflexivity). exfalso. eapply N. reflexivity. }
  rewrite K. replace (S k) with (k + 1)%nat by lia. rewrite repeat_app, <- app_assoc. reflexivity.
Qed.
Theorem C100_failed_open : forall l, o_calls (unix_random (OpenFailed :: l)) = [Open].
Proof. reflexivity. Qed.

(** With a working device any number of calls return its bytes in order, each
    byte exactly once, and leave nothing open. *)
Theorem C100_many_calls : forall answers bytes more, works answers bytes ->
  exists calls, unix_randoms (length bytes) (answers ++ more) = (calls, more, bytes, None) /\
    handles calls (length bytes) = 0.
Proof.
  intros answers bytes more W. induction W as [|k b l bytes W (calls & IH & H)].
  - exists []. split; reflexivity.
  - cbn [length unix_randoms]. rewrite <- app_comm_cons, <- app_assoc, <- app_comm_cons. cbn [unix_random o_end o_rest o_calls].
    rewrite read_exact_interrupted. cbn [read_exact o_end o_rest o_calls]. rewrite IH. eexists. split; [reflexivity|].
    unfold handles in *. rewrite <- app_comm_cons. cbn [filter]. rewrite !filter_app, !app_length. cbn [filter length].
    assert (F : filter (fun c => match c with Close => true | _ => false end) (repeat Read k) = []) by (induction k; [reflexivity|assumption]).
    rewrite F. cbn [length]. lia.
Qed.

Print Assumptions C100_returns_device_byte.
Print Assumptions C100_panics_iff.
Print Assumptions C100_closes_handle.
Print Assumptions C100_failed_open.
Print Assumptions C100_many_calls.

(** Concrete cases. *)
Example C100_case : unix_randoms 2 [Opened; Interrupted; Got 7; Opened; Got 9; Opened] =
  ([Open; Read; Read; Close; Open; Read; Close], [Opened], [7; 9], None).
Proof. reflexivity. Qed.
Example C100_works : works [Opened; Interrupted; Got 7; Opened; Got 9] [7; 9].
Proof. exact (works_byte 1 7 _ _ (works_byte 0 9 _ _ works_none)). Qed.
Example C100_panic_case : o_end (unix_random [Opened; Interrupted; EndOfFile]) = Panics.
Proof. reflexivity. Qed.
