(** Debug and release builds: every function of the model returns in a release
    build what it returns in a debug build. *)
From Verif Require Import Base Arith ModelMap ModelStep ModelRegs6502 ModelCpu6502 ModelOperand ModelIsa6502
  ModelOps6502 ModelRun6502 ModelIo ModelOpsIo6502 ModelBus ModelExamples SpecBus SpecProfile.

Lemma al_refl {A} (x : res A) : at_least x x.
Proof. intros a H. exact H. Qed.

Lemma al_panic {A} (x : res A) : at_least Panic x.
Proof. intros a H. discriminate. Qed.

Lemma al_bind {A B} (x y : res A) (f g : A -> res B) :
  at_least x y -> (forall a, at_least (f a) (g a)) -> at_least (bind x f) (bind y g).
Proof.
  intros H1 H2 b. destruct x as [a|]; [|discriminate]. rewrite (H1 a eq_refl). cbn [bind]. apply H2.
Qed.

Lemma al_checked m v : at_least (checked Debug m v) (checked Release m v).
Proof. unfold checked. destruct (_ && _); [apply al_refl|apply al_panic]. Qed.

Lemma al_foldM {A B} (f g : A -> B -> res A) :
  (forall a b, at_least (f a b) (g a b)) -> forall l a, at_least (foldM f l a) (foldM g l a).
Proof.
  intros H l. induction l as [|b l IH]; intros a; cbn [foldM]; [apply al_refl|].
  apply al_bind; [apply H|exact IH].
Qed.

Create HintDb builds.
#[export] Hint Resolve al_refl al_panic al_checked : builds.

(** Descend through binds, matches and lets. *)
Ltac builds :=
  cbv zeta;
  repeat first
    [ solve [eauto 2 with builds]
    | match goal with
      | |- at_least (bind _ _) (bind _ _) => apply al_bind; [|intros ?; cbv zeta]
      | |- at_least (match ?x with _ => _ end) (match ?x with _ => _ end) => destruct x
      | |- at_least (foldM _ _ _) (foldM _ _ _) => apply al_foldM; intros ? ?; cbv zeta
      end
    | progress cbv beta iota ].

Ltac widths := unfold add_u8, sub_u8, mul_u8, add_u16, sub_u16.

Lemma al_add_u8 a b : at_least (add_u8 Debug a b) (add_u8 Release a b).
Proof. apply al_checked. Qed.
Lemma al_sub_u8 a b : at_least (sub_u8 Debug a b) (sub_u8 Release a b).
Proof. apply al_checked. Qed.
Lemma al_mul_u8 a b : at_least (mul_u8 Debug a b) (mul_u8 Release a b).
Proof. apply al_checked. Qed.
Lemma al_add_u16 a b : at_least (add_u16 Debug a b) (add_u16 Release a b).
Proof. apply al_checked. Qed.
Lemma al_sub_u16 a b : at_least (sub_u16 Debug a b) (sub_u16 Release a b).
Proof. apply al_checked. Qed.
#[export] Hint Resolve al_add_u8 al_sub_u8 al_mul_u8 al_add_u16 al_sub_u16 : builds.

(** ** Memory, maps, pages *)
Lemma al_memory_new k lo hi : at_least (memory_new Debug k lo hi) (memory_new Release k lo hi).
Proof. unfold memory_new. builds. Qed.
Lemma al_memory_read m a : at_least (memory_read Debug m a) (memory_read Release m a).
Proof. unfold memory_read. builds. Qed.
Lemma al_memory_write m a v : at_least (memory_write Debug m a v) (memory_write Release m a v).
Proof. unfold memory_write. builds. Qed.
Lemma al_page a : at_least (page_from_u16 Debug a) (page_from_u16 Release a).
Proof. unfold page_from_u16. builds. Qed.
#[export] Hint Resolve al_memory_new al_memory_read al_memory_write al_page : builds.

Lemma memory_independent : build_independent memory.
Proof. intros d a. split; [|intros v]; cbn [dev_read dev_write memory_device]; builds. Qed.

Lemma via_independent : build_independent via.
Proof. intros d a. split; [|intros v]; cbn [dev_read dev_write via_device]; apply al_refl. Qed.

Lemma any_independent : build_independent any_device.
Proof.
  intros d a. split; [|intros v]; cbn [dev_read dev_write any_device_device]; destruct d; builds.
Qed.

Section Map.
Context {D : Type} `{Device D}.
Hypothesis Hd : build_independent D.

Lemma al_am_read m a : at_least (am_read Debug m a) (am_read Release m a).
Proof.
  induction m as [|e m IH]; cbn [am_read]; [apply al_refl|].
  destruct (key_contains e a); [apply Hd|exact IH].
Qed.

Lemma al_am_write m a v : at_least (am_write Debug m a v) (am_write Release m a v).
Proof.
  induction m as [|e m IH]; cbn [am_write]; [apply al_refl|].
  destruct (key_contains e a); (apply al_bind; [first [apply Hd|exact IH]|intros ?; apply al_refl]).
Qed.

Lemma map_independent : build_independent (address_map D).
Proof.
  intros d a. split; [|intros v]; cbn [dev_read dev_write am_device]; [apply al_am_read|apply al_am_write].
Qed.
End Map.

(** ** Buses that reads may change *)

(** One bus returns at least what the other returns. *)
Definition at_least_bus {S} (b1 b2 : bus S) : Prop :=
  forall s a, at_least (b_read b1 s a) (b_read b2 s a) /\
    forall v, at_least (b_write b1 s a v) (b_write b2 s a v).

(** The same for computations that make requests. *)
Inductive at_least_io {A} : io A -> io A -> Prop :=
| ali_ret a : at_least_io (Ret a) (Ret a)
| ali_abort y : at_least_io Abort y
| ali_request a k1 k2 : (forall v, at_least_io (k1 v) (k2 v)) -> at_least_io (Request a k1) (Request a k2).

Lemma ali_refl {A} (x : io A) : at_least_io x x.
Proof. induction x; constructor; assumption. Qed.

Lemma ali_bind {A B} (x y : io A) (f g : A -> io B) :
  at_least_io x y -> (forall a, at_least_io (f a) (g a)) -> at_least_io (io_bind x f) (io_bind y g).
Proof.
  intros H1 H2. induction H1 as [a|y|a k1 k2 _ IH]; cbn [io_bind]; [apply H2|constructor|constructor; exact IH].
Qed.

Lemma ali_lift {A} (x y : res A) : at_least x y -> at_least_io (io_lift x) (io_lift y).
Proof.
  intros Hx. destruct x as [a|]; [|constructor]. rewrite (Hx a eq_refl). constructor.
Qed.

Ltac builds_io :=
  cbv zeta;
  repeat first
    [ apply ali_refl
    | match goal with
      | |- at_least_io (io_bind _ _) (io_bind _ _) => apply ali_bind; [|intros ?; cbv zeta]
      | |- at_least_io (io_lift _) (io_lift _) => apply ali_lift; solve [eauto 2 with builds]
      | |- at_least_io (match ?x with _ => _ end) (match ?x with _ => _ end) => destruct x
      end
    | solve [eauto 2 with builds]
    | progress cbv beta iota ].

Section Generate.
Context {D : Type}.
Implicit Type cpu : mos6502 D.

Lemma ali_dxi cpu a i : at_least_io (dereference_indexed_indirect_address_io Debug cpu a i)
  (dereference_indexed_indirect_address_io Release cpu a i).
Proof. unfold dereference_indexed_indirect_address_io. builds_io. Qed.
Lemma ali_diy cpu a i : at_least_io (dereference_indirect_indexed_address_io Debug cpu a i)
  (dereference_indirect_indexed_address_io Release cpu a i).
Proof. unfold dereference_indirect_indexed_address_io. builds_io. Qed.
Lemma ali_deref cpu a i : at_least_io (dereference_address_to_operand_io Debug cpu a i)
  (dereference_address_to_operand_io Release cpu a i).
Proof. unfold dereference_address_to_operand_io. builds_io. Qed.
Lemma al_branch cond b o c cpu : at_least (branch_on_case Debug cond b o c cpu) (branch_on_case Release cond b o c cpu).
Proof. unfold branch_on_case. builds. Qed.
End Generate.
#[export] Hint Resolve ali_dxi ali_diy ali_deref al_branch : builds.

Ltac open_generator :=
  match goal with
  | |- at_least_io ?t _ =>
      let rec hd t := lazymatch t with ?f _ => hd f | _ => t end in
      let h := hd t in unfold h
  end.

Lemma ali_generate {D} v (cpu : mos6502 D) : at_least_io (generate_io Debug v cpu) (generate_io Release v cpu).
Proof. destruct v; cbn [generate_io]; open_generator; builds_io. Qed.

Section Bus.
Context {S : Type} (b1 b2 : bus S).
Hypothesis Hb : at_least_bus b1 b2.

Lemma al_answer {A} (x y : io A) : at_least_io x y -> forall s, at_least (answer b1 x s) (answer b2 y s).
Proof.
  induction 1 as [a|y|a k1 k2 _ IH]; intros s; cbn [answer]; [apply al_refl|apply al_panic|].
  apply al_bind; [apply Hb|]. intros [v s']. apply IH.
Qed.

Lemma al_execute_bus st mc : at_least (execute_bus b1 Debug st mc) (execute_bus b2 Release st mc).
Proof.
  destruct st as [c s]. destruct mc as [a v|f v|r v|r v|r v|[] v|[] v|[] v]; cbn [execute_bus execute_mut];
    try apply al_refl.
  apply al_bind; [apply Hb|]. intros s'. apply al_refl.
Qed.

Lemma al_next_bus st : at_least (next_bus b1 Debug st) (next_bus b2 Release st).
Proof.
  destruct st as [c s]. unfold next_bus. apply al_bind.
  - apply al_answer. unfold generate_next. builds_io. apply ali_generate.
  - intros [mops s1]. apply al_bind; [apply al_refl|]. intros cs.
    apply al_bind; [apply al_foldM, al_execute_bus|]. intros ?. apply al_refl.
Qed.

Lemma al_bus_pipeline_run : forall n q, at_least (bus_pipeline_run b1 Debug n q) (bus_pipeline_run b2 Release n q).
Proof.
  induction n as [|n IH]; intros q; cbn [bus_pipeline_run]; [apply al_refl|].
  apply al_bind; [|exact IH]. unfold bus_pipeline_cycle. apply al_bind.
  - destruct (bp_buffer q); [|apply al_refl]. apply al_bind; [apply al_next_bus|]. intros [mops [it s]].
    apply al_refl.
  - intros [[s cs] it]. destruct cs as [|c buf]; [apply al_refl|].
    apply al_bind; [apply al_foldM, al_execute_bus|]. intros [st s']. apply al_refl.
Qed.

Lemma al_run_bus c s n : at_least (run_bus b1 Debug c s n) (run_bus b2 Release c s n).
Proof. unfold run_bus. apply al_bind; [apply al_bus_pipeline_run|]. intros ?. apply al_refl. Qed.

Lemma al_iterate_bus : forall k st, at_least (iterate_bus b1 Debug k st) (iterate_bus b2 Release k st).
Proof.
  induction k as [|k IH]; intros st; cbn [iterate_bus]; [apply al_refl|].
  apply al_bind; [apply al_next_bus|]. intros [m st'].
  apply al_bind; [apply IH|]. intros [ms st'']. apply al_refl.
Qed.
End Bus.

(** ** The machine with an address map *)
Section Machine.
Context {D : Type} `{Device D}.
Hypothesis Hd : build_independent D.
Implicit Type cpu : mos6502 D.

Lemma al_execute cpu mc : at_least (execute_mut Debug cpu mc) (execute_mut Release cpu mc).
Proof.
  destruct mc as [a v|f v|r v|r v|r v|[] v|[] v|[] v]; cbn [execute_mut]; try apply al_refl.
  unfold exec_write_memory. apply al_bind; [apply al_am_write; exact Hd|]. intros ?. apply al_refl.
Qed.

Lemma al_dxi cpu a i : at_least (dereference_indexed_indirect_address Debug cpu a i)
  (dereference_indexed_indirect_address Release cpu a i).
Proof.
  unfold dereference_indexed_indirect_address.
  apply al_bind; [apply al_am_read, Hd|]. intros ?. apply al_bind; [apply al_add_u8|]. intros ?.
  apply al_bind; [apply al_am_read, Hd|]. intros ?. apply al_refl.
Qed.
Lemma al_diy cpu a i : at_least (dereference_indirect_indexed_address Debug cpu a i)
  (dereference_indirect_indexed_address Release cpu a i).
Proof.
  unfold dereference_indirect_indexed_address.
  apply al_bind; [apply al_am_read, Hd|]. intros ?.
  apply al_bind; [apply al_am_read, Hd|]. intros ?. apply al_add_u16.
Qed.
Lemma al_deref cpu a i : at_least (dereference_address_to_operand Debug cpu a i)
  (dereference_address_to_operand Release cpu a i).
Proof.
  unfold dereference_address_to_operand. apply al_bind; [apply al_am_read, Hd|]. intros ?. apply al_refl.
Qed.

Lemma al_generate v cpu : at_least (generate Debug v cpu) (generate Release v cpu).
Proof.
  destruct v; cbn [generate];
    (match goal with
     | |- at_least ?t _ =>
         let rec hd t := lazymatch t with ?f _ => hd f | _ => t end in
         let h := hd t in unfold h
     end);
    cbv zeta;
    repeat first
      [ apply al_refl | apply al_branch | apply al_dxi | apply al_diy | apply al_deref | apply al_am_read, Hd
      | apply al_page | apply al_add_u16 | apply al_sub_u16 | apply al_add_u8 | apply al_sub_u8
      | match goal with
        | |- at_least (bind _ _) (bind _ _) => apply al_bind; [|intros ?; cbv zeta]
        | |- at_least (match ?x with _ => _ end) (match ?x with _ => _ end) => destruct x
        end ].
Qed.

Lemma al_next cpu : at_least (next Debug cpu) (next Release cpu).
Proof.
  unfold next. cbv zeta.
  repeat first
    [ apply al_refl | apply al_am_read, Hd | apply al_add_u16 | apply al_generate
    | apply al_foldM, al_execute
    | match goal with
      | |- at_least (bind _ _) (bind _ _) => apply al_bind; [|intros ?; cbv zeta]
      | |- at_least (match ?x with _ => _ end) (match ?x with _ => _ end) => destruct x
      end ].
Qed.

Lemma al_take_cycles : forall n buf it, at_least (take_cycles Debug n buf it) (take_cycles Release n buf it).
Proof.
  induction n as [|n IH]; intros buf it; cbn [take_cycles]; [apply al_refl|].
  destruct buf as [|c buf'].
  - apply al_bind; [apply al_next|]. intros [mops it']. apply al_bind; [apply al_refl|]. intros [|c buf']; [apply al_refl|].
    apply al_bind; [apply IH|]. intros ?. apply al_refl.
  - apply al_bind; [apply IH|]. intros ?. apply al_refl.
Qed.

Lemma al_run cpu n : at_least (run Debug cpu n) (run Release cpu n).
Proof.
  unfold run. apply al_bind; [apply al_take_cycles|]. intros cs.
  apply al_bind; [apply al_foldM, al_execute|]. intros ?. apply al_refl.
Qed.

Lemma al_iterate : forall k cpu, at_least (iterate Debug k cpu) (iterate Release k cpu).
Proof.
  induction k as [|k IH]; intros cpu; cbn [iterate]; [apply al_refl|].
  apply al_bind; [apply al_next|]. intros [m st'].
  apply al_bind; [apply IH|]. intros [ms st'']. apply al_refl.
Qed.

Lemma al_reset cpu : at_least (reset Debug cpu) (reset Release cpu).
Proof.
  unfold reset. cbv zeta. apply al_bind; [apply al_am_read, Hd|]. intros ?.
  apply al_bind; [apply al_am_read, Hd|]. intros ?. apply al_refl.
Qed.

Lemma al_reset_as_mops cpu : at_least (reset_as_mops Debug cpu) (reset_as_mops Release cpu).
Proof.
  unfold reset_as_mops. cbv zeta. apply al_bind; [apply al_am_read, Hd|]. intros ?.
  apply al_bind; [apply al_am_read, Hd|]. intros ?. apply al_refl.
Qed.
End Machine.
