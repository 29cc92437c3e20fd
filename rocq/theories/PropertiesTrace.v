(** Property C65 and the pipeline behind [run] (part of C26). *)
From Verif Require Import Base Arith ModelMap ModelStep ModelRegs6502 ModelCpu6502 ModelOperand
  ModelIsa6502 ModelRun6502 ModelTrace SpecMap Link6502 ProofRun6502 ProofReplay ProofInstr Demo6502.

Section Trace.
Context {D : Type} `{Device D}.
Implicit Type cpu : mos6502 D.

Lemma fold_logged p : forall l log cpu,
  foldM (execute_logged p) l (log, cpu) =
  (do! c <- foldM (execute_mut p) l cpu ; Ok (log ++ flat_map bus_writes l, c)).
Proof.
  induction l as [|mc l IH]; intros log cpu; cbn [foldM flat_map].
  - rewrite app_nil_r. reflexivity.
  - cbn [execute_logged]. destruct (execute_mut p cpu mc) as [c|]; cbn [bind]; [|reflexivity].
    rewrite IH, app_assoc. reflexivity.
Qed.

(** What the pipeline does, whatever it holds: the state is the replay of the
    cycles taken. *)
Lemma pipeline_state p : forall n log buf it st,
  (do! s <- pipeline_run p n (mkPipeline log buf it st) ; Ok (pl_state s)) =
  (do! cs <- take_cycles p n buf it ; foldM (execute_mut p) (concat cs) st).
Proof.
  induction n as [|n IH]; intros log buf it st; [reflexivity|].
  cbn [pipeline_run take_cycles]. unfold pipeline_cycle. cbn [pl_buffer pl_log pl_iter pl_state].
  assert (G : forall log c buf' it',
    (do! s <- (do! s' <- (do! ' (log', st') <- foldM (execute_logged p) c (log, st) ;
                          Ok (mkPipeline log' buf' it' st')) ;
               pipeline_run p n s') ; Ok (pl_state s)) =
    (do! cs <- (do! rest <- take_cycles p n buf' it' ; Ok (c :: rest)) ;
     foldM (execute_mut p) (concat cs) st)).
  { intros log0 c buf' it'. rewrite fold_logged.
    destruct (foldM (execute_mut p) c st) as [st'|] eqn:Ef; cbn [bind].
    - rewrite IH. destruct (take_cycles p n buf' it') as [cs|]; cbn [bind]; [|reflexivity].
      cbn [concat]. rewrite foldM_app, Ef. reflexivity.
    - destruct (take_cycles p n buf' it') as [cs|]; cbn [bind]; [|reflexivity].
      cbn [concat]. rewrite foldM_app, Ef. reflexivity. }
  destruct buf as [|c buf']; [|exact (G log c buf' it)].
  unfold next_logged. destruct (next p it) as [[mops it']|]; cbn [bind]; [|reflexivity].
  destruct (operations_into_cycles mops) as [[|c buf']|]; cbn [bind]; [reflexivity| |reflexivity].
  exact (G _ c buf' it').
Qed.

(** The device writes of one yielded instruction. *)
Definition stores_of (m : operations) : list (Z * Z) := flat_map bus_writes (ops_microcode m).

Lemma pipeline_split p : forall n m s,
  pipeline_run p (n + m) s = (do! s' <- pipeline_run p n s ; pipeline_run p m s').
Proof.
  induction n as [|n IH]; intros m s; [reflexivity|]. cbn [Nat.add pipeline_run].
  destruct (pipeline_cycle p s) as [s'|]; cbn [bind]; [apply IH|reflexivity].
Qed.

(** Consuming empty cycles. *)
Lemma pipeline_empties p log mc it st : forall j r, (r <= j)%nat ->
  pipeline_run p r (mkPipeline log (repeat [] j ++ [mc]) it st)
  = Ok (mkPipeline log (repeat [] (j - r) ++ [mc]) it st).
Proof.
  induction j as [|j IH]; intros r Hr; destruct r as [|r]; try reflexivity; [lia|].
  cbn [repeat app pipeline_run]. unfold pipeline_cycle. cbn [pl_buffer pl_log pl_iter pl_state foldM bind].
  rewrite IH by lia. reflexivity.
Qed.

Lemma flat_writes_nil n l : flat_map bus_writes (concat (repeat [] n ++ [l])) = flat_map bus_writes l.
Proof.
  rewrite concat_app, concat_repeat_nil. cbn [concat app]. rewrite app_nil_r. reflexivity.
Qed.

(** One whole instruction, from machines in the same state. *)
Lemma pipeline_instruction p cpu mops cpu' log r : next p cpu = Ok (mops, cpu') ->
  (r <= ops_cycles mops)%nat ->
  exists buf, pipeline_run p r (mkPipeline log [] cpu cpu) = Ok
    (if Nat.eqb r 0 then mkPipeline log [] cpu cpu
     else if Nat.eqb r (ops_cycles mops) then mkPipeline (log ++ stores_of mops ++ stores_of mops) [] cpu' cpu'
     else mkPipeline (log ++ stores_of mops) buf cpu' cpu).
Proof.
  intros En Hr. destruct (next_inv _ _ _ _ En) as (j & Ek & Ec & Ef).
  set (mc := ops_microcode mops ++ _) in *.
  assert (Ew : flat_map bus_writes mc = stores_of mops).
  { unfold mc, stores_of. rewrite flat_map_app. cbn [flat_map bus_writes app]. apply app_nil_r. }
  destruct r as [|r]; [exists []; reflexivity|]. cbn [Nat.eqb]. rewrite Ek in *.
  assert (E1 : forall q, pipeline_run p (S q) (mkPipeline log [] cpu cpu) =
               pipeline_run p (S q) (mkPipeline (log ++ stores_of mops) (repeat [] j ++ [mc]) cpu' cpu)).
  { intros q. cbn [pipeline_run]. unfold pipeline_cycle at 1. cbn [pl_buffer pl_log pl_iter pl_state].
    unfold next_logged. rewrite En. cbn [bind]. rewrite Ec. cbn [bind].
    rewrite flat_writes_nil, Ew. unfold pipeline_cycle. cbn [pl_buffer pl_log pl_iter pl_state].
    destruct j as [|j]; cbn [repeat app]; reflexivity. }
  rewrite E1. destruct (Nat.eq_dec r j) as [->|Hj].
  - exists []. rewrite Nat.eqb_refl. replace (S j) with (j + 1)%nat by lia.
    rewrite pipeline_split, pipeline_empties by lia. cbn [bind]. rewrite Nat.sub_diag. cbn [repeat app pipeline_run].
    unfold pipeline_cycle. cbn [pl_buffer pl_log pl_iter pl_state bind].
    rewrite fold_logged, Ef. cbn [bind]. rewrite Ew, <- app_assoc. reflexivity.
  - replace (Nat.eqb r j) with false by (symmetry; apply Nat.eqb_neq; lia).
    rewrite pipeline_empties by lia. eexists. reflexivity.
Qed.

Lemma pipeline_iterate p : forall k cpu ms cpu' log, iterate p k cpu = Ok (ms, cpu') ->
  pipeline_run p (list_sum (map ops_cycles ms)) (mkPipeline log [] cpu cpu)
  = Ok (mkPipeline (log ++ flat_map (fun m => stores_of m ++ stores_of m) ms) [] cpu' cpu').
Proof.
  induction k as [|k IH]; intros cpu ms cpu' log Hi; cbn [iterate] in Hi.
  - injection Hi as <- <-. cbn. rewrite app_nil_r. reflexivity.
  - destruct (next p cpu) as [[m cpu1]|] eqn:En; cbn [bind] in Hi; [|discriminate].
    destruct (iterate p k cpu1) as [[ms' cpu2]|] eqn:Ei; cbn [bind] in Hi; [|discriminate].
    injection Hi as <- <-. cbn [map]. change (list_sum (ops_cycles m :: map ops_cycles ms'))
      with (ops_cycles m + list_sum (map ops_cycles ms'))%nat.
    rewrite pipeline_split.
    destruct (pipeline_instruction p cpu m cpu1 log (ops_cycles m) En (le_n _)) as [buf ->]. cbn [bind].
    destruct (next_inv _ _ _ _ En) as (j & Ek & _). rewrite Nat.eqb_refl.
    replace (Nat.eqb (ops_cycles m) 0) with false by (rewrite Ek; reflexivity).
    rewrite (IH _ _ _ _ Ei). cbn [flat_map]. rewrite <- !app_assoc. reflexivity.
Qed.

(** ** C26: the pipeline and [run] give the same outcome, panics included *)
Theorem C26_pipeline : forall p cpu n,
  run p cpu n = (do! s <- pipeline_run p n (pipeline_start cpu) ; Ok (Ready (pl_state s))).
Proof.
  intros p cpu n. rewrite run_go. unfold go, pipeline_start.
  rewrite <- (pipeline_state p n [] [] cpu cpu).
  destruct (pipeline_run p n (mkPipeline [] [] cpu cpu)); reflexivity.
Qed.

(** ** C65 *)
(** A run that ends at an instruction boundary issues every write of every
    instruction twice. *)
Theorem C65_writes_issued_twice : forall p k cpu ms cpu', iterate p k cpu = Ok (ms, cpu') ->
  exists s, pipeline_run p (list_sum (map ops_cycles ms)) (pipeline_start cpu) = Ok s /\
    pl_state s = cpu' /\
    pl_log s = flat_map (fun m => stores_of m ++ stores_of m) ms.
Proof.
  intros p k cpu ms cpu' Hi. eexists. split; [exact (pipeline_iterate p k cpu ms cpu' [] Hi)|].
  split; reflexivity.
Qed.

(** A run that ends inside an instruction has already issued the writes of
    that instruction once, although the state it returns does not show it. *)
Theorem C65_unfinished_instruction_writes : forall p k cpu ms cpu1 m cpu2 r,
  iterate p k cpu = Ok (ms, cpu1) -> next p cpu1 = Ok (m, cpu2) ->
  (0 < r < ops_cycles m)%nat ->
  exists s, pipeline_run p (list_sum (map ops_cycles ms) + r) (pipeline_start cpu) = Ok s /\
    pl_state s = cpu1 /\
    pl_log s = flat_map (fun m => stores_of m ++ stores_of m) ms ++ stores_of m.
Proof.
  intros p k cpu ms cpu1 m cpu2 r Hi Hn Hr. rewrite pipeline_split. unfold pipeline_start.
  rewrite (pipeline_iterate p k cpu ms cpu1 [] Hi). cbn [bind app].
  destruct (pipeline_instruction p cpu1 m cpu2 (flat_map (fun m => stores_of m ++ stores_of m) ms) r Hn ltac:(lia)) as [buf ->].
  replace (Nat.eqb r 0) with false by (symmetry; apply Nat.eqb_neq; lia).
  replace (Nat.eqb r (ops_cycles m)) with false by (symmetry; apply Nat.eqb_neq; lia).
  eexists. split; [reflexivity|]. split; reflexivity.
Qed.

(** The claim holds exactly for programs that write nothing. *)
Theorem C65_once_iff_no_writes : forall p k cpu ms cpu', iterate p k cpu = Ok (ms, cpu') ->
  forall s, pipeline_run p (list_sum (map ops_cycles ms)) (pipeline_start cpu) = Ok s ->
  (pl_log s = flat_map stores_of ms <-> flat_map stores_of ms = []).
Proof.
  intros p k cpu ms cpu' Hi s Hs. unfold pipeline_start in Hs.
  rewrite (pipeline_iterate p k cpu ms cpu' [] Hi) in Hs. injection Hs as <-. cbn [pl_log app].
  assert (L : forall l : list operations,
    length (flat_map (fun m => stores_of m ++ stores_of m) l) = (2 * length (flat_map stores_of l))%nat).
  { clear. induction l as [|m l IH]; cbn [flat_map]; [reflexivity|]. rewrite !app_length, IH. lia. }
  split; intros E.
  - apply length_zero_iff_nil. assert (L' := L ms). rewrite E in L'. lia.
  - rewrite E. apply length_zero_iff_nil. rewrite L, E. reflexivity.
Qed.

(** Driving the instruction iterator by hand issues every write once. *)
Theorem C65_iterator_once_partial : forall p log cpu mops cpu', next p cpu = Ok (mops, cpu') ->
  exists cs, next_logged p log cpu = Ok (log ++ stores_of mops, cs, cpu').
Proof.
  intros p log cpu mops cpu' En. destruct (next_inv _ _ _ _ En) as (j & Ek & Ec & Ef).
  unfold next_logged. rewrite En. cbn [bind]. rewrite Ec. cbn [bind]. rewrite flat_writes_nil, flat_map_app.
  cbn [flat_map bus_writes app]. rewrite app_nil_r. eexists. reflexivity.
Qed.
End Trace.

(** LDA #5; STA 0x10; INX; NOP. *)
Definition trace_demo : mos6502 memory :=
  machine [] [0xa9; 0x05; 0x85; 0x10; 0xe8; 0xea; 0xea; 0xea] 0 0 0 0xff ps0.

Theorem C65_once_refuted :
  ~ (forall p k (cpu : mos6502 memory) ms cpu' s, iterate p k cpu = Ok (ms, cpu') ->
      pipeline_run p (list_sum (map ops_cycles ms)) (pipeline_start cpu) = Ok s ->
      pl_log s = flat_map stores_of ms).
Proof.
  intros T.
  assert (K : match iterate Debug 2 trace_demo with
              | Ok (ms, _) => length (flat_map stores_of ms) | Panic => 0%nat end = 1%nat)
    by (vm_compute; reflexivity).
  destruct (iterate Debug 2 trace_demo) as [[ms c]|] eqn:E; [|discriminate].
  destruct (C65_writes_issued_twice _ _ _ _ _ E) as (s & Es & _ & _).
  assert (F := T _ _ _ _ _ _ E Es). apply (C65_once_iff_no_writes _ _ _ _ _ E _ Es) in F.
  rewrite F in K. discriminate.
Qed.

Print Assumptions C26_pipeline.
Print Assumptions C65_writes_issued_twice.
Print Assumptions C65_unfinished_instruction_writes.
Print Assumptions C65_once_iff_no_writes.
Print Assumptions C65_iterator_once_partial.
Print Assumptions C65_once_refuted.

(** The store of the demo reaches its device twice in a run of 5 cycles, and
    once in a run of 3 cycles that ends before the store is complete. *)
Example C65_case :
  map (fun n => match pipeline_run Debug n (pipeline_start trace_demo) with
                | Ok s => (pl_log s, reg_pc (pl_state s)) | Panic => ([], 0) end) [2; 3; 5; 7]%nat
  = [([], 0x8002); ([(0x10, 5)], 0x8002); ([(0x10, 5); (0x10, 5)], 0x8004); ([(0x10, 5); (0x10, 5)], 0x8005)].
Proof. vm_compute. reflexivity. Qed.

Example C65_case_iterate :
  match iterate Debug 3 trace_demo with
  | Ok (ms, c) => (map stores_of ms, map ops_cycles ms, reg_x c) | Panic => ([], [], 0) end
  = ([[]; [(0x10, 5)]; []], [2; 3; 2]%nat, 1).
Proof. vm_compute. reflexivity. Qed.
