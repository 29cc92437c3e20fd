(** Property C74: a release build does what a debug build does. *)
From Verif Require Import Base Arith ModelMap ModelStep ModelRegs6502 ModelCpu6502 ModelOperand ModelIsa6502
  ModelRun6502 ModelIo ModelBus ModelExamples SpecBus SpecProfile ProofProfile Demo6502.
From Verif Require ModelChip8 ModelOpsChip8 ModelRunChip8 ProofProfileChip8.

(** What a debug build returns, a release build returns too: the same
    registers, memory and devices, microcode and cycle counts. So a program
    tested in a debug build without a panic behaves the same in release. *)
Theorem C74_next : forall D (dev : Device D) (cpu : mos6502 D) r, build_independent D ->
  next Debug cpu = Ok r -> next Release cpu = Ok r.
Proof. intros D dev cpu r Hd. exact (al_next Hd cpu r). Qed.

Theorem C74_run : forall D (dev : Device D) (cpu : mos6502 D) n r, build_independent D ->
  run Debug cpu n = Ok r -> run Release cpu n = Ok r.
Proof. intros D dev cpu n r Hd. exact (al_run Hd cpu n r). Qed.

Theorem C74_iterate : forall D (dev : Device D) (cpu : mos6502 D) k r, build_independent D ->
  iterate Debug k cpu = Ok r -> iterate Release k cpu = Ok r.
Proof. intros D dev cpu k r Hd. exact (al_iterate Hd k cpu r). Qed.

Theorem C74_reset : forall D (dev : Device D) (cpu : mos6502 D) r, build_independent D ->
  reset Debug cpu = Ok r -> reset Release cpu = Ok r.
Proof. intros D dev cpu r Hd. exact (al_reset Hd cpu r). Qed.

(** The devices this holds for: RAM and ROM, the example's peripheral, and
    address maps of such devices. *)
Theorem C74_devices :
  build_independent memory /\ build_independent any_device /\
  forall D (dev : Device D), build_independent D -> build_independent (address_map D).
Proof.
  split; [exact memory_independent|]. split; [exact any_independent|].
  intros D dev Hd. exact (map_independent Hd).
Qed.

(** Devices that react to being read, the same in both builds. *)
Theorem C74_run_on_any_bus : forall S (b : bus S) (cpu : core) s n r,
  run_bus b Debug cpu s n = Ok r -> run_bus b Release cpu s n = Ok r.
Proof.
  intros S b cpu s n r. apply (al_run_bus b b). intros s' a. split; [|intros v]; apply al_refl.
Qed.

(** The CHIP-8, for every clock and every random generator. *)
Theorem C74_chip8_run : forall e (c : ModelChip8.chip8) n w r,
  ModelRunChip8.run e Debug c n w = Ok r -> ModelRunChip8.run e Release c n w = Ok r.
Proof. intros e c n w r. exact (ProofProfileChip8.al_run e c n w r). Qed.

Theorem C74_chip8_iterate : forall e (c : ModelChip8.chip8) n w r,
  ModelRunChip8.iterate e Debug n c w = Ok r -> ModelRunChip8.iterate e Release n c w = Ok r.
Proof. intros e c n w r. exact (ProofProfileChip8.al_iterate e n c w r). Qed.

Print Assumptions C74_next.
Print Assumptions C74_run.
Print Assumptions C74_iterate.
Print Assumptions C74_reset.
Print Assumptions C74_devices.
Print Assumptions C74_run_on_any_bus.
Print Assumptions C74_chip8_run.
Print Assumptions C74_chip8_iterate.

(** ** Concrete cases *)

(** INX; STX 0x10 and on: both builds return. *)
Example C74_case : exists cpu,
  run Debug (machine [] [0xe8; 0x86; 0x10] 0 0xff 0 0xff ps0) 5 = Ok (Ready cpu) /\ reg_x cpu = 0 /\
  run Release (machine [] [0xe8; 0x86; 0x10] 0 0xff 0 0xff ps0) 5 = Ok (Ready cpu).
Proof. eexists. split; [vm_compute; reflexivity|]. split; [vm_compute; reflexivity|]. vm_compute. reflexivity. Qed.

(** LDA (0xff,X) with X = 255: only the debug build panics, so the converse
    fails. *)
Example C74_no_converse :
  next Debug (machine [] [0xa1; 0xff; 0] 1 255 0 0xff ps0) = Panic /\
  next Release (machine [] [0xa1; 0xff; 0] 1 255 0 0xff ps0) <> Panic.
Proof. split; vm_compute; [reflexivity|discriminate]. Qed.

(** A CHIP-8 running zeroed memory for ten instructions. *)
Example C74_chip8_case :
  exists c w r,
    ModelChip8.chip8_default (ModelChip8.mkEnv (fun _ => 0) (fun _ => 0)) Debug (ModelChip8.mkWorld 0 0) = Ok (c, w) /\
    ModelRunChip8.run (ModelChip8.mkEnv (fun _ => 0) (fun _ => 0)) Debug c 10 w = Ok r.
Proof. do 3 eexists. split; [vm_compute; reflexivity|]. vm_compute. reflexivity. Qed.
