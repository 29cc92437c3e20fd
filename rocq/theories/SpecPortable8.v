(** What structured programs (SpecLanguage8.v) mean on the CHIP-8 of the
    technical reference (SpecReference8.v), VF, drawing, waiting for a key and
    60 Hz timers included (C130).  Nothing here follows the code. *)
From Verif Require Import Base ModelDisplay ModelChip8 ModelOpsChip8 ModelRunChip8 SpecChip8 SpecChip8Parts SpecReference8 SpecLanguage8.

(** Programs: any operands that can be encoded, VF among them. *)
Fixpoint proper (c : structured) : Prop :=
  match c with
  | Nothing => True
  | Do op => operands_ok op /\ jumps_not op
  | Then c1 c2 => proper c1 /\ proper c2
  | Choose b c1 c2 => operands_ok (skip_if b) /\ proper c1 /\ proper c2
  | Loop b c => operands_ok (skip_if b) /\ proper c
  end.

(** Fx0A waits for a key. *)
Definition waits (op : opcode) (s : part -> Z) : Prop :=
  match op with LdK _ => s PKey = -1 | _ => False end.

(** What is still to be done, and the state (its program counter plays no
    role) and world it is to be done in. *)
Record task := mkTask { todo : list structured; parts : part -> Z; around : world }.
(** An instruction that was executed, and in which state and world. *)
Record event := mkEvent { performed : opcode; before : part -> Z; when : world }.

Section Meaning.
Context (e : environment) (lo hi : Z).
Inductive proceeds : task -> list event -> task -> Prop :=
| proceeds_nothing k s w : proceeds (mkTask (Nothing :: k) s w) [] (mkTask k s w)
| proceeds_then c1 c2 k s w : proceeds (mkTask (Then c1 c2 :: k) s w) [] (mkTask (c1 :: c2 :: k) s w)
| proceeds_do op k s w s' w' : ~ waits op s -> reference e s w op = Some (s', w') -> spares lo hi s s' ->
    proceeds (mkTask (Do op :: k) s w) [mkEvent op s w] (mkTask k s' w')
| proceeds_wait op k s w : waits op s ->
    proceeds (mkTask (Do op :: k) s w) [mkEvent op s w] (mkTask (Do op :: k) s w)
| proceeds_choose b c1 c2 k s w :
    proceeds (mkTask (Choose b c1 c2 :: k) s w) [mkEvent (skip_if b) s w] (mkTask ((if holds b s then c1 else c2) :: k) s w)
| proceeds_loop b c k s w :
    proceeds (mkTask (Loop b c :: k) s w) [mkEvent (skip_if b) s w] (mkTask (if holds b s then c :: Loop b c :: k else k) s w).
Inductive follows : task -> list event -> task -> Prop :=
| follows_here t : follows t [] t
| follows_on t l1 t1 l2 t2 : proceeds t l1 t1 -> follows t1 l2 t2 -> follows t (l1 ++ l2) t2.
End Meaning.

(** The reference machine executes the instructions [ops], departing or not,
    all of which lie from [lo] up to [hi]. *)
Inductive ref_goes (e : environment) (lo hi : Z) : list opcode -> ref_state -> ref_state -> Prop :=
| ref_goes_here st : ref_goes e lo hi [] st st
| ref_goes_on op ops f w f1 w1 st : lo <= f PPC < hi -> ref_fetches f op -> reference e f w op = Some (f1, w1) ->
    ref_goes e lo hi ops (f1, w1) st -> ref_goes e lo hi (op :: ops) (f, w) st.
(** The program has come to an instruction that reaches outside the memory or
    overwrites the program. *)
Definition stuck (e : environment) (lo hi : Z) (t : task) : Prop :=
  exists op k, todo t = Do op :: k /\ ~ waits op (parts t) /\
    forall s' w', reference e (parts t) (around t) op = Some (s', w') -> ~ spares lo hi (parts t) s'.

(** A state in which the translated program lies at [L] and is about to be
    executed. *)
Definition ref_about_to_run (f : part -> Z) (L : Z) (prog : structured) : Prop :=
  f PPC = L /\ 0 <= L /\ L + bytes (translate L prog) < 4096 /\ proper prog /\
  forall k op, nth_error (translate L prog) k = Some op ->
    256 * f (PMem (L + 2 * Z.of_nat k)) + f (PMem (L + 2 * Z.of_nat k + 1)) = encode op.
(** Two states that differ at most in the program counter. *)
Definition but_for_pc (s f : part -> Z) : Prop := forall q, q <> PPC -> f q = s q.
(** The instructions of a list that are not jumps. *)
Definition is_jump (op : opcode) : bool := match op with JpNonV0Indexed _ => true | _ => false end.
Definition without_jumps (ops : list opcode) : list opcode := filter (fun op => negb (is_jump op)) ops.

(** Instructions that never depart from the reference (C76), whatever the
    state: they name no VF, set no flag, and neither read the delay timer nor
    wait for a key nor look for a digit's picture. *)
Definition portable_op (op : opcode) : Prop :=
  ~ In Vf (registers_named op) /\
  match op with
  | Sys _ | Cls | LdImmediate _ _ | AddImmediate _ _ | LdVxVy _ _ | Or _ _ | And _ _ | Xor _ _ | LdAbsolute _ | Rnd _ _
  | LdDelayTimerDestTx _ | LdSoundTimerDestTx _ | AddIRegisterIndexed _ | LdBcd _
  | StoreRegistersToMemory _ | ReadRegistersFromMemory _ => True
  | _ => False
  end.
Fixpoint portable8 (c : structured) : Prop :=
  match c with
  | Nothing => True
  | Do op => portable_op op
  | Then c1 c2 => portable8 c1 /\ portable8 c2
  | Choose b c1 c2 => ~ In Vf (registers_named (skip_if b)) /\ portable8 c1 /\ portable8 c2
  | Loop b c => ~ In Vf (registers_named (skip_if b)) /\ portable8 c
  end.
(** No registers are read from memory. *)
Fixpoint loads_not (c : structured) : Prop :=
  match c with
  | Nothing => True
  | Do op => match op with ReadRegistersFromMemory _ => False | _ => True end
  | Then c1 c2 | Choose _ c1 c2 => loads_not c1 /\ loads_not c2
  | Loop _ c => loads_not c
  end.
