(** Checked 6502 code keeps its stack discipline. *)
From Verif Require Import Base Arith ModelMap ModelRegs6502 ModelCpu6502 ModelIsa6502 ModelRun6502 SpecMap Link6502 ProofRun6502 ProofBus
  Spec6502 SpecProgram ProofProgram SpecCheck.

Lemma in_bytes256 i : In i bytes256 <-> 0 <= i < 256.
Proof.
  unfold bytes256. rewrite in_map_iff. split.
  - intros (n & <- & H). apply in_seq in H. lia.
  - intros H. exists (Z.to_nat i). split; [lia|]. apply in_seq. lia.
Qed.

Lemma decode_row op d : decode op = Some d -> In (op, d) opcode_table.
Proof.
  unfold decode. destruct (find (fun row => fst row =? op) opcode_table) as [[b r']|] eqn:E; [|discriminate].
  apply find_some in E. destruct E as [Hin Hb]. cbn [fst] in Hb. apply Z.eqb_eq in Hb. subst b. intros H. injection H as ->. exact Hin.
Qed.

(** ** What each instruction does to the stack and the program counter *)
Definition shape (mn : mnemonic) (m : addressing_mode) (r : registers) (rd : Z -> Z) (b1 b2 : Z) (e : effect) : Prop :=
  let r' := e_regs e in
  match mn with
  | Jmp => e_stores e = [] /\ rS r' = rS r /\ rPC r' = word b1 b2
  | Jsr => e_stores e = [(stack (rS r), high ((rPC r + 2) mod 65536)); (stack (rS r - 1), low ((rPC r + 2) mod 65536))] /\
           rS r' = (rS r - 2) mod 256 /\ rPC r' = word b1 b2
  | Rts => e_stores e = [] /\ rS r' = (rS r + 2) mod 256 /\
           rPC r' = (word (rd (stack (rS r + 1))) (rd (stack (rS r + 2))) + 1) mod 65536
  | Pha | Php => (exists v, e_stores e = [(stack (rS r), v)]) /\ rS r' = (rS r - 1) mod 256 /\ rPC r' = (rPC r + 1) mod 65536
  | Pla | Plp => e_stores e = [] /\ rS r' = (rS r + 1) mod 256 /\ rPC r' = (rPC r + 1) mod 65536
  | Bcc | Bcs | Bne | Beq | Bpl | Bmi | Bvc | Bvs =>
      e_stores e = [] /\ rS r' = rS r /\ (rPC r' = (rPC r + 2) mod 65536 \/ rPC r' = (rPC r + signed b1) mod 65536)
  | _ => Forall (fun w => In (fst w) (places mn m b1 b2)) (e_stores e) /\ rS r' = rS r /\ rPC r' = (rPC r + length_of m) mod 65536
  end.

Definition shaped (p : profile) (row : Z * (mnemonic * addressing_mode * nat)) : Prop :=
  let '(_, (mn, m, c)) := row in
  refused p mn m = false -> forall r rd b1 b2 x1 x2, u8 (rX r) -> u8 (rY r) ->
  (2 <= length_of m -> x1 = b1) -> (3 <= length_of m -> x2 = b2) ->
  exists e, execute p mn m c r rd x1 x2 = Some e /\ shape mn m r rd b1 b2 e.

Lemma in_abs w x : u8 x -> In ((w + x) mod 65536) (map (fun i => (w + i) mod 65536) bytes256).
Proof. intros H. apply in_map_iff. exists x. split; [reflexivity|]. apply in_bytes256. unfold u8 in H. lia. Qed.
Lemma in_zp b x : In ((b + x) mod 256) bytes256.
Proof. apply in_bytes256. lia. Qed.

Ltac shape_places :=
  cbn [e_stores]; first [apply Forall_nil |
  apply Forall_cons; [|apply Forall_nil]; cbn [fst places stores];
  first [left; reflexivity | apply in_abs; assumption | apply in_zp]].
Ltac shape_row :=
  let r := fresh "r" in let rd := fresh "rd" in let b1 := fresh "b" in let b2 := fresh "b" in
  intros R r rd b1 b2 x1 x2 HX HY E1 E2;
  try (specialize (E1 ltac:(cbn [length_of]; lia)); subst x1);
  try (specialize (E2 ltac:(cbn [length_of]; lia)); subst x2);
  first
  [ discriminate R
  | eexists; split; [reflexivity|]; cbn [shape];
    first [ split; [shape_places|split; reflexivity]
          | split; [reflexivity|split; reflexivity]
          | split; [eexists; reflexivity|split; reflexivity] ]
  | cbn [execute]; unfold branch_op; match goal with |- context [if ?c then _ else _] => destruct c end;
    eexists; (split; [reflexivity|]); cbn [shape]; (split; [reflexivity|]); (split; [reflexivity|]);
    first [left; reflexivity | right; reflexivity] ].

Ltac shape_indirect :=
  let R := fresh in
  intros R r rd b1 b2 x1 x2 HX HY E1 E2; specialize (E1 ltac:(cbn [length_of]; lia)); subst x1; clear E2;
  cbn [execute]; unfold read_op, operand_value, operand_address, unchecked;
  match goal with |- context [?a <? ?b] => destruct (a <? b) end;
  eexists; (split; [reflexivity|]); cbn [shape]; (split; [apply Forall_nil|split; reflexivity]).

Lemma all_shaped p : Forall (shaped p) opcode_table.
Proof.
  unfold opcode_table, shaped. destruct p.
  all: repeat (apply Forall_cons; [first [shape_row | shape_indirect]|]); apply Forall_nil.
Qed.

Lemma execute_shape p op mn m c r rd b1 b2 x1 x2 : decode op = Some (mn, m, c) -> refused p mn m = false -> regs_ok r ->
  (2 <= length_of m -> x1 = b1) -> (3 <= length_of m -> x2 = b2) ->
  exists e, execute p mn m c r rd x1 x2 = Some e /\ shape mn m r rd b1 b2 e.
Proof.
  intros Hd R (_ & HX & HY & _) E1 E2. apply decode_row in Hd.
  exact (proj1 (Forall_forall _ _) (all_shaped p) _ Hd R r rd b1 b2 x1 x2 HX HY E1 E2).
Qed.

Lemma length_range m : 1 <= length_of m <= 3.
Proof. destruct m; cbn [length_of]; lia. Qed.

Lemma stored_byte_valued w : forall f, byte_valued f -> stores_ok w -> byte_valued (stored f w).
Proof.
  induction w as [|[a v] w IH]; intros f Hf Ho; [exact Hf|].
  apply Forall_cons_iff in Ho as [[Ha Hv] Ho]. cbn [stored fold_left]. apply IH; [|exact Ho].
  intros q Hq. unfold store1. cbn [fst snd] in *. destruct (q =? a); [exact Hv|apply Hf; exact Hq].
Qed.

Lemma stored_other w : forall f q, ~ In q (map fst w) -> stored f w q = f q.
Proof.
  induction w as [|[a v] w IH]; intros f q Hn; [reflexivity|]. cbn [stored fold_left].
  cbn [map In fst] in Hn. change (fold_left store1 w (store1 f (a, v)) q) with (stored (store1 f (a, v)) w q).
  rewrite IH by tauto. unfold store1. cbn [fst snd]. replace (q =? a) with false by lia. reflexivity.
Qed.

Lemma deepest_ge l n : In n l -> n_height n <= deepest l.
Proof. induction l as [|m l IH]; cbn [In deepest fold_right]; [tauto|]. intros [<- | H]; [lia|]. specialize (IH H). unfold deepest in IH. lia. Qed.

Lemma stack_range n : 256 <= stack n <= 511.
Proof. unfold stack. lia. Qed.
Lemma stack_differs S i j : 0 <= i < 256 -> 0 <= j < 256 -> i <> j -> stack (S - i) <> stack (S - j).
Proof. unfold stack. intros. lia. Qed.
Lemma stack_mod n m : n mod 256 = m mod 256 -> stack n = stack m.
Proof. unfold stack. intros ->. reflexivity. Qed.

(** ** The invariant *)
Section Invariant.
Variables (p : profile) (f0 : Z -> Z) (ramb : Z -> bool) (ram : Z -> Prop) (l : listing) (S0 : Z).
Hypothesis Hram : forall q, ramb q = true -> ram q.
Hypothesis Hpass : passes p f0 ramb l = true.

Lemma noted_ok a n : noted l a = Some n -> n_at n = a /\ In n l /\ instruction_ok p f0 ramb l n = true.
Proof.
  intros E. unfold noted in E. apply find_some in E as [Hin Ha]. apply Z.eqb_eq in Ha. split; [exact Ha|]. split; [exact Hin|].
  unfold passes in Hpass. apply andb_prop in Hpass as [_ Hl]. rewrite forallb_forall in Hl. exact (Hl n Hin).
Qed.
Lemma goes_note main a d h : goes_to l main a d h = true ->
  exists n, noted l a = Some n /\ n_depth n = d /\ h <= n_height n /\ n_main n = main.
Proof.
  unfold goes_to. destruct (noted l a) as [n|]; [|discriminate]. intros H. apply andb_prop in H as [H Hm]. apply andb_prop in H as [Hd Hh].
  exists n. apply Bool.eqb_prop in Hm. repeat split; try lia. exact Hm.
Qed.
Lemma page_one_ok i : ramb (stack i) = true /\ code_byte f0 l (stack i) = false.
Proof.
  unfold passes in Hpass. apply andb_prop in Hpass as [Hp _]. rewrite forallb_forall in Hp.
  specialize (Hp (i mod 256) (proj2 (in_bytes256 (i mod 256)) ltac:(lia))). apply andb_prop in Hp as [Hr Hc].
  unfold stack. split; [exact Hr|]. destruct (code_byte f0 l (256 + i mod 256)); [discriminate Hc|reflexivity].
Qed.
Lemma place_ok n mn m c q : In n l -> decode (f0 (n_at n)) = Some (mn, m, c) ->
  In q (places mn m (f0 (n_at n + 1)) (f0 (n_at n + 2))) ->
  ramb q = true /\ page1 q = false /\ code_byte f0 l q = false.
Proof.
  intros Hin Hd Hq. unfold passes in Hpass. apply andb_prop in Hpass as [_ Hl]. rewrite forallb_forall in Hl.
  specialize (Hl n Hin). unfold instruction_ok in Hl. rewrite Hd in Hl. apply andb_prop in Hl as [_ Hl].
  apply andb_prop in Hl as [Hl _]. apply andb_prop in Hl as [_ Hl]. rewrite forallb_forall in Hl. specialize (Hl q Hq).
  apply andb_prop in Hl as [Hl H3]. apply andb_prop in Hl as [H1 H2]. apply Bool.negb_true_iff in H2, H3. auto.
Qed.

(** Bytes that differ from the initial memory. *)
Definition changed (f : Z -> Z) : Prop :=
  forall q, f q <> f0 q -> (exists i, 0 <= i < deepest l /\ q = stack (S0 - i)) \/ stored_to f0 l q.

Lemma code_kept f q : changed f -> code_byte f0 l q = true -> f q = f0 q.
Proof.
  intros Hc Hq. destruct (Z.eq_dec (f q) (f0 q)) as [E|N]; [exact E|]. exfalso.
  destruct (Hc q N) as [(i & _ & ->)|(n & mn & m & c & Hin & Hd & Hp)].
  - destruct (page_one_ok (S0 - i)) as [_ K]. congruence.
  - destruct (place_ok n mn m c q Hin Hd Hp) as (_ & _ & K). congruence.
Qed.
Lemma own_bytes f n mn m c j : changed f -> In n l -> decode (f0 (n_at n)) = Some (mn, m, c) -> 0 <= j < length_of m ->
  f (n_at n + j) = f0 (n_at n + j).
Proof.
  intros Hc Hin Hd Hj. apply code_kept; [exact Hc|]. unfold code_byte. apply existsb_exists. exists n. split; [exact Hin|].
  unfold covers. rewrite Hd. lia.
Qed.

(** The place after a call. *)
Definition after_call (a : Z) : Prop := exists n m c, In n l /\ decode (f0 (n_at n)) = Some (Jsr, m, c) /\ a = n_at n + 3.

(** The frames of the pending calls above a base. *)
Inductive tower (f : Z -> Z) (b0 : Z) (m0 : bool) : Z -> bool -> Prop :=
| tower_base : tower f b0 m0 b0 m0
| tower_call v n : noted l ((word (f (stack (S0 - v - 1))) (f (stack (S0 - v))) + 1) mod 65536) = Some n ->
    after_call ((word (f (stack (S0 - v - 1))) (f (stack (S0 - v))) + 1) mod 65536) -> v <= n_height n ->
    tower f b0 m0 (v - n_depth n) (n_main n) -> tower f b0 m0 (v + 2) false.

Lemma note_bounds a n : noted l a = Some n -> 0 <= a <= 0xfffd /\ 0 <= n_depth n /\ n_height n <= 255 /\ n_height n <= deepest l.
Proof.
  intros E. apply noted_ok in E as (<- & Hin & Hok). pose proof (deepest_ge l n Hin). unfold instruction_ok in Hok.
  apply andb_prop in Hok as [Hok _]. lia.
Qed.
Lemma tower_low f b0 m0 u main : tower f b0 m0 u main -> b0 <= u.
Proof. induction 1 as [|v n E Ea Hv Ht IH]; [lia|]. apply note_bounds in E. lia. Qed.
Lemma tower_keeps f f' b0 m0 u main : tower f b0 m0 u main -> (forall i, 0 <= i < u -> f' (stack (S0 - i)) = f (stack (S0 - i))) -> 0 <= b0 ->
  tower f' b0 m0 u main.
Proof.
  induction 1 as [|v n E Ea Hv Ht IH]; intros K Hb; [constructor|]. pose proof (tower_low _ _ _ _ _ Ht) as Hl. pose proof (note_bounds _ _ E) as Hn.
  pose proof (K (v + 1) ltac:(lia)) as K1. replace (S0 - (v + 1)) with (S0 - v - 1) in K1 by lia.
  constructor 2 with n; [| |exact Hv|].
  - rewrite K1, (K v ltac:(lia)). exact E.
  - rewrite K1, (K v ltac:(lia)). exact Ea.
  - apply IH; [|exact Hb]. intros i Hi. apply K. lia.
Qed.

Definition core (r : registers) (f : Z -> Z) (n : note) (u : Z) : Prop :=
  regs_ok r /\ byte_valued f /\ noted l (rPC r) = Some n /\ rS r = (S0 - u) mod 256 /\ n_depth n <= u <= n_height n /\ changed f.

(** The instruction at a noted place. *)
Lemma core_step r f n u : core r f n u -> exists mn m c e,
  decode (f0 (n_at n)) = Some (mn, m, c) /\ step p r f = Some e /\ shape mn m r f (f0 (n_at n + 1)) (f0 (n_at n + 2)) e /\
  successors_ok l mn m (f0 (n_at n + 1)) (f0 (n_at n + 2)) n = true /\ n_at n = rPC r /\ In n l /\
  regs_ok (e_regs e) /\ byte_valued (stored f (e_stores e)) /\ f (rPC r) = f0 (rPC r).
Proof.
  intros (Hr & Hf & En & ES & Hu & Hc). pose proof (note_bounds _ _ En) as Hb. destruct (noted_ok _ _ En) as (Ha & Hin & Hok).
  unfold instruction_ok in Hok. apply andb_prop in Hok as [_ Hok]. destruct (decode (f0 (n_at n))) as [[[mn m] c]|] eqn:Ed; [|discriminate].
  apply andb_prop in Hok as [Hok Hs]. apply andb_prop in Hok as [Hrf _]. apply Bool.negb_true_iff in Hrf.
  pose proof (own_bytes f n mn m c) as Own. pose proof (length_range m) as Hlen.
  assert (E0 : f (rPC r) = f0 (n_at n)).
  { rewrite <- Ha. pose proof (Own 0 Hc Hin Ed ltac:(lia)) as O. rewrite Z.add_0_r in O. exact O. }
  destruct (execute_shape p (f0 (n_at n)) mn m c r f (f0 (n_at n + 1)) (f0 (n_at n + 2)) (f (rPC r + 1)) (f (rPC r + 2)) Ed Hrf Hr) as (e & Ee & Sh).
  { intros H2. rewrite <- Ha. apply Own; auto; lia. }
  { intros H3. rewrite <- Ha. apply Own; auto; lia. }
  assert (Est : step p r f = Some e) by (rewrite (step_at p r f (f0 (n_at n)) mn m c); auto; lia).
  destruct (step_ok p r f e Hf Hr Est) as [K1 K2].
  exists mn, m, c, e. split; [reflexivity|]. split; [exact Est|]. split; [exact Sh|]. split; [exact Hs|]. split; [exact Ha|]. split; [exact Hin|].
  split; [exact K1|]. split; [apply stored_byte_valued; assumption|]. congruence.
Qed.

Lemma changed_push f u v h : changed f -> 0 <= u < h -> h <= deepest l -> changed (store1 f (stack (S0 - u), v)).
Proof.
  intros Hc Hu Hh q Hq. unfold store1 in Hq. cbn [fst snd] in Hq. destruct (Z.eqb_spec q (stack (S0 - u))) as [Eq|N]; [left; exists u; split; [lia|exact Eq]|].
  apply Hc. exact Hq.
Qed.
Lemma changed_stores w : forall f, changed f -> Forall (fun x => stored_to f0 l (fst x)) w -> changed (stored f w).
Proof.
  induction w as [|[a v] w IH]; intros f Hc Hw; [exact Hc|]. apply Forall_cons_iff in Hw as [Ha Hw]. cbn [stored fold_left]. apply IH; [|exact Hw].
  intros q Hq. unfold store1 in Hq. cbn [fst snd] in *. destruct (Z.eqb_spec q a) as [Eq|N]; [right; rewrite Eq; exact Ha|]. apply Hc. exact Hq.
Qed.

(** What one instruction leads to. *)
Definition onward (r : registers) (f : Z -> Z) (b0 : Z) (m0 : bool) (u : Z) (e : effect) : Prop :=
  let f' := stored f (e_stores e) in
  (exists n' u', core (e_regs e) f' n' u' /\ tower f' b0 m0 (u' - n_depth n') (n_main n')) \/
  (m0 = false /\ u = b0 /\ f' = f /\ rS (e_regs e) = (S0 - (u - 2)) mod 256 /\
   rPC (e_regs e) = (word (f (stack (S0 - (u - 1)))) (f (stack (S0 - (u - 2)))) + 1) mod 65536).

Lemma quiet_onward r f n u b0 m0 e : core r f n u -> tower f b0 m0 (u - n_depth n) (n_main n) -> 0 <= b0 ->
  regs_ok (e_regs e) -> byte_valued (stored f (e_stores e)) -> Forall (fun w => stored_to f0 l (fst w)) (e_stores e) ->
  rS (e_regs e) = rS r -> goes_to l (n_main n) (rPC (e_regs e)) (n_depth n) (n_height n) = true ->
  Forall (fun w => ram (fst w)) (e_stores e) /\
  (forall i, stored f (e_stores e) (stack (S0 - i)) = f (stack (S0 - i))) /\ onward r f b0 m0 u e.
Proof.
  intros (Hr & Hf & En & ES & Hu & Hc) Ht Hb0 Hr' Hf' Hw ES' Hg.
  assert (K : forall i, stored f (e_stores e) (stack (S0 - i)) = f (stack (S0 - i))).
  { intros i. apply stored_other. intros Hin. apply in_map_iff in Hin as (w & Ew & Hin). pose proof (proj1 (Forall_forall _ _) Hw w Hin) as (n1 & mn & m & c & Hi & Hd & Hp).
    destruct (place_ok n1 mn m c _ Hi Hd Hp) as (_ & P1 & _). rewrite Ew in P1. pose proof (stack_range (S0 - i)). unfold page1 in P1. lia. }
  split. { apply Forall_forall. intros w Hin. pose proof (proj1 (Forall_forall _ _) Hw w Hin) as (n1 & mn & m & c & Hi & Hd & Hp).
    apply Hram. exact (proj1 (place_ok n1 mn m c _ Hi Hd Hp)). }
  split; [exact K|]. left. destruct (goes_note _ _ _ _ Hg) as (n' & En' & Ed & Hh & Em). exists n', u. split.
  - split; [exact Hr'|]. split; [exact Hf'|]. split; [exact En'|]. split; [congruence|]. split; [lia|]. apply changed_stores; assumption.
  - rewrite Ed, Em. apply tower_keeps with f; [exact Ht| |exact Hb0]. intros i _. apply K.
Qed.

Lemma mod_pc a k n : noted l (a + k) = Some n -> (a + k) mod 65536 = a + k.
Proof. intros E. apply note_bounds in E. apply Z.mod_small. lia. Qed.

Lemma goes_mod main a d h : goes_to l main a d h = true -> goes_to l main (a mod 65536) d h = true.
Proof.
  intros H. destruct (goes_note _ _ _ _ H) as (n & E & _). apply note_bounds in E. rewrite Z.mod_small by lia. exact H.
Qed.

(** Pushing one byte. *)
Lemma push_keeps f u v i : 0 <= u <= 255 -> 0 <= i < u -> store1 f (stack (S0 - u), v) (stack (S0 - i)) = f (stack (S0 - i)).
Proof.
  intros Hu Hi. unfold store1. cbn [fst snd]. pose proof (stack_differs S0 i u ltac:(lia) ltac:(lia) ltac:(lia)) as N.
  replace (stack (S0 - i) =? stack (S0 - u)) with false by lia. reflexivity.
Qed.

Lemma stack_S r u k : rS r = (S0 - u) mod 256 -> stack (rS r + k) = stack (S0 - (u - k)).
Proof. intros ->. apply stack_mod. lia. Qed.

(** A call. *)
Lemma call_step r f n u m b1 b2 c e : core r f n u -> decode (f0 (n_at n)) = Some (Jsr, m, c) -> n_at n = rPC r ->
  shape Jsr m r f b1 b2 e -> successors_ok l Jsr m b1 b2 n = true -> regs_ok (e_regs e) -> byte_valued (stored f (e_stores e)) -> 0 <= u ->
  let f' := stored f (e_stores e) in
  Forall (fun w => ram (fst w)) (e_stores e) /\ (forall i, 0 <= i < u -> f' (stack (S0 - i)) = f (stack (S0 - i))) /\
  (exists n', core (e_regs e) f' n' (u + 2) /\ n_depth n' = 0 /\ n_main n' = false) /\
  (word (f' (stack (S0 - u - 1))) (f' (stack (S0 - u))) + 1) mod 65536 = rPC r + 3 /\
  (exists n1, noted l (rPC r + 3) = Some n1 /\ n_depth n1 = n_depth n /\ n_height n <= n_height n1 /\ n_main n1 = n_main n).
Proof.
  intros (Hr & Hf & En & ES & Hu & Hc) Ed Ha (Hs & Es & Ep) Hok Hr' Hf' Hu0 f'. cbn [successors_ok] in Hok. apply andb_prop in Hok as [H1 H2].
  destruct (goes_note _ _ _ _ H1) as (n' & En' & Ed' & Hh' & Em'). destruct (goes_note _ _ _ _ H2) as (n1 & En1 & Ed1 & Hh1 & Em1).
  pose proof (note_bounds _ _ En') as B'. pose proof (note_bounds _ _ En1) as B1. pose proof (note_bounds _ _ En) as Bn.
  assert (E1 : stack (rS r) = stack (S0 - u)). { pose proof (stack_S r u 0 ES) as E. rewrite Z.add_0_r in E. rewrite E. f_equal. lia. }
  assert (E2 : stack (rS r - 1) = stack (S0 - (u + 1))). { pose proof (stack_S r u (-1) ES) as E. replace (S0 - (u + 1)) with (S0 - (u - -1)) by lia. exact E. }
  rewrite E1, E2 in Hs. subst f'. rewrite Hs in *. cbn [stored fold_left] in *. set (hi := high ((rPC r + 2) mod 65536)) in *. set (lo := low ((rPC r + 2) mod 65536)) in *.
  assert (K : forall i, 0 <= i < u -> store1 (store1 f (stack (S0 - u), hi)) (stack (S0 - (u + 1)), lo) (stack (S0 - i)) = f (stack (S0 - i))).
  { intros i Hi. rewrite push_keeps by lia. apply push_keeps; lia. }
  split. { apply Forall_cons; [|apply Forall_cons; [|apply Forall_nil]]; apply Hram; apply page_one_ok. }
  split; [exact K|]. split.
  { exists n'. split; [|auto]. split; [exact Hr'|]. split; [exact Hf'|]. split; [rewrite Ep; exact En'|]. split; [rewrite Es, ES; lia|]. split; [lia|].
    apply changed_push with (h := n_height n'); [|lia|lia]. apply changed_push with (h := n_height n'); [exact Hc|lia|lia]. }
  split.
  { replace (S0 - u - 1) with (S0 - (u + 1)) by lia. rewrite (push_keeps _ (u + 1) lo u) by lia. unfold store1. cbn [fst snd]. rewrite !Z.eqb_refl.
    subst hi lo. rewrite Ha in *. unfold word, low, high. lia. }
  exists n1. rewrite <- Ha. auto.
Qed.

(** Pushes and pulls. *)
Lemma push_onward r f n u b0 m0 m e : core r f n u -> tower f b0 m0 (u - n_depth n) (n_main n) -> 0 <= b0 ->
  regs_ok (e_regs e) -> byte_valued (stored f (e_stores e)) ->
  (exists v, e_stores e = [(stack (rS r), v)]) /\ rS (e_regs e) = (rS r - 1) mod 256 /\ rPC (e_regs e) = (rPC r + 1) mod 65536 ->
  successors_ok l Pha m (f0 (n_at n + 1)) (f0 (n_at n + 2)) n = true -> n_at n = rPC r ->
  Forall (fun w => ram (fst w)) (e_stores e) /\
  (forall i, 0 <= i < b0 -> stored f (e_stores e) (stack (S0 - i)) = f (stack (S0 - i))) /\ onward r f b0 m0 u e.
Proof.
  intros (Hr & Hf & En & ES & Hu & Hc) Ht Hb0 Hr' Hf' ((v & Hs) & S2 & S3) Hok Ha. cbn [successors_ok] in Hok.
  pose proof (tower_low _ _ _ _ _ Ht) as Hlow. pose proof (note_bounds _ _ En) as Bn.
  pose proof (goes_mod _ _ _ _ Hok) as Hg. rewrite Ha in Hg. destruct (goes_note _ _ _ _ Hg) as (n' & En' & Ed' & Hh' & Em'). pose proof (note_bounds _ _ En') as B'.
  assert (E1 : stack (rS r) = stack (S0 - u)). { pose proof (stack_S r u 0 ES) as E. rewrite Z.add_0_r in E. rewrite E. f_equal. lia. }
  unfold onward. rewrite E1 in Hs. rewrite Hs in *. cbn [stored fold_left] in *.
  split. { apply Forall_cons; [|apply Forall_nil]. apply Hram. apply page_one_ok. }
  split; [intros i Hi; apply push_keeps; lia|]. left. exists n', (u + 1). split.
  - split; [exact Hr'|]. split; [exact Hf'|]. split; [rewrite S3; exact En'|]. split; [rewrite S2, ES; lia|]. split; [lia|].
    apply changed_push with (h := n_height n'); [exact Hc|lia|lia].
  - replace (u + 1 - n_depth n') with (u - n_depth n) by lia. rewrite Em'. apply tower_keeps with f; [exact Ht| |exact Hb0].
    intros i Hi. apply push_keeps; lia.
Qed.
Lemma pull_onward r f n u b0 m0 m e : core r f n u -> tower f b0 m0 (u - n_depth n) (n_main n) -> 0 <= b0 ->
  regs_ok (e_regs e) -> byte_valued (stored f (e_stores e)) ->
  e_stores e = [] /\ rS (e_regs e) = (rS r + 1) mod 256 /\ rPC (e_regs e) = (rPC r + 1) mod 65536 ->
  successors_ok l Pla m (f0 (n_at n + 1)) (f0 (n_at n + 2)) n = true -> n_at n = rPC r ->
  Forall (fun w => ram (fst w)) (e_stores e) /\
  (forall i, 0 <= i < b0 -> stored f (e_stores e) (stack (S0 - i)) = f (stack (S0 - i))) /\ onward r f b0 m0 u e.
Proof.
  intros (Hr & Hf & En & ES & Hu & Hc) Ht Hb0 Hr' Hf' (Hs & S2 & S3) Hok Ha. cbn [successors_ok] in Hok. apply andb_prop in Hok as [Hd Hok].
  pose proof (tower_low _ _ _ _ _ Ht) as Hlow. pose proof (note_bounds _ _ En) as Bn.
  pose proof (goes_mod _ _ _ _ Hok) as Hg. rewrite Ha in Hg. destruct (goes_note _ _ _ _ Hg) as (n' & En' & Ed' & Hh' & Em').
  unfold onward. rewrite Hs in *. cbn [stored fold_left] in *. split; [apply Forall_nil|]. split; [reflexivity|].
  left. exists n', (u - 1). split.
  - split; [exact Hr'|]. split; [exact Hf'|]. split; [rewrite S3; exact En'|]. split; [rewrite S2, ES; lia|]. split; [lia|exact Hc].
  - replace (u - 1 - n_depth n') with (u - n_depth n) by lia. rewrite Em'. exact Ht.
Qed.

(** Every instruction. *)
Lemma step_onward r f n u b0 m0 : core r f n u -> tower f b0 m0 (u - n_depth n) (n_main n) -> 0 <= b0 -> (m0 = false -> 2 <= b0) ->
  exists e, step p r f = Some e /\ Forall (fun w => ram (fst w)) (e_stores e) /\
    (forall i, 0 <= i < b0 -> stored f (e_stores e) (stack (S0 - i)) = f (stack (S0 - i))) /\ onward r f b0 m0 u e.
Proof.
  intros C Ht Hb0 Hm0. destruct (core_step r f n u C) as (mn & m & c & e & Ed & Est & Sh & Hs & Ha & Hin & Hr' & Hf' & _).
  pose proof (tower_low _ _ _ _ _ Ht) as Hlow. pose proof C as (Hr & Hf & En & ES & Hu & Hc). pose proof (note_bounds _ _ En) as Bn.
  exists e. split; [exact Est|].
  assert (Q : Forall (fun w => stored_to f0 l (fst w)) (e_stores e) -> rS (e_regs e) = rS r ->
    goes_to l (n_main n) (rPC (e_regs e)) (n_depth n) (n_height n) = true ->
    Forall (fun w => ram (fst w)) (e_stores e) /\
    (forall i, 0 <= i < b0 -> stored f (e_stores e) (stack (S0 - i)) = f (stack (S0 - i))) /\ onward r f b0 m0 u e).
  { intros Q1 Q2 Q3. destruct (quiet_onward r f n u b0 m0 e C Ht Hb0 Hr' Hf' Q1 Q2 Q3) as (A1 & A2 & A3). split; [exact A1|]. split; [|exact A3]. intros i _. apply A2. }
  destruct mn;
  (* the instructions that go on with the next one *)
  try (cbn [shape successors_ok] in Sh, Hs; destruct Sh as (S1 & S2 & S3); apply Q;
    [ apply Forall_forall; intros w Hw; exists n; eexists; exists m, c; split; [exact Hin|]; split; [exact Ed|]; exact (proj1 (Forall_forall _ _) S1 w Hw)
    | exact S2 | rewrite S3, <- Ha; apply goes_mod; exact Hs ]; fail);
  (* branches *)
  try (cbn [shape successors_ok] in Sh, Hs; destruct Sh as (S1 & S2 & S3); apply andb_prop in Hs as [Hs1 Hs2]; apply Q;
    [ rewrite S1; apply Forall_nil | exact S2 | rewrite <- Ha in S3; destruct S3 as [-> | ->]; [apply goes_mod; exact Hs1|exact Hs2] ]; fail).
  - (* JMP *)
    cbn [shape successors_ok] in Sh, Hs. destruct Sh as (S1 & S2 & S3). apply Q; [rewrite S1; apply Forall_nil|exact S2|rewrite S3; exact Hs].
  - (* JSR *)
    destruct (call_step r f n u m _ _ c e C Ed Ha Sh Hs Hr' Hf' ltac:(lia)) as (A1 & A2 & (n' & C' & D' & M') & A4 & (n1 & N1 & D1 & H1 & M1)).
    split; [exact A1|]. split; [intros i Hi; apply A2; lia|]. left. exists n', (u + 2). split; [exact C'|]. rewrite D', M', Z.sub_0_r.
    constructor 2 with n1; [rewrite A4; exact N1|rewrite A4; exists n, m, c; split; [exact Hin|split; [exact Ed|rewrite Ha; reflexivity]]|lia|]. rewrite D1, M1. apply tower_keeps with f; [exact Ht| |exact Hb0]. intros i Hi. apply A2. lia.
  - (* PHA *) exact (push_onward r f n u b0 m0 m e C Ht Hb0 Hr' Hf' Sh Hs Ha).
  - (* PHP *) exact (push_onward r f n u b0 m0 m e C Ht Hb0 Hr' Hf' Sh Hs Ha).
  - (* PLA *) exact (pull_onward r f n u b0 m0 m e C Ht Hb0 Hr' Hf' Sh Hs Ha).
  - (* PLP *) exact (pull_onward r f n u b0 m0 m e C Ht Hb0 Hr' Hf' Sh Hs Ha).
  - (* RTS *)
    cbn [shape successors_ok] in Sh, Hs. destruct Sh as (S1 & S2 & S3). apply andb_prop in Hs as [Hm Hd]. apply Bool.negb_true_iff in Hm.
    assert (D0 : n_depth n = 0) by lia. rewrite D0, Hm, Z.sub_0_r in Ht. unfold onward. rewrite S1 in *. cbn [stored fold_left] in *.
    split; [apply Forall_nil|]. split; [reflexivity|].
    rewrite (stack_S r u 1 ES), (stack_S r u 2 ES) in S3.
    assert (S2' : rS (e_regs e) = (S0 - (u - 2)) mod 256) by (rewrite S2, ES; lia).
    inversion Ht as [E0 Em|v n1 N1 Ac Hv Ht1 E0 Em].
    + right. split; [congruence|]. split; [congruence|]. split; [reflexivity|]. split; [exact S2'|exact S3].
    + left. assert (Eu : u - 2 = v) by lia. exists n1, v. split.
      * split; [exact Hr'|]. split; [exact Hf'|]. split.
        { rewrite S3. replace (S0 - (u - 1)) with (S0 - v - 1) by lia. rewrite Eu. exact N1. }
        split; [rewrite S2', Eu; reflexivity|]. split; [|exact Hc]. pose proof (tower_low _ _ _ _ _ Ht1). lia.
      * exact Ht1.
Qed.

(** An RTS leads to the place after a call. *)
Lemma return_target r f n u m c e : core r f n u -> tower f 0 true (u - n_depth n) (n_main n) -> decode (f0 (n_at n)) = Some (Rts, m, c) ->
  step p r f = Some e -> after_call (rPC (e_regs e)).
Proof.
  intros C Ht Ed Est. destruct (core_step r f n u C) as (mn & m' & c' & e' & Ed' & Est' & Sh & Hs & Ha & _). rewrite Ed in Ed'. injection Ed' as <- <- <-.
  rewrite Est in Est'. injection Est' as <-. destruct C as (Hr & Hf & En & ES & Hu & Hc).
  cbn [shape successors_ok] in Sh, Hs. destruct Sh as (S1 & S2 & S3). apply andb_prop in Hs as [Hm Hd]. apply Bool.negb_true_iff in Hm.
  assert (D0 : n_depth n = 0) by lia. rewrite D0, Hm, Z.sub_0_r in Ht. rewrite (stack_S r u 1 ES), (stack_S r u 2 ES) in S3.
  inversion Ht as [|v n1 N1 Ac Hv Ht1 E0 Em].
  replace (S0 - (u - 1)) with (S0 - v - 1) in S3 by lia. assert (Eu : u - 2 = v) by lia. rewrite Eu in S3. rewrite S3. exact Ac.
Qed.

(** ** Many instructions *)
Lemma run_checked k : forall r f n u, core r f n u -> tower f 0 true (u - n_depth n) (n_main n) ->
  exists t r' f' n' u', exec p ram k t r f r' f' /\ core r' f' n' u' /\ tower f' 0 true (u' - n_depth n') (n_main n').
Proof.
  induction k as [|k IH]; intros r f n u C Ht.
  - exists 0%nat, r, f, n, u. split; [constructor|]. auto.
  - destruct (step_onward r f n u 0 true C Ht ltac:(lia) ltac:(discriminate)) as (e & Es & Hw & _ & [(n1 & u1 & C1 & T1)|(K & _)]); [|discriminate K].
    destruct (IH _ _ _ _ C1 T1) as (t & r' & f' & n' & u' & X & C' & T'). exists (e_cycles e + t)%nat, r', f', n', u'. split; [|auto].
    econstructor; eassumption.
Qed.

(** Inside a call: [v] bytes were in use before it. *)
Lemma run_inside v k : 0 <= v -> forall r f n u, core r f n u -> tower f (v + 2) false (u - n_depth n) (n_main n) ->
  (exists t r' f' n' u', exec p ram k t r f r' f' /\ core r' f' n' u' /\ v + 2 <= u') \/
  (exists i t r' f', (0 < i <= k)%nat /\ exec p ram i t r f r' f' /\ rS r' = (S0 - v) mod 256 /\
    rPC r' = (word (f (stack (S0 - v - 1))) (f (stack (S0 - v))) + 1) mod 65536 /\
    forall i, 0 <= i < v + 2 -> f' (stack (S0 - i)) = f (stack (S0 - i))).
Proof.
  intros Hv. induction k as [|k IH]; intros r f n u C Ht.
  - left. exists 0%nat, r, f, n, u. split; [constructor|]. split; [exact C|]. apply tower_low in Ht. pose proof C as (_ & _ & En & _). apply note_bounds in En. lia.
  - destruct (step_onward r f n u (v + 2) false C Ht ltac:(lia) ltac:(lia)) as (e & Es & Hw & Hk & [(n1 & u1 & C1 & T1)|(_ & Eu & Ef & E1 & E2)]).
    + destruct (IH _ _ _ _ C1 T1) as [(t & r' & f' & n' & u' & X & C' & L')|(i & t & r' & f' & Hi & X & F1 & F2 & F3)].
      * left. exists (e_cycles e + t)%nat, r', f', n', u'. split; [econstructor; eassumption|auto].
      * right. exists (S i), (e_cycles e + t)%nat, r', f'. split; [lia|]. split; [econstructor; eassumption|]. split; [exact F1|]. split.
        -- pose proof (Hk (v + 1) ltac:(lia)) as K1. replace (S0 - (v + 1)) with (S0 - v - 1) in K1 by lia. rewrite F2, K1, (Hk v ltac:(lia)). reflexivity.
        -- intros j Hj. rewrite F3, Hk by lia. reflexivity.
    + right. exists 1%nat, (e_cycles e + 0)%nat, (e_regs e), (stored f (e_stores e)). split; [lia|]. split; [econstructor; [exact Es|exact Hw|constructor]|].
      split; [rewrite E1; f_equal; lia|]. split; [|exact Hk]. rewrite E2. replace (S0 - (u - 1)) with (S0 - v - 1) by lia. replace (u - 2) with v by lia. reflexivity.
Qed.
End Invariant.
