(** From walks (ProofTalk.v) to the emulator on the bus. *)
From Verif Require Import Base Arith ModelMap ModelRegs6502 ModelIsa6502 ModelStep ModelCpu6502 ModelOperand ModelBus Link6502 Spec6502 SpecProgram ProofProgram SpecRoutines ProofRoutines
  SpecBus ProofBus ProofBusStep ProofBusRun PropertiesBus SpecLanguage ProofLanguage SpecProcedures ProofProcedures PropertiesProcedures SpecTalk ProofTalk ProofTalkCode.

(** A store to an address makes any earlier one to it invisible. *)
Lemma stored_one l q : (forall f, stored f l q = f q) \/ exists v, forall f, stored f l q = v.
Proof.
  induction l as [|[a v] l IH]; [left; reflexivity|]. destruct IH as [IH|[w IH]].
  - destruct (Z.eq_dec q a) as [->|N].
    + right. exists v. intros f. change (stored f ((a, v) :: l) a) with (stored (store1 f (a, v)) l a). rewrite IH. apply store1_same.
    + left. intros f. change (stored f ((a, v) :: l) q) with (stored (store1 f (a, v)) l q). rewrite IH. apply store1_other. exact N.
  - right. exists w. intros f. change (stored f ((a, v) :: l) q) with (stored (store1 f (a, v)) l q). apply IH.
Qed.
Lemma stored_twice f l q : stored (stored f l) l q = stored f l q.
Proof. destruct (stored_one l q) as [H|[v H]]; rewrite H; [reflexivity|]. rewrite H. reflexivity. Qed.

Section Run.
Context {BS T : Type} (b : bus BS) (dev : device T) (port : Z -> bool) (ram : Z -> Prop) (view : BS -> (Z -> Z) -> T -> Prop).
Context (Hb : talking b dev port ram view) (Hby : byte_bus b) (p : profile) (lo hi : Z).
Notation go := (walks b dev port ram view p).

Lemma stores_seen l : forall s f u, stores_ok l -> Forall (fun w => ram (fst w) /\ port (fst w) = false) l -> view s f u ->
  exists s', bus_store_all b l s = Ok (tt, s') /\ view s' (stored f l) u.
Proof.
  induction l as [|[a v] l IH]; intros s f u K F V; [exists s; split; [reflexivity|exact V]|].
  inversion K as [|? ? [Ua Uv] K']; subst. inversion F as [|? ? [Ra Pa] F']; subst. cbn [fst snd] in *.
  destruct (t_write _ _ _ _ _ Hb s f u a v V Ua Pa Ra Uv) as (s1 & E1 & V1).
  destruct (IH s1 (set f a v) u K' F' V1) as (s2 & E2 & V2). exists s2. split; [|exact V2].
  cbn [bus_store_all]. unfold after, tell. rewrite E1. exact E2.
Qed.
Lemma sent s f u a v : u16 a -> u8 v -> port a = true -> view s f u -> exists s', bus_store_all b [(a, v)] s = Ok (tt, s') /\ view s' f (d_put dev u a v).
Proof.
  intros Ua Uv Pa V. destruct (t_put _ _ _ _ _ Hb s f u a v V Ua Pa Uv) as (s1 & E1 & V1). exists s1. split; [|exact V1].
  cbn [bus_store_all]. unfold after, tell. rewrite E1. reflexivity.
Qed.
Lemma next_is (cpu : core) s e s1 s2 : regs_ok (regs_of cpu) -> bus_effect b p (regs_of cpu) s = Ok (e, s1) -> bus_store_all b (e_stores e) s1 = Ok (tt, s2) ->
  exists m cpu', next_bus b p (cpu, s) = Ok (m, (cpu', s2)) /\ ops_cycles m = e_cycles e /\ regs_of cpu' = e_regs e /\ (1 <= e_cycles e)%nat.
Proof.
  intros Hr Ee Es. pose proof (next_bus_spec b Hby p cpu s Hr) as E. unfold bus_step, after in E. rewrite Ee, Es in E.
  destruct (next_bus b p (cpu, s)) as [[m [cpu' s']]|] eqn:En; cbn [bind] in E; [|discriminate].
  injection E as E1 E2 E3. subst s'. exists m, cpu'. split; [reflexivity|]. split; [exact E1|]. split; [exact E2|]. rewrite <- E1.
  unfold next_bus in En. destruct (answer b (generate_next p cpu) s) as [[mo sx]|]; cbn [bind] in En; [|discriminate].
  destruct (operations_into_cycles mo) as [cs|] eqn:Ec; cbn [bind] in En; [|discriminate].
  destruct (foldM (execute_bus b p) (concat cs) (cpu, sx)); cbn [bind] in En; [|discriminate].
  injection En as <- _. unfold operations_into_cycles in Ec. destruct (ops_cycles mo); [discriminate|lia].
Qed.

(** The instructions one by one. *)
Lemma walks_iterate k n r f u r' f' u' l : go 1 lo hi k n r f u r' f' u' l -> forall (cpu : core) s, regs_of cpu = r -> regs_ok r -> view s f u ->
  exists ms cpu' s', iterate_bus b p k (cpu, s) = Ok (ms, (cpu', s')) /\ list_sum (map ops_cycles ms) = n /\ regs_of cpu' = r' /\ view s' f' u'.
Proof.
  induction 1 as [r f u|k n r f u e u1 r' f' u' l Hp E F X IH|k n r f u e a v r' f' u' l Hp E F Pa X IH]; intros cpu s Er Hr V.
  - exists [], cpu, s. repeat (split; [reflexivity || exact Er|]). exact V.
  - destruct (E s V) as (s1 & Ee & V1). destruct (bus_effect_ok b Hby p _ _ _ _ Hr Ee) as [Hr' Hst]. destruct (stores_seen _ s1 f u1 Hst F V1) as (s2 & Es & V2).
    rewrite <- Er in Hr, Ee. destruct (next_is cpu s e s1 s2 Hr Ee Es) as (m & cpu1 & En & Ec & E1 & _).
    destruct (IH cpu1 s2 E1 Hr' V2) as (ms & cpu' & s' & Ei & El & R & V'). exists (m :: ms), cpu', s'. cbn [iterate_bus]. rewrite En. cbn [bind]. rewrite Ei. cbn [bind].
    split; [reflexivity|]. split; [cbn [map]; change (list_sum (?x :: ?y)) with (x + list_sum y)%nat; lia|split; assumption].
  - destruct (E s V) as (s1 & Ee & V1). destruct (bus_effect_ok b Hby p _ _ _ _ Hr Ee) as [Hr' Hst]. rewrite F in Hst. inversion Hst as [|? ? [Ua Uv] _]; subst. cbn [fst snd] in *.
    destruct (sent s1 f u a v Ua Uv Pa V1) as (s2 & Es & V2). rewrite <- F in Es.
    destruct (next_is cpu s e s1 s2 Hr Ee Es) as (m & cpu1 & En & Ec & E1 & _).
    destruct (IH cpu1 s2 E1 Hr') as (ms & cpu' & s' & Ei & El & R & V'); [unfold dev_after; rewrite Pa; exact V2|].
    exists (m :: ms), cpu', s'. cbn [iterate_bus]. rewrite En. cbn [bind]. rewrite Ei. cbn [bind].
    split; [reflexivity|]. split; [cbn [map]; change (list_sum (?x :: ?y)) with (x + list_sum y)%nat; lia|split; assumption].
Qed.

(** A call of [run]. *)
Lemma effect_time r s e s1 s2 : regs_ok r -> bus_effect b p r s = Ok (e, s1) -> bus_store_all b (e_stores e) s1 = Ok (tt, s2) -> (1 <= e_cycles e)%nat.
Proof.
  intros Hr Ee Es. destruct (next_is (cpu_with r []) s e s1 s2) as (_ & _ & _ & _ & _ & H); [| | |exact H].
  - destruct r; exact Hr.
  - replace (regs_of (cpu_with r [])) with r by (destruct r; reflexivity). exact Ee.
  - exact Es.
Qed.
Lemma stores_seen_twice l s f u : stores_ok l -> Forall (fun w => ram (fst w) /\ port (fst w) = false) l -> view s f u ->
  exists s1 s2, bus_store_all b l s = Ok (tt, s1) /\ view s1 (stored f l) u /\ bus_store_all b l s1 = Ok (tt, s2) /\ view s2 (stored f l) u.
Proof.
  intros K F V. destruct (stores_seen l s f u K F V) as (s1 & E1 & V1). destruct (stores_seen l s1 _ u K F V1) as (s2 & E2 & V2).
  exists s1, s2. split; [exact E1|]. split; [exact V1|]. split; [exact E2|]. apply (t_same _ _ _ _ _ Hb _ _ _ _ V2). intros a _ _. symmetry. apply stored_twice.
Qed.
Lemma walks_run k n r f u r' f' u' l : go 2 lo hi k n r f u r' f' u' l -> forall s, regs_ok r -> view s f u ->
  (k <= n)%nat /\ forall fuel, (n <= fuel)%nat -> exists s', bus_run b p fuel n r s = Ok (r', s') /\ view s' f' u'.
Proof.
  induction 1 as [r f u|k n r f u e u1 r' f' u' l Hp E F X IH|k n r f u e a v r' f' u' l Hp E F Pa X IH]; intros s Hr V.
  - split; [lia|]. intros fuel _. exists s. split; [destruct fuel; reflexivity|exact V].
  - destruct (E s V) as (s1 & Ee & V1). destruct (bus_effect_ok b Hby p _ _ _ _ Hr Ee) as [Hr' Hst].
    destruct (stores_seen_twice _ s1 f u1 Hst F V1) as (s2 & s3 & E2 & V2 & E3 & V3). pose proof (effect_time r s e s1 s2 Hr Ee E2) as Hc.
    destruct (IH s3 Hr' V3) as [Hk G]. split; [lia|]. intros fuel Hf. destruct fuel as [|fuel]; [lia|]. destruct (G fuel ltac:(lia)) as (s' & Er & V').
    exists s'. split; [|exact V']. cbn [bus_run]. destruct (e_cycles e + n)%nat as [|m] eqn:Em; [lia|]. unfold after. rewrite Ee, E2.
    replace (Nat.ltb (S m) (e_cycles e)) with false by (symmetry; apply Nat.ltb_ge; lia). rewrite E3. replace (S m - e_cycles e)%nat with n by lia. exact Er.
  - destruct (E s V) as (s1 & Ee & V1). destruct (bus_effect_ok b Hby p _ _ _ _ Hr Ee) as [Hr' Hst]. pose proof Hst as Hst'. rewrite F in Hst. inversion Hst as [|? ? [Ua Uv] _]; subst. cbn [fst snd] in *.
    destruct (sent s1 f u a v Ua Uv Pa V1) as (s2 & E2 & V2). destruct (sent s2 f _ a v Ua Uv Pa V2) as (s3 & E3 & V3). rewrite <- F in E2, E3. pose proof (effect_time r s e s1 s2 Hr Ee E2) as Hc.
    destruct (IH s3 Hr') as [Hk G]; [unfold dev_after; rewrite Pa; exact V3|]. split; [lia|]. intros fuel Hf. destruct fuel as [|fuel]; [lia|]. destruct (G fuel ltac:(lia)) as (s' & Er & V').
    exists s'. split; [|exact V']. cbn [bus_run]. destruct (e_cycles e + n)%nat as [|m] eqn:Em; [lia|]. unfold after. rewrite Ee, E2.
    replace (Nat.ltb (S m) (e_cycles e)) with false by (symmetry; apply Nat.ltb_ge; lia). rewrite E3. replace (S m - e_cycles e)%nat with n by lia. exact Er.
Qed.

(** A run that stops anywhere: between two instructions, or within one, when its
    reads and the first of its two stores have been made. *)
Lemma walks_head k n r f u r' f' u' l rep : go rep lo hi k n r f u r' f' u' l -> exists l1, l ++ [u'] = u :: l1.
Proof. destruct 1; eexists; reflexivity. Qed.
Lemma walks_partway (D : T -> Prop) k n r f u r' f' u' l : go 2 lo hi k n r f u r' f' u' l -> Forall D (l ++ [u']) -> forall s m fuel, regs_ok r -> view s f u -> (m <= n)%nat -> (m <= fuel)%nat ->
  exists r1 s1 f1 u1, bus_run b p fuel m r s = Ok (r1, s1) /\ view s1 f1 u1 /\ halfway dev port D u1.
Proof.
  induction 1 as [r f u|k n r f u e u1 r' f' u' l Hp E F X IH|k n r f u e a v r' f' u' l Hp E F Pa X IH]; intros HD s m fuel Hr V Hm Hf.
  - replace m with 0%nat by lia. exists r, s, f, u. split; [destruct fuel; reflexivity|]. split; [exact V|]. left. inversion HD; assumption.
  - cbn [app] in HD. inversion HD as [|? ? D0 HD']; subst.
    destruct m as [|m]; [exists r, s, f, u; split; [destruct fuel; reflexivity|split; [exact V|left; exact D0]]|]. destruct fuel as [|fuel]; [lia|].
    destruct (E s V) as (s1 & Ee & V1). destruct (bus_effect_ok b Hby p _ _ _ _ Hr Ee) as [Hr' Hst].
    destruct (stores_seen_twice _ s1 f u1 Hst F V1) as (s2 & s3 & E2 & V2 & E3 & V3). pose proof (effect_time r s e s1 s2 Hr Ee E2) as Hc.
    cbn [bus_run]. unfold after. rewrite Ee, E2. destruct (Nat.ltb_spec (S m) (e_cycles e)) as [Hlt|Hge].
    + exists r, s2, (stored f (e_stores e)), u1. split; [reflexivity|]. split; [exact V2|]. left. destruct (walks_head _ _ _ _ _ _ _ _ _ _ X) as (l1 & El). rewrite El in HD'. inversion HD'; assumption.
    + rewrite E3. apply (IH HD' s3 (S m - e_cycles e)%nat fuel Hr' V3); lia.
  - cbn [app] in HD. inversion HD as [|? ? D0 HD']; subst.
    destruct m as [|m]; [exists r, s, f, u; split; [destruct fuel; reflexivity|split; [exact V|left; exact D0]]|]. destruct fuel as [|fuel]; [lia|].
    destruct (E s V) as (s1 & Ee & V1). destruct (bus_effect_ok b Hby p _ _ _ _ Hr Ee) as [Hr' Hst]. pose proof Hst as Hst'. rewrite F in Hst. inversion Hst as [|? ? [Ua Uv] _]; subst. cbn [fst snd] in *.
    destruct (sent s1 f u a v Ua Uv Pa V1) as (s2 & E2 & V2). destruct (sent s2 f _ a v Ua Uv Pa V2) as (s3 & E3 & V3). rewrite <- F in E2, E3. pose proof (effect_time r s e s1 s2 Hr Ee E2) as Hc.
    cbn [bus_run]. unfold after. rewrite Ee, E2. destruct (Nat.ltb_spec (S m) (e_cycles e)) as [Hlt|Hge].
    + exists r, s2, f, (d_put dev u a v). split; [reflexivity|]. split; [exact V2|]. right. exists a, v, u. split; [exact Pa|]. split; [exact D0|]. split; [reflexivity|].
      destruct (walks_head _ _ _ _ _ _ _ _ _ _ X) as (l1 & El). rewrite El in HD'. unfold dev_after in HD'. rewrite Pa in HD'. inversion HD'; assumption.
    + rewrite E3. apply (IH HD' s3 (S m - e_cycles e)%nat fuel Hr'); [unfold dev_after; rewrite Pa; exact V3|lia|lia].
Qed.
End Run.

(** A program in its place. *)
Section Programs.
Context (port : Z -> bool) (ram : Z -> Prop) (A X Y S L : Z) (P : processor_status) (f : Z -> Z) (t : Z) (procs : list stmt) (main : stmt).
Notation at_ := (place (L + 3) procs).
Notation both := (fun q => ram q \/ port q = true).
Lemma talks : about_to_talk port ram (mkRegs A X Y S L P) f t L procs main ->
  let hi := L + len (image t L procs main) in
  0 <= L /\ hi <= 0xfffe /\ ~ page_one t /\ (forall q, L <= q < hi + 2 -> port q = false) /\
  (forall q, scratch t q -> u16 q /\ (ram q /\ port q = false) /\ ~ (L <= q < hi)) /\ state_ok t L hi f f f /\ 0 <= S < 256 /\
  ProofProcedures.settled both t L hi f procs at_ (entry L procs) main /\
  (forall k body, nth_error procs k = Some body ->
    ProofProcedures.settled both t L hi f procs at_ (at_ k) body /\ f (at_ k + size body) = 0x60 /\ at_ k + size body + 1 <= hi) /\
  bytes_from f L [0x4c; low (entry L procs); high (entry L procs)] /\ L + 3 <= hi.
Proof.
  intros (Hr & _ & By & B & H0 & HL & Hp & Hq & (Ht & Hv) & G) hi. inversion G as [|? ? Gm Gp]; subst.
  pose proof (image_len L t procs main) as El. fold hi in El. pose proof (size_nonneg main) as Sm.
  unfold image in B. cbv zeta in B. apply bytes_from_app in B. destruct B as [Bj B]. cbn [length] in B. replace (L + Z.of_nat 3) with (L + 3) in B by lia.
  apply bytes_from_app in B. destruct B as [Bp Bm]. fold (len (emit_all at_ t (L + 3) procs)) in Bm.
  pose proof (emit_all_entry at_ t procs (L + 3)) as Ee. fold (entry L procs) in Ee. rewrite Ee in Bm.
  pose proof (len_nonneg (emit_all at_ t (L + 3) procs)) as Hn.
  split; [exact H0|]. split; [exact HL|]. split; [exact Ht|]. split; [exact Hp|].
  split; [intros q Hs; destruct (Hv q Hs) as (U & R & N); split; [exact U|]; split; [split; [exact R|exact (Hq q Hs)]|exact N]|].
  split; [split; [intros q _; reflexivity|]; split; [intros q _; reflexivity|exact By]|].
  split; [destruct Hr as (_ & _ & _ & K & _); exact K|].
  split; [|split; [|split; [exact Bj|lia]]].
  - split; [exact Bm|]. split; [lia|]. split; [lia|exact Gm].
  - intros k body Ek. destruct (procs_placed at_ t f procs (L + 3) Bp k body Ek) as (K1 & K2 & K3 & K4).
    split; [|split; [exact K2|lia]]. split; [exact K1|]. split; [lia|]. split; [lia|].
    rewrite Forall_forall in Gp. exact (Gp body (nth_error_In _ _ Ek)).
Qed.
End Programs.
