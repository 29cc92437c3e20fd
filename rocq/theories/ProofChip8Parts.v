(** Proofs about the CHIP-8 parts: u12, ring memory, display, sprites, timers. *)
From Verif Require Import Base Arith ModelMap ModelU12 ModelDisplay ModelChip8 ModelOpsChip8 ModelRunChip8.
From Verif Require Import SpecMap Link6502 SpecChip8 SpecChip8Parts ProofDecode8 ProofChip8 ProofChip8Step.

(** ** Decoding *)

Lemma documented_all : forallb (fun b0 => forallb (fun b1 =>
    match decode_bytes_to_opcode [b0; b1] with
    | Ok None => undocumented (256 * b0 + b1)
    | Ok (Some _) => negb (undocumented (256 * b0 + b1))
    | Panic => false
    end) bytes) bytes = true.
Proof. vm_compute. reflexivity. Qed.

Lemma decode_cases b0 b1 : u8 b0 -> u8 b1 ->
  if undocumented (256 * b0 + b1) then decode_bytes_to_opcode [b0; b1] = Ok None
  else exists op, decode_bytes_to_opcode [b0; b1] = Ok (Some op).
Proof.
  intros H0 H1.
  pose proof (u8_sweep2 (fun b0 b1 =>
    match decode_bytes_to_opcode [b0; b1] with
    | Ok None => undocumented (256 * b0 + b1)
    | Ok (Some _) => negb (undocumented (256 * b0 + b1))
    | Panic => false
    end) documented_all b0 b1 H0 H1) as K. cbv beta in K.
  destruct (decode_bytes_to_opcode [b0; b1]) as [[op|]|]; [| |discriminate].
  - destruct (undocumented _); [discriminate|]. exists op. reflexivity.
  - rewrite K. reflexivity.
Qed.

(** A machine about to execute an undocumented word panics. *)
Lemma step_undocumented e p c w word : well_formed c -> fetches p c word -> undocumented word = true ->
  step e p c w = Panic.
Proof.
  intros W [Hpc Hw] Hu. unfold step, next. pose proof (wf_pc c W) as Hp. unfold u16 in Hp.
  rewrite (read_mem p c _ W). cbn [bind].
  assert (E : add_u16 p (c8_pc c) 1 = Ok ((c8_pc c + 1) mod 65536)).
  { unfold add_u16, checked. destruct (_ && _) eqn:E; [f_equal; lia|].
    destruct p; [|reflexivity]. destruct Hpc as [Hpc|Hpc]; [discriminate|]. cbn [observe] in Hpc. lia. }
  rewrite E. cbn [bind]. rewrite (read_mem p c _ W). cbn [bind].
  pose proof (decode_cases (observe c (PMem (c8_pc c))) (observe c (PMem ((c8_pc c + 1) mod 65536)))
    (observe_mem_u8 c _ W) (observe_mem_u8 c _ W)) as K.
  change (c8_pc c) with (observe c PPC) in *. rewrite <- Hw, Hu in K. rewrite K. reflexivity.
Qed.

(** ** u12 *)

Lemma u16_mask_mod v : u16_mask v = v mod 4096.
Proof. unfold u16_mask, u12_max. change 0xFFF with (Z.ones 12). apply Z.land_ones. lia. Qed.
Lemma u12_mask_mod v : u12_mask v = Ok (v mod 4096).
Proof. unfold u12_mask, u12_new, u12_max. rewrite u16_mask_mod. replace (0xFFF <? v mod 4096) with false by lia. reflexivity. Qed.

(** ** Ring memory *)

Lemma list_upd_length {A} (l : list A) n v : length (list_upd l n v) = length l.
Proof. revert n. induction l as [|a l IH]; intros [|n]; cbn [list_upd length]; auto. Qed.
Lemma nth_error_list_upd {A} (l : list A) n v k :
  nth_error (list_upd l n v) k = if (k =? n)%nat && (n <? length l)%nat then Some v else nth_error l k.
Proof.
  revert n k. induction l as [|a l IH]; intros n k; cbn [list_upd length].
  - rewrite Bool.andb_false_r. destruct n, k; reflexivity.
  - destruct n, k; cbn [nth_error]; try reflexivity. rewrite IH. reflexivity.
Qed.

Definition ring_like (n : nat) (r : ring) (f : Z -> Z) : Prop :=
  ring_capacity r = Z.of_nat n /\ length (ring_inner r) = n /\
  forall o, 0 <= o -> ring_read r o = Ok (f o).

Lemma ring_like_new n : (0 < n)%nat -> ring_like n (ring_new n) (fun _ => 0).
Proof.
  intros Hn. unfold ring_like, ring_new. cbn [ring_capacity ring_inner]. rewrite repeat_length.
  repeat split. intros o Ho. unfold ring_read, ring_offset. cbn [ring_capacity ring_inner].
  replace (Z.of_nat n =? 0) with false by lia. cbn [bind].
  rewrite nth_error_repeat; [reflexivity|]. pose proof (Z.mod_pos_bound o (Z.of_nat n)). lia.
Qed.

Lemma ring_like_write n r f o v : (0 < n)%nat -> 0 <= o -> ring_like n r f ->
  exists r', ring_write r o v = Ok (r', WOk v) /\
    ring_like n r' (fun o' => if o mod Z.of_nat n =? o' mod Z.of_nat n then v else f o').
Proof.
  intros Hn Ho (Hc & Hl & Hr). unfold ring_write, ring_offset. rewrite Hc, Hl.
  replace (Z.of_nat n =? 0) with false by lia. cbn [bind].
  pose proof (Z.mod_pos_bound o (Z.of_nat n) ltac:(lia)) as Hm.
  replace (o mod Z.of_nat n <? Z.of_nat n) with true by lia. eexists. split; [reflexivity|].
  split; [reflexivity|]. cbn [ring_inner]. split; [rewrite list_upd_length; exact Hl|].
  intros o' Ho'. unfold ring_read, ring_offset. cbn [ring_capacity ring_inner].
  replace (Z.of_nat n =? 0) with false by lia. cbn [bind].
  pose proof (Z.mod_pos_bound o' (Z.of_nat n) ltac:(lia)) as Hm'.
  rewrite nth_error_list_upd, Hl.
  replace (Z.to_nat (o mod Z.of_nat n) <? n)%nat with true by lia. rewrite Bool.andb_true_r.
  specialize (Hr o' Ho'). unfold ring_read, ring_offset in Hr. rewrite Hc in Hr.
  replace (Z.of_nat n =? 0) with false in Hr by lia. cbn [bind] in Hr.
  destruct (Z.eqb_spec (o mod Z.of_nat n) (o' mod Z.of_nat n)) as [E|E].
  - rewrite E, Nat.eqb_refl. reflexivity.
  - replace (Z.to_nat (o' mod Z.of_nat n) =? Z.to_nat (o mod Z.of_nat n))%nat with false by lia. exact Hr.
Qed.

(** ** Display *)

Lemma lit_row d y row x : nth_error d (Z.to_nat y) = Some row -> 0 <= y -> lit d x y = item row x false.
Proof. intros E Hy. unfold lit, item at 2. replace (y <? 0) with false by lia. rewrite (nth_error_nth d (Z.to_nat y) [] E). reflexivity. Qed.

Lemma lit_off d x y : display_ok d -> on_screen x y = false -> lit d x y = false.
Proof.
  intros [L F] H. unfold on_screen in H. unfold lit.
  destruct (Z.ltb_spec y 0) as [Hy|Hy].
  { rewrite (item_out d y) by lia. unfold item. destruct (x <? 0); [reflexivity|]. destruct (Z.to_nat x); reflexivity. }
  destruct (Z.ltb_spec y 32) as [Hy'|Hy'].
  - assert (Hi : In (item d y []) d) by (apply item_In; lia).
    rewrite Forall_forall in F. specialize (F _ Hi). apply item_out. lia.
  - rewrite (item_out d y) by lia. unfold item. destruct (x <? 0); [reflexivity|]. destruct (Z.to_nat x); reflexivity.
Qed.

Lemma pixel_spec d x y : display_ok d -> 0 <= x -> 0 <= y ->
  display_pixel d x y = Ok (if on_screen x y then Some (lit d x y) else None).
Proof.
  intros [L F] Hx Hy. unfold display_pixel, is_within_display_boundary, on_screen, X_MAX, Y_MAX.
  replace ((0 <=? x) && (x <? 64) && (0 <=? y) && (y <? 32)) with ((x <? 64) && (y <? 32)) by lia.
  destruct ((x <? 64) && (y <? 32)) eqn:E; [|reflexivity].
  rewrite (vec_get_item d y []) by lia. cbn [bind].
  assert (Hi : In (item d y []) d) by (apply item_In; lia).
  rewrite Forall_forall in F. specialize (F _ Hi).
  rewrite (vec_get_item (item d y []) x false) by lia. reflexivity.
Qed.

Lemma item_list_upd {A} (l : list A) i v k (d : A) : 0 <= i < Z.of_nat (length l) ->
  item (list_upd l (Z.to_nat i) v) k d = if k =? i then v else item l k d.
Proof.
  intros Hi. unfold item. destruct (Z.ltb_spec k 0) as [Hk|Hk].
  { replace (k =? i) with false by lia. reflexivity. }
  assert (E : nth_error (list_upd l (Z.to_nat i) v) (Z.to_nat k) = if k =? i then Some v else nth_error l (Z.to_nat k)).
  { rewrite nth_error_list_upd. replace (Z.to_nat i <? length l)%nat with true by lia. rewrite Bool.andb_true_r.
    replace (Z.to_nat k =? Z.to_nat i)%nat with (k =? i) by lia. reflexivity. }
  destruct (k =? i).
  - apply nth_error_nth with (d := d) in E. exact E.
  - destruct (nth_error l (Z.to_nat k)) as [a|] eqn:E'.
    + apply nth_error_nth with (d := d) in E. apply nth_error_nth with (d := d) in E'. congruence.
    + apply nth_error_None in E, E'. rewrite !nth_overflow by assumption. reflexivity.
Qed.

Lemma write_pixel_spec d x y on : display_ok d -> 0 <= x -> 0 <= y ->
  exists d', write_pixel_mut d x y on = Ok (d', if on_screen x y then Some (lit d x y) else None) /\
    display_ok d' /\ shows d' (painted d x y on).
Proof.
  intros D Hx Hy. unfold write_pixel_mut. rewrite (pixel_spec d x y D Hx Hy). cbn [bind].
  destruct (on_screen x y) eqn:Eo.
  2:{ exists d. split; [reflexivity|]. split; [exact D|]. intros x' y'. unfold painted. rewrite Eo, Bool.andb_false_r. reflexivity. }
  pose proof Eo as Eo'. unfold on_screen in Eo'. destruct D as [L F]. rewrite (vec_get_item d y []) by lia. cbn [bind].
  assert (Hi : In (item d y []) d) by (apply item_In; lia).
  pose proof F as F'. rewrite Forall_forall in F'. specialize (F' _ Hi).
  unfold vec_set at 1. replace ((0 <=? x) && (x <? Z.of_nat (length (item d y [])))) with true by lia. cbn [bind].
  unfold vec_set. replace ((0 <=? y) && (y <? Z.of_nat (length d))) with true by lia. cbn [bind].
  eexists. split; [reflexivity|]. split.
  - split; [rewrite list_upd_length; exact L|]. apply Forall_forall. intros row Hrow.
    apply In_nth_error in Hrow as (k & Hk). rewrite nth_error_list_upd in Hk.
    destruct ((k =? Z.to_nat y)%nat && (Z.to_nat y <? length d)%nat).
    + injection Hk as <-. rewrite list_upd_length. exact F'.
    + apply nth_error_In in Hk. rewrite Forall_forall in F. exact (F _ Hk).
  - intros x' y'. unfold painted, lit. rewrite Eo, Bool.andb_true_r. rewrite (item_list_upd d) by lia.
    destruct (Z.eqb_spec y' y) as [->|Ny].
    + rewrite (item_list_upd (item d y [])) by lia. rewrite Bool.andb_true_r. reflexivity.
    + rewrite Bool.andb_false_r. reflexivity.
Qed.

(** ** Sprites *)

Lemma sprite_bit_testbit row dx : 0 <= dx < 8 -> sprite_bit row dx = Z.testbit row (7 - dx).
Proof.
  intros H. unfold sprite_bit, shr_u8.
  change 1 with (Z.ones 1). rewrite Z.land_ones by lia.
  replace (7 - dx) with (0 + (7 - dx)) at 2 by lia. rewrite <- Z.shiftr_spec by lia.
  rewrite Z.bit0_odd. set (z := Z.shiftr row (7 - dx)). change (2 ^ 1) with 2.
  rewrite (Zmod_odd z). destruct (Z.odd z); reflexivity.
Qed.

Lemma in_sprite_offsets h dx dy : In (dx, dy) (sprite_offsets h) <-> 0 <= dx < 8 /\ 0 <= dy < Z.of_nat h.
Proof.
  unfold sprite_offsets. rewrite in_flat_map. split.
  - intros (x & Hx & H). apply in_map_iff in H as (y & E & Hy). apply in_seq in Hx, Hy.
    assert (dx = Z.of_nat x) by congruence. assert (dy = Z.of_nat y) by congruence. lia.
  - intros [Hx Hy]. exists (Z.to_nat dx). split; [apply in_seq; lia|]. apply in_map_iff. exists (Z.to_nat dy).
    split; [f_equal; lia|]. apply in_seq. lia.
Qed.

Definition pt_eqb (a b : Z * Z) : bool := (fst a =? fst b) && (snd a =? snd b).
Lemma pt_eqb_eq a b : pt_eqb a b = true <-> a = b.
Proof.
  destruct a as [a1 a2], b as [b1 b2]. unfold pt_eqb. cbn [fst snd]. split.
  - intros H. f_equal; lia.
  - intros H. assert (a1 = b1 /\ a2 = b2) as [-> ->] by (split; congruence). lia.
Qed.
Lemma existsb_pt a l : existsb (pt_eqb a) l = true <-> In a l.
Proof.
  rewrite existsb_exists. split.
  - intros (b & Hb & E). apply pt_eqb_eq in E as ->. exact Hb.
  - intros H. exists a. split; [exact H|]. apply pt_eqb_eq. reflexivity.
Qed.

Lemma existsb_sprite h dx dy :
  existsb (pt_eqb (dx, dy)) (sprite_offsets h) = (0 <=? dx) && (dx <? 8) && (0 <=? dy) && (dy <? Z.of_nat h).
Proof.
  destruct (existsb _ _) eqn:E.
  - apply existsb_pt, in_sprite_offsets in E. lia.
  - destruct (_ && _) eqn:E'; [|reflexivity]. exfalso.
    assert (H : In (dx, dy) (sprite_offsets h)) by (apply in_sprite_offsets; lia).
    apply existsb_pt in H. congruence.
Qed.

Section Stamp.
Variables (rows : list Z) (x y : Z).
Hypotheses (Hx : 0 <= x) (Hy : 0 <= y).

Definition stamp_step : display * bool -> Z * Z -> res (display * bool) :=
  fun '(d, collision) '(x_offset, y_offset) =>
  do! row <- vec_get rows y_offset ;
  do! ' (d', o) <- write_pixel_mut d (x + x_offset) (y + y_offset) (sprite_bit row x_offset) ;
  Ok (d', match o with Some b => b | None => collision end).

Definition last_lit (d : display) (pts : list (Z * Z)) (col : bool) : bool :=
  fold_left (fun col '(dx, dy) => if on_screen (x + dx) (y + dy) then lit d (x + dx) (y + dy) else col) pts col.

Lemma last_lit_ext d d' pts : (forall dx dy, In (dx, dy) pts -> lit d (x + dx) (y + dy) = lit d' (x + dx) (y + dy)) ->
  forall col, last_lit d pts col = last_lit d' pts col.
Proof.
  unfold last_lit. induction pts as [|[dx dy] pts IH]; intros H col; [reflexivity|]. cbn [fold_left].
  rewrite (H dx dy (or_introl eq_refl)). apply IH. intros dx' dy' Hi. apply H. right. exact Hi.
Qed.

Lemma stamp_fold pts : NoDup pts ->
  (forall dx dy, In (dx, dy) pts -> 0 <= dx < 8 /\ 0 <= dy < Z.of_nat (length rows)) ->
  forall d col, display_ok d ->
  exists d', foldM stamp_step pts (d, col) = Ok (d', last_lit d pts col) /\ display_ok d' /\
    shows d' (fun x' y' => if existsb (pt_eqb (x' - x, y' - y)) pts && on_screen x' y'
                           then sprite_pixel rows (x' - x) (y' - y) else lit d x' y').
Proof.
  induction pts as [|[dx dy] pts IH]; intros Hn Hb d col D.
  - exists d. repeat split; try apply D. 
  - inversion Hn as [|? ? Hnin Hn']; subst. destruct (Hb dx dy (or_introl eq_refl)) as [Hdx Hdy].
    cbn [foldM stamp_step]. rewrite (vec_get_item rows dy 0) by lia. cbn [bind].
    destruct (write_pixel_spec d (x + dx) (y + dy) (sprite_bit (item rows dy 0) dx) D ltac:(lia) ltac:(lia))
      as (d1 & E1 & D1 & S1). rewrite E1. cbn [bind].
    destruct (IH Hn' (fun a b H => Hb a b (or_intror H)) d1
       (match (if on_screen (x + dx) (y + dy) then Some (lit d (x + dx) (y + dy)) else None) with
        | Some b => b | None => col end) D1) as (d2 & E2 & D2 & S2).
    exists d2. split; [|split; [exact D2|]].
    + rewrite E2. do 2 f_equal. unfold last_lit at 2. cbn [fold_left]. fold (last_lit d pts).
      rewrite (last_lit_ext d1 d).
      * unfold last_lit. f_equal. destruct (on_screen (x + dx) (y + dy)); reflexivity.
      * intros a b Hi. rewrite S1. unfold painted.
        destruct ((x + a =? x + dx) && (y + b =? y + dy)) eqn:E; [|reflexivity].
        exfalso. apply Hnin. assert (a = dx) as <- by lia. assert (b = dy) as <- by lia. exact Hi.
    + intros x' y'. rewrite S2. cbn [existsb]. destruct (existsb (pt_eqb (x' - x, y' - y)) pts) eqn:Ei.
      * rewrite Bool.orb_true_r. cbn [andb]. destruct (on_screen x' y') eqn:Eo; [reflexivity|].
        rewrite S1. unfold painted. destruct (_ && _) eqn:Ep; [|reflexivity].
        assert (x' = x + dx) as -> by lia. assert (y' = y + dy) as -> by lia.
        rewrite Eo, Bool.andb_false_r in Ep. discriminate.
      * cbn [andb orb]. rewrite Bool.orb_false_r, S1. unfold painted, pt_eqb. cbn [fst snd].
        replace ((x' - x =? dx) && (y' - y =? dy)) with ((x' =? x + dx) && (y' =? y + dy)) by lia.
        destruct ((x' =? x + dx) && (y' =? y + dy)) eqn:Ep; [|reflexivity].
        assert (x' = x + dx) as -> by lia. assert (y' = y + dy) as -> by lia. cbn [andb].
        destruct (on_screen (x + dx) (y + dy)); [|reflexivity].
        rewrite sprite_bit_testbit by exact Hdx. unfold sprite_pixel. do 2 f_equal; [f_equal; lia|lia].
Qed.
End Stamp.

Fixpoint nodupb (l : list (Z * Z)) : bool :=
  match l with [] => true | a :: l' => negb (existsb (pt_eqb a) l') && nodupb l' end.
Lemma nodupb_ok l : nodupb l = true -> NoDup l.
Proof.
  induction l as [|a l IH]; cbn [nodupb]; intros H; constructor.
  - intros Hi. apply existsb_pt in Hi. rewrite Hi in H. discriminate.
  - apply IH. apply andb_prop in H. apply H.
Qed.

(** The last pixel of an 8x5 glyph that is on the screen. *)
Definition last_pt (x y : Z) : Z * Z :=
  fold_left (fun a '(dx, dy) => if on_screen (x + dx) (y + dy) then (x + dx, y + dy) else a) (sprite_offsets 5) (-1, -1).
Lemma last_pt_eq x y : 0 <= x < 64 -> 0 <= y < 32 -> last_pt x y = (Z.min 63 (x + 7), Z.min 31 (y + 4)).
Proof.
  intros Hx Hy.
  assert (K : forallb (fun x => forallb (fun y => pt_eqb (last_pt x y) (Z.min 63 (x + 7), Z.min 31 (y + 4))) (below 32)) (below 64) = true)
    by (vm_compute; reflexivity).
  pose proof (sweep_below 64 _ K x Hx) as K1. cbv beta in K1. 
  pose proof (sweep_below 32 _ K1 y Hy) as K2. apply pt_eqb_eq in K2. exact K2.
Qed.
Lemma last_lit_last_pt d x y pts : forall a,
  last_lit x y d pts (lit d (fst a) (snd a)) =
  let q := fold_left (fun a '(dx, dy) => if on_screen (x + dx) (y + dy) then (x + dx, y + dy) else a) pts a in
  lit d (fst q) (snd q).
Proof.
  unfold last_lit. induction pts as [|[dx dy] pts IH]; intros a; [reflexivity|]. cbn [fold_left].
  destruct (on_screen (x + dx) (y + dy)).
  - exact (IH (x + dx, y + dy)).
  - apply IH.
Qed.

Lemma write_sprite_spec d x y f : display_ok d -> 0 <= x -> 0 <= y ->
  if on_screen x y then
    exists d', write_sprite_mut d x y f = Ok (d', Some (lit d (Z.min 63 (x + 7)) (Z.min 31 (y + 4)))) /\
      display_ok d' /\ shows d' (stamped d (font_bytes f) x y)
  else write_sprite_mut d x y f = Ok (d, None).
Proof.
  intros D Hx Hy. unfold write_sprite_mut, is_within_display_boundary, X_MAX, Y_MAX.
  replace ((x <? 64) && (y <? 32)) with (on_screen x y) by (unfold on_screen; lia).
  destruct (on_screen x y) eqn:Eo; [|reflexivity]. unfold on_screen in Eo.
  assert (L : length (font_bytes f) = 5%nat) by (destruct f; reflexivity).
  destruct (stamp_fold (font_bytes f) x y Hx Hy (sprite_offsets 5)
    (nodupb_ok (sprite_offsets 5) ltac:(vm_compute; reflexivity))
    ltac:(intros a b H; apply in_sprite_offsets in H; rewrite L; exact H) d false D) as (d' & E & D' & S).
  exists d'. split; [|split; [exact D'|]].
  - fold (stamp_step (font_bytes f) x y).
    rewrite E. cbn [bind]. do 3 f_equal.
    assert (Hf : lit d (-1) (-1) = false) by (apply lit_off; [exact D|reflexivity]).
    rewrite <- Hf. change (lit d (-1) (-1)) with (lit d (fst (-1,-1)) (snd (-1,-1))).
    rewrite last_lit_last_pt. cbn zeta. fold (last_pt x y).
    rewrite last_pt_eq by lia. reflexivity.
  - intros x' y'. rewrite S. unfold stamped, inside_sprite. rewrite existsb_sprite, L. reflexivity.
Qed.

(** *** Dxyn *)

Lemma mapM_range p c n : well_formed c -> 
  mapM (fun addr => am_read p (c8_space c) addr) (range_u16 (c8_i c) (c8_i c + n)) =
  Ok (map (fun k => observe c (PMem (c8_i c + Z.of_nat k))) (seq 0 (Z.to_nat n))).
Proof.
  intros W. unfold range_u16. replace (c8_i c + n - c8_i c) with n by lia.
  rewrite (mapM_ok _ (fun a => observe c (PMem a))).
  - f_equal. rewrite map_map. reflexivity.
  - intros k _. apply read_mem, W.
Qed.

Definition hits (d : display) (rows : list Z) (x y : Z) (off : Z * Z) : bool :=
  let '(dx, dy) := off in
  on_screen (x + dx) (y + dy) && lit d (x + dx) (y + dy) && sprite_pixel rows dx dy.
Definition paint (rows : list Z) (x y : Z) (off : Z * Z) : microcode :=
  let '(dx, dy) := off in SetDisplayPixel (x + dx, y + dy) (sprite_pixel rows dx dy).

Lemma drw_fold c rows x y pts : well_formed c -> 0 <= x -> 0 <= y ->
  (forall dx dy, In (dx, dy) pts -> 0 <= dx < 8 /\ 0 <= dy < Z.of_nat (length rows)) ->
  forall col acc, foldM (drw_pixel c rows x y) pts (col, acc) =
    Ok (col || existsb (hits (c8_display c) rows x y) pts, acc ++ map (paint rows x y) pts).
Proof.
  intros W Hx Hy. induction pts as [|[dx dy] pts IH]; intros Hb col acc.
  - cbn [foldM existsb map]. rewrite Bool.orb_false_r, app_nil_r. reflexivity.
  - destruct (Hb dx dy (or_introl eq_refl)) as [Hdx Hdy]. cbn [foldM]. unfold drw_pixel at 1.
    rewrite (vec_get_item rows dy 0) by lia. cbn [bind].
    rewrite (pixel_spec (c8_display c) _ _ (wf_display c W)) by lia. cbn [bind].
    rewrite IH by (intros a b H; apply Hb; right; exact H). cbn [existsb map].
    rewrite <- app_assoc. cbn [app]. unfold hits at 2, paint at 2. 
    rewrite sprite_bit_testbit by exact Hdx. fold (sprite_pixel rows dx dy). f_equal. f_equal.
    destruct (on_screen (x + dx) (y + dy)); [|reflexivity].
    destruct (lit (c8_display c) (x + dx) (y + dy)), (sprite_pixel rows dx dy), col; reflexivity.
Qed.

Lemma gen_drw_spec p c x y n : well_formed c -> has x = true -> has y = true -> 0 <= n -> c8_i c + n < 65536 ->
  let rows := map (fun k => observe c (PMem (c8_i c + Z.of_nat k))) (seq 0 (Z.to_nat n)) in
  let vx := v (observe c) x in let vy := v (observe c) y in
  gen_drw p c x y n =
  Ok (map (paint rows vx vy) (sprite_offsets (Z.to_nat n)) ++
      [write_gp Vf (bool_as_u8 (existsb (hits (c8_display c) rows vx vy) (sprite_offsets (Z.to_nat n))))]).
Proof.
  intros W Hx Hy Hn Hi rows vx vy. unfold gen_drw. pose proof (wf_i c W) as Hi'. unfold u16 in Hi'.
  unfold add_u16. rewrite checked_ok by lia. cbn [bind]. rewrite (mapM_range p c n W). cbn [bind].
  rewrite (read_gp c x W Hx), (read_gp c y W Hy). cbn [bind]. fold rows.
  change (observe c (PV (gp_index x))) with vx. change (observe c (PV (gp_index y))) with vy.
  assert (H1 : u8 vx) by (apply (observe_v_u8 c (gp_index x) W), has_index, Hx).
  assert (H2 : u8 vy) by (apply (observe_v_u8 c (gp_index y) W), has_index, Hy). unfold u8 in *.
  rewrite (drw_fold c rows vx vy); [reflexivity|exact W|lia|lia|].
  intros dx dy H. apply in_sprite_offsets in H. unfold rows. rewrite map_length, seq_length. exact H.
Qed.

Lemma hits_collides d rows x y :
  existsb (hits d rows x y) (sprite_offsets (length rows)) = true <-> collides d rows x y.
Proof.
  rewrite existsb_exists. unfold collides. split.
  - intros ([dx dy] & Hi & Hh). apply in_sprite_offsets in Hi. unfold hits in Hh.
    exists (x + dx), (y + dy). replace (x + dx - x) with dx by lia. replace (y + dy - y) with dy by lia.
    apply andb_prop in Hh as [Hh Hs]. apply andb_prop in Hh as [Ho Hl].
    split; [unfold inside_sprite; lia|]. split; [exact Ho|]. split; [exact Hs|exact Hl].
  - intros (x' & y' & H1 & H2 & H3 & H4). unfold inside_sprite in H1. exists (x' - x, y' - y).
    split; [apply in_sprite_offsets; lia|]. unfold hits.
    replace (x + (x' - x)) with x' by lia. replace (y + (y' - y)) with y' by lia.
    rewrite H2, H3, H4. reflexivity.
Qed.

(** Executing the pixel writes. *)
Lemma paint_all e p rows x y pts : 0 <= x -> 0 <= y ->
  (forall dx dy, In (dx, dy) pts -> 0 <= dx /\ 0 <= dy) ->
  forall c w, well_formed c ->
  runs e p (map (paint rows x y) pts) c w
    (fun q => match q with
              | PPixel x' y' => bool_as_u8 (if existsb (pt_eqb (x' - x, y' - y)) pts && on_screen x' y'
                                 then sprite_pixel rows (x' - x) (y' - y) else lit (c8_display c) x' y')
              | _ => observe c q end) w.
Proof.
  intros Hx Hy. induction pts as [|[dx dy] pts IH]; intros Hb c w W.
  - exists c. split; [reflexivity|]. split; [exact W|]. intros q. destruct q; reflexivity.
  - destruct (Hb dx dy (or_introl eq_refl)) as [Hdx Hdy].
    destruct (write_pixel_spec (c8_display c) (x + dx) (y + dy) (sprite_pixel rows dx dy) (wf_display c W) ltac:(lia) ltac:(lia))
      as (d1 & E1 & D1 & S1).
    assert (W1 : well_formed (set_display c d1)) by (destruct W; constructor; cbn; assumption).
    destruct (IH (fun a b H => Hb a b (or_intror H)) (set_display c d1) w W1) as (c2 & E2 & W2 & L2).
    exists c2. split; [|split; [exact W2|]].
    + unfold execute_all in *. cbn [map foldM]. unfold paint at 1. cbn [execute_mut]. rewrite E1. cbn [bind]. exact E2.
    + intros q. rewrite L2. destruct q as [| | |k|k|a|x' y'| | | | |]; try reflexivity.
      f_equal. cbn [c8_display set_display existsb]. destruct (existsb (pt_eqb (x' - x, y' - y)) pts) eqn:Ei.
      * rewrite Bool.orb_true_r. cbn [andb]. destruct (on_screen x' y') eqn:Eo; [reflexivity|].
        rewrite S1. unfold painted. destruct (_ && _) eqn:Ep; [|reflexivity].
        assert (x' = x + dx) as -> by lia. assert (y' = y + dy) as -> by lia.
        rewrite Eo, Bool.andb_false_r in Ep. discriminate.
      * cbn [andb orb]. rewrite Bool.orb_false_r, S1. unfold painted, pt_eqb. cbn [fst snd].
        replace ((x' - x =? dx) && (y' - y =? dy)) with ((x' =? x + dx) && (y' =? y + dy)) by lia.
        destruct ((x' =? x + dx) && (y' =? y + dy)) eqn:Ep; [|reflexivity].
        assert (x' = x + dx) as -> by lia. assert (y' = y + dy) as -> by lia. cbn [andb].
        destruct (on_screen (x + dx) (y + dy)); [|reflexivity].
        f_equal; lia.
Qed.
