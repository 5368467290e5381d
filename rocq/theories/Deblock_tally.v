(** What the distortion tallies of the deblocking level search say. *)
From Verif Require Import Deblock_model Deblock_order Deblock_proof.
Open Scope Z_scope.
Open Scope list_scope.

Lemma running_add t i d L : 0 <= i ->
  running (tally_add t i d) L = running t L + (if i <=? Z.of_nat L then d else 0).
Proof.
  intros I. induction L as [|L IH]; cbn [running]; unfold tally_add at 1.
  - change (Z.of_nat 0) with 0. destruct (Z.eqb_spec 0 i), (Z.leb_spec i 0); lia.
  - rewrite IH. destruct (Z.eqb_spec (Z.of_nat (S L)) i), (Z.leb_spec i (Z.of_nat L)), (Z.leb_spec i (Z.of_nat (S L))); lia.
Qed.

(** *** The squared error of one line across an edge, filtered at level [L]; no filter
    at level 0 *)
Definition filtered (tbits size : Z) (v : Z -> Z) (L bd i : Z) : Z :=
  if 0 <? L then deblock_line tbits size v L bd i else v i.
Definition sum_upto (n : Z) (f : Z -> Z) : Z := fold_left Z.add (map (fun i => f (Z.of_nat i)) (seq 0 (Z.to_nat n))) 0.
Definition line_error (tbits size : Z) (v s : Z -> Z) (bd L : Z) : Z :=
  sum_upto size (fun i => (s i - filtered tbits size v L bd i) ^ 2).

Definition inner_off (size : Z) : Z := if size =? 4 then 0 else 1.
Definition inner_err (size : Z) (v s : Z -> Z) (bd L : Z) : Z :=
  let a := taps s (inner_off size) (size - 2 * inner_off size) in
  match (if 0 <? L then deblock_inner size v L bd else None) with
  | Some (_, l) => stride_sse a l
  | None => stride_sse a (taps v (inner_off size) (size - 2 * inner_off size))
  end.

Lemma clamp_le x lo hi : lo <= hi -> lo <= clamp x lo hi <= hi.
Proof. unfold clamp. intros H. destruct (Z.ltb_spec x lo); [lia|]. destruct (Z.ltb_spec hi x); lia. Qed.
Lemma clamp_iff x lo hi L : lo <= L -> L < hi -> (clamp x lo hi <= L <-> x <= L).
Proof. unfold clamp. intros H1 H2. destruct (Z.ltb_spec x lo); [lia|]. destruct (Z.ltb_spec hi x); lia. Qed.
Lemma running_wide t mask none wide L : 0 <= L <= 63 ->
  let m := clamp mask 1 (MAX_LOOP_FILTER + 1) in
  running (tally_wide t m none wide) (Z.to_nat L) =
  running t (Z.to_nat L) + (if (0 <? L) && (mask <=? L) then wide else none).
Proof.
  intros H. cbv zeta. unfold tally_wide. pose proof (clamp_le mask 1 (MAX_LOOP_FILTER + 1) ltac:(unfold MAX_LOOP_FILTER; lia)) as C.
  rewrite !running_add by (unfold MAX_LOOP_FILTER in *; lia). rewrite Z2Nat.id by lia.
  replace (0 <=? L) with true by (symmetry; apply Z.leb_le; lia).
  destruct (Z.ltb_spec 0 L).
  - pose proof (clamp_iff mask 1 (MAX_LOOP_FILTER + 1) L ltac:(lia) ltac:(unfold MAX_LOOP_FILTER; lia)) as I. cbn [andb].
    destruct (Z.leb_spec (clamp mask 1 (MAX_LOOP_FILTER + 1)) L), (Z.leb_spec mask L); lia.
  - destruct (Z.leb_spec (clamp mask 1 (MAX_LOOP_FILTER + 1)) L); cbn [andb]; lia.
Qed.
Lemma running_narrow t mask nhev none n2 n4 L : 0 <= L <= 63 ->
  let m := clamp mask 1 (MAX_LOOP_FILTER + 1) in
  let h := clamp nhev m (MAX_LOOP_FILTER + 1) in
  running (tally_narrow t m h none (if negb (h =? m) then n2 else none) (if h <=? MAX_LOOP_FILTER then n4 else none)) (Z.to_nat L) =
  running t (Z.to_nat L) + (if (0 <? L) && (mask <=? L) then (if nhev <=? L then n4 else n2) else none).
Proof.
  intros H. cbv zeta. unfold tally_narrow. pose proof (clamp_le mask 1 (MAX_LOOP_FILTER + 1) ltac:(unfold MAX_LOOP_FILTER; lia)) as C.
  set (m := clamp mask 1 (MAX_LOOP_FILTER + 1)) in *.
  pose proof (clamp_le nhev m (MAX_LOOP_FILTER + 1) ltac:(lia)) as D.
  set (h := clamp nhev m (MAX_LOOP_FILTER + 1)) in *.
  rewrite !running_add by (unfold MAX_LOOP_FILTER in *; lia). rewrite Z2Nat.id by lia.
  replace (0 <=? L) with true by (symmetry; apply Z.leb_le; lia).
  destruct (Z.ltb_spec 0 L).
  - pose proof (clamp_iff mask 1 (MAX_LOOP_FILTER + 1) L ltac:(lia) ltac:(unfold MAX_LOOP_FILTER; lia)) as I. cbn [andb]. fold m in I.
    destruct (Z.leb_spec m L), (Z.leb_spec mask L); try lia.
    + pose proof (clamp_iff nhev m (MAX_LOOP_FILTER + 1) L ltac:(lia) ltac:(unfold MAX_LOOP_FILTER; lia)) as J. fold h in J.
      destruct (Z.leb_spec h L), (Z.leb_spec nhev L), (Z.leb_spec h MAX_LOOP_FILTER), (Z.eqb_spec h m); cbn [negb]; unfold MAX_LOOP_FILTER in *; lia.
    + destruct (Z.leb_spec h L), (Z.leb_spec h MAX_LOOP_FILTER), (Z.eqb_spec h m); cbn [negb]; lia.
  - destruct (Z.leb_spec m L), (Z.leb_spec h L); cbn [andb]; lia.
Qed.
Lemma running_line size v s bd t L : 0 <= L <= 63 -> size = 4 \/ size = 6 \/ size = 8 \/ size = 14 ->
  running (sse_line size v s bd t) (Z.to_nat L) = running t (Z.to_nat L) + inner_err size v s bd L.
Proof.
  intros H S. unfold sse_line, inner_err, deblock_inner, inner_off.
  destruct S as [->|[->|[->| ->]]]; cbn [Z.eqb Pos.eqb]; cbv zeta.
  - rewrite running_narrow by exact H. f_equal.
    destruct (0 <? L); cbn [andb]; [|reflexivity]. destruct (mask4 _ _ _ _ _ <=? L); [|reflexivity].
    destruct (nhev4 _ _ _ _ _ <=? L); reflexivity.
  - destruct (flat6 _ _ _ _ _ _ <=? _); cbn [andb negb].
    + rewrite running_wide by exact H. f_equal.
      destruct (Z.ltb_spec 0 L); cbn [andb]; [|reflexivity]. destruct (Z.leb_spec (mask6 (v 0) (v 1) (v 2) (v 3) (v 4) (v 5) (bd - 8)) L); [|reflexivity].
      replace (clamp (mask6 (v 0) (v 1) (v 2) (v 3) (v 4) (v 5) (bd - 8)) 1 (MAX_LOOP_FILTER + 1) <=? MAX_LOOP_FILTER) with true; [reflexivity|].
      symmetry. apply Z.leb_le. apply clamp_iff; unfold MAX_LOOP_FILTER; lia.
    + rewrite running_narrow by exact H. f_equal.
      destruct (0 <? L); cbn [andb]; [|reflexivity]. destruct (mask6 _ _ _ _ _ _ _ <=? L); [|reflexivity].
      destruct (nhev4 _ _ _ _ _ <=? L); reflexivity.
  - destruct (flat8 _ _ _ _ _ _ _ _ <=? _); cbn [andb negb].
    + rewrite running_wide by exact H. f_equal.
      destruct (Z.ltb_spec 0 L); cbn [andb]; [|reflexivity]. set (m := mask8 _ _ _ _ _ _ _ _ _). destruct (Z.leb_spec m L); [|reflexivity].
      replace (clamp m 1 (MAX_LOOP_FILTER + 1) <=? MAX_LOOP_FILTER) with true; [reflexivity|].
      symmetry. apply Z.leb_le. apply clamp_iff; unfold MAX_LOOP_FILTER; lia.
    + rewrite running_narrow by exact H. f_equal.
      destruct (0 <? L); cbn [andb]; [|reflexivity]. destruct (mask8 _ _ _ _ _ _ _ _ _ <=? L); [|reflexivity].
      destruct (nhev4 _ _ _ _ _ <=? L); reflexivity.
  - destruct (flat8 _ _ _ _ _ _ _ _ <=? _); cbn [andb negb]; [destruct (flat14_outer _ _ _ _ _ _ _ _ <=? _); cbn [andb negb]|].
    + rewrite running_wide by exact H. f_equal.
      destruct (Z.ltb_spec 0 L); cbn [andb]; [|reflexivity]. set (m := mask8 _ _ _ _ _ _ _ _ _). destruct (Z.leb_spec m L); [|reflexivity].
      replace (clamp m 1 (MAX_LOOP_FILTER + 1) <=? MAX_LOOP_FILTER) with true; [reflexivity|].
      symmetry. apply Z.leb_le. apply clamp_iff; unfold MAX_LOOP_FILTER; lia.
    + rewrite running_wide by exact H. f_equal.
      destruct (Z.ltb_spec 0 L); cbn [andb]; [|reflexivity]. set (m := mask8 _ _ _ _ _ _ _ _ _). destruct (Z.leb_spec m L); [|reflexivity].
      replace (clamp m 1 (MAX_LOOP_FILTER + 1) <=? MAX_LOOP_FILTER) with true; [reflexivity|].
      symmetry. apply Z.leb_le. apply clamp_iff; unfold MAX_LOOP_FILTER; lia.
    + rewrite running_narrow by exact H. f_equal.
      destruct (0 <? L); cbn [andb]; [|reflexivity]. destruct (mask8 _ _ _ _ _ _ _ _ _ <=? L); [|reflexivity].
      destruct (nhev4 _ _ _ _ _ <=? L); reflexivity.
Qed.

Lemma inner_shape size v L bd o l : size = 4 \/ size = 6 \/ size = 8 \/ size = 14 ->
  deblock_inner size v L bd = Some (o, l) -> o = inner_off size /\ length l = Z.to_nat (size - 2 * inner_off size).
Proof.
  intros S. unfold deblock_inner, inner_off. destruct S as [->|[->|[->| ->]]]; cbn [Z.eqb Pos.eqb]; cbv zeta;
    (destruct (_ <=? L); [|discriminate]); intros [= <- <-];
    repeat match goal with |- context [if ?b then _ else _] => destruct b end; split; reflexivity.
Qed.
Lemma inner_range size v L bd o l : 8 <= bd -> 1 <= L -> size = 4 \/ size = 6 \/ size = 8 \/ size = 14 ->
  (forall i, 0 <= i < size -> 0 <= v i < 2 ^ bd) ->
  deblock_inner size v L bd = Some (o, l) -> Forall (fun x => 0 <= x < 2 ^ bd) l.
Proof.
  intros B H S R E.
  assert (G : forall pl fs, fs_ok pl fs -> kernel_of pl fs = size -> Forall (fun x => 0 <= x < 2 ^ bd) l).
  { intros pl fs F K. apply (line_range bd L B pl fs (fun i => v (i + kernel_of pl fs / 2)) F) with (off := o).
    - intros i I. apply R. rewrite K in *. assert (2 * (size / 2) = size) by (destruct S as [->|[->|[->| ->]]]; reflexivity). lia.
    - rewrite <- E, K. apply deblock_inner_ext. intros i _. f_equal. lia. }
  unfold fs_ok in G. destruct S as [->|[->|[->| ->]]];
    [apply (G 0 4); auto|apply (G 1 8); auto|apply (G 0 8); auto|apply (G 0 16); auto].
Qed.

Definition outer_err (size : Z) (v s : Z -> Z) : Z :=
  if size =? 4 then 0 else (s 0 - v 0) ^ 2 + (s (size - 1) - v (size - 1)) ^ 2.
Ltac norm_sums :=
  unfold sum_upto, taps, outer_err, inner_off; cbn [Z.eqb Pos.eqb]; cbv iota;
  repeat match goal with |- context [seq 0 (Z.to_nat ?n)] => let v := eval vm_compute in (seq 0 (Z.to_nat n)) in change (seq 0 (Z.to_nat n)) with v end;
  cbn -[Z.pow Z.to_nat];
  repeat match goal with |- context [Z.to_nat ?n] => let v := eval vm_compute in (Z.to_nat n) in change (Z.to_nat n) with v end;
  cbn [nth].
Ltac list_of_len l E := repeat (destruct l as [|? l]; [discriminate E|]); destruct l; [|discriminate E].
Lemma line_inner tbits size v s bd L : 8 <= bd <= tbits -> 0 <= L -> size = 4 \/ size = 6 \/ size = 8 \/ size = 14 ->
  (forall i, 0 <= i < size -> 0 <= v i < 2 ^ bd) ->
  line_error tbits size v s bd L = outer_err size v s + inner_err size v s bd L.
Proof.
  intros B H S R. unfold line_error, inner_err, filtered.
  destruct (Z.ltb_spec 0 L) as [P|P].
  2:{ destruct S as [->|[->|[->| ->]]]; norm_sums; ring. }
  assert (T : forall f g, (forall i, 0 <= i < size -> f i = g i) -> sum_upto size f = sum_upto size g).
  { intros f g E. unfold sum_upto. f_equal. apply map_ext_in. intros i I. apply in_seq in I. apply E. lia. }
  unfold deblock_line.
  destruct (deblock_inner size v L bd) as [[o l]|] eqn:D.
  - pose proof (inner_shape _ _ _ _ _ _ S D) as [-> LEN].
    pose proof (inner_range size v L bd _ l ltac:(lia) ltac:(lia) S R D) as RG.
    assert (PW : 2 ^ bd <= 2 ^ tbits) by (apply Z.pow_le_mono_r; lia).
    rewrite (T _ (fun i => (s i - (if (inner_off size <=? i) && (i <? inner_off size + zlen l) then nth (Z.to_nat (i - inner_off size)) l 0 else v i)) ^ 2)).
    2:{ intros i I. destruct ((inner_off size <=? i) && (i <? inner_off size + zlen l)) eqn:C; [|reflexivity].
        apply andb_true_iff in C as [C1 C2]. apply Z.leb_le in C1. apply Z.ltb_lt in C2. rewrite Z.mod_small; [reflexivity|].
        rewrite Forall_forall in RG. specialize (RG (nth (Z.to_nat (i - inner_off size)) l 0)).
        assert (IN : In (nth (Z.to_nat (i - inner_off size)) l 0) l) by (apply nth_In; unfold zlen in C2; lia).
        specialize (RG IN). lia. }
    clear RG D T R. unfold zlen. destruct S as [->|[->|[->| ->]]]; cbn in LEN; list_of_len l LEN; norm_sums; ring.
  - destruct S as [->|[->|[->| ->]]]; norm_sums; ring.
Qed.

Lemma sum4 f : sum_upto 4 f = f 0 + f 1 + f 2 + f 3.
Proof. reflexivity. Qed.

(** *** A plane *)
Section Plane.
Variables (d : deblock_state) (blocks : Z -> Z -> block) (pli bd tbits xdec ydec : Z) (rec src : plane).
Hypothesis (B : 8 <= bd <= tbits) (R : forall r c, 0 <= rec r c < 2 ^ bd).

(** the squared error along one edge of filter size [size], if it alone is filtered *)
Definition v_edge_error (size x y L : Z) : Z :=
  if 0 <? size then
    sum_upto 4 (fun k => line_error tbits size
      (fun i => rec (4 * Z.shiftr y ydec + k) (4 * Z.shiftr x xdec - size / 2 + i))
      (fun i => src (4 * Z.shiftr y ydec + k) (4 * Z.shiftr x xdec - size / 2 + i)) bd L)
  else 0.
Definition h_edge_error (size x y L : Z) : Z :=
  if 0 <? size then
    sum_upto 4 (fun k => line_error tbits size
      (fun i => rec (4 * Z.shiftr y ydec - size / 2 + i) (4 * Z.shiftr x xdec + k))
      (fun i => src (4 * Z.shiftr y ydec - size / 2 + i) (4 * Z.shiftr x xdec + k)) bd L)
  else 0.

Definition size_ok (size : Z) : Prop := size <= 0 \/ size = 4 \/ size = 6 \/ size = 8 \/ size = 14.
Lemma v_edge_running x y t L : 0 <= L <= 63 -> size_ok (v_size blocks pli xdec ydec x y) ->
  running (sse_v_edge blocks pli bd xdec ydec rec src x y t) (Z.to_nat L) - v_edge_error (v_size blocks pli xdec ydec x y) x y L - running t (Z.to_nat L) =
  running (sse_v_edge blocks pli bd xdec ydec rec src x y t) 0 - v_edge_error (v_size blocks pli xdec ydec x y) x y 0 - running t 0.
Proof.
  intros H S. unfold sse_v_edge, v_edge_error. set (size := v_size _ _ _ _ _ _) in *. clearbody size. cbv zeta.
  destruct (Z.ltb_spec 0 size) as [P|]; [|lia].
  assert (S' : size = 4 \/ size = 6 \/ size = 8 \/ size = 14) by (unfold size_ok in S; lia).
  unfold lines. rewrite !(sum4). change 0%nat with (Z.to_nat 0). rewrite !running_line by (lia || exact S').
  rewrite !line_inner by (lia || exact S' || (intros; apply R)).
  rewrite !Z.shiftl_mul_pow2 by lia. change (2 ^ 2) with 4. rewrite !(Z.mul_comm 4). rewrite !Z.shiftr_div_pow2 with (a := size) by lia. change (2 ^ 1) with 2.
  ring.
Qed.
Lemma h_edge_running x y t L : 0 <= L <= 63 -> size_ok (h_size_tally blocks pli xdec ydec x y) ->
  running (sse_h_edge blocks pli bd xdec ydec rec src x y t) (Z.to_nat L) - h_edge_error (h_size_tally blocks pli xdec ydec x y) x y L - running t (Z.to_nat L) =
  running (sse_h_edge blocks pli bd xdec ydec rec src x y t) 0 - h_edge_error (h_size_tally blocks pli xdec ydec x y) x y 0 - running t 0.
Proof.
  intros H S. unfold sse_h_edge, h_edge_error. set (size := h_size_tally _ _ _ _ _ _) in *. clearbody size. cbv zeta.
  destruct (Z.ltb_spec 0 size) as [P|]; [|lia].
  assert (S' : size = 4 \/ size = 6 \/ size = 8 \/ size = 14) by (unfold size_ok in S; lia).
  unfold lines. rewrite !(sum4). change 0%nat with (Z.to_nat 0). rewrite !running_line by (lia || exact S').
  rewrite !line_inner by (lia || exact S' || (intros; apply R)).
  rewrite !Z.shiftl_mul_pow2 by lia. change (2 ^ 2) with 4. rewrite !(Z.mul_comm 4). rewrite !Z.shiftr_div_pow2 with (a := size) by lia. change (2 ^ 1) with 2.
  ring.
Qed.

(** *** The tallies of the whole plane *)
Variables (bcols brows crop_w crop_h : Z).
Let cols := edge_count bcols crop_w xdec.
Let rows := edge_count brows crop_h ydec.
(** the edges of the plane, as the filter visits them *)
Definition v_edges : list (Z * Z) := flat_map (fun y => map (fun x => (x, y)) (steps (Z.shiftl 1 xdec) cols xdec)) (steps 0 rows ydec).
Definition h_edges : list (Z * Z) := flat_map (fun y => map (fun x => (x, y)) (steps 0 cols xdec)) (steps (Z.shiftl 1 ydec) rows ydec).
Definition total (f : Z -> Z -> Z) (l : list (Z * Z)) : Z := fold_left (fun a e => a + f (fst e) (snd e)) l 0.
Definition v_error (L : Z) : Z := total (fun x y => v_edge_error (v_size blocks pli xdec ydec x y) x y L) v_edges.
Definition h_error_tally (L : Z) : Z := total (fun x y => h_edge_error (h_size_tally blocks pli xdec ydec x y) x y L) h_edges.
Definition h_error (L : Z) : Z := total (fun x y => h_edge_error (h_size blocks pli xdec ydec x y) x y L) h_edges.

Hypothesis (DX : xdec = 0 \/ xdec = 1) (DY : ydec = 0 \/ ydec = 1) (RW : 0 < rows) (CL : 0 < cols).
Hypothesis (SV : forall x y, size_ok (v_size blocks pli xdec ydec x y)) (SH : forall x y, size_ok (h_size_tally blocks pli xdec ydec x y)).

Notation sv := (sse_v_edge blocks pli bd xdec ydec rec src).
Notation sh := (sse_h_edge blocks pli bd xdec ydec rec src).
Definition fold_t (f : Z -> Z -> (Z -> Z) -> Z -> Z) (l : list (Z * Z)) (t : Z -> Z) : Z -> Z :=
  fold_left (fun t e => f (fst e) (snd e) t) l t.
Lemma total_cons f e l : total f (e :: l) = f (fst e) (snd e) + total f l.
Proof.
  unfold total. cbn [fold_left].
  assert (G : forall l a, fold_left (fun a e => a + f (fst e) (snd e)) l a = a + fold_left (fun a e => a + f (fst e) (snd e)) l 0).
  { clear. induction l as [|e l IH]; intros a; cbn [fold_left]; [lia|]. rewrite (IH (a + _)), (IH (0 + _)). lia. }
  rewrite G. lia.
Qed.
Lemma fold_running f (g : Z -> Z -> Z -> Z) L l : 
  (forall x y t, running (f x y t) (Z.to_nat L) - g L x y - running t (Z.to_nat L) = running (f x y t) 0 - g 0 x y - running t 0) ->
  forall t, running (fold_t f l t) (Z.to_nat L) - total (g L) l - running t (Z.to_nat L) =
            running (fold_t f l t) 0 - total (g 0) l - running t 0.
Proof.
  intros E. induction l as [|e l IH]; intros t; [unfold fold_t, total; cbn; lia|].
  rewrite !total_cons. change (fold_t f (e :: l) t) with (fold_t f l (f (fst e) (snd e) t)).
  specialize (IH (f (fst e) (snd e) t)). specialize (E (fst e) (snd e) t). lia.
Qed.

Lemma split_fold {A} (f g : A -> (Z -> Z) -> Z -> Z) l v h :
  fold_left (fun vh x => (f x (fst vh), g x (snd vh))) l (v, h) =
  (fold_left (fun t x => f x t) l v, fold_left (fun t x => g x t) l h).
Proof. revert v h. induction l as [|a l IH]; intros v h; cbn [fold_left fst snd]; [reflexivity|]. apply IH. Qed.
Lemma row_fold f y l t : fold_left (fun t x => f x y t) l t = fold_t f (map (fun x => (x, y)) l) t.
Proof. unfold fold_t. revert t. induction l as [|a l IH]; intros t; cbn [map fold_left fst snd]; [reflexivity|]. apply IH. Qed.
Lemma fold_t_app f l1 l2 t : fold_t f (l1 ++ l2) t = fold_t f l2 (fold_t f l1 t).
Proof. apply fold_left_app. Qed.

Lemma plane_folds : sse_plane blocks pli bd xdec ydec rec src bcols brows crop_w crop_h =
  (fold_t sv v_edges (fun _ => 0), fold_t sh h_edges (fun _ => 0)).
Proof.
  unfold sse_plane. fold cols rows. cbv zeta.
  assert (EV : v_edges = map (fun x => (x, 0)) (steps (Z.shiftl 1 xdec) cols xdec) ++
      flat_map (fun y => map (fun x => (x, y)) (steps (Z.shiftl 1 xdec) cols xdec)) (steps (Z.shiftl 1 ydec) rows ydec)).
  { unfold v_edges. rewrite (steps_cons 0 rows) by assumption. reflexivity. }
  rewrite EV, fold_t_app. rewrite (row_fold sv 0). unfold h_edges. set (t0 := fold_t sv _ _). clearbody t0. clear EV.
  rewrite (steps_cons 0 cols) by assumption. rewrite Z.add_0_l.
  assert (Z0 : exists z, z = (fun _ : Z => 0)) by (eexists; reflexivity). destruct Z0 as [z Ez]. rewrite <- Ez. clear Ez.
  revert t0 z. induction (steps (Z.shiftl 1 ydec) rows ydec) as [|y l IH]; intros t0 z; cbn [fold_left flat_map]; [reflexivity|].
  rewrite !fold_t_app. cbn [fst snd].
  rewrite (split_fold (fun x => sv x y) (fun x => sh x y)). rewrite !row_fold. rewrite IH.
  cbn [map]. reflexivity.
Qed.

(** the tallies measure the squared error up to a constant *)
Theorem tally_v L : 0 <= L <= 63 ->
  let t := fst (sse_plane blocks pli bd xdec ydec rec src bcols brows crop_w crop_h) in
  running t (Z.to_nat L) - running t 0 = v_error L - v_error 0.
Proof.
  intros H. cbv zeta. rewrite plane_folds. cbn [fst]. unfold v_error.
  pose proof (fold_running sv (fun L x y => v_edge_error (v_size blocks pli xdec ydec x y) x y L) L v_edges) as F.
  cbv beta in F. specialize (F ltac:(intros x y t; apply v_edge_running; auto) (fun _ => 0)).
  assert (Z0 : forall n, running (fun _ => 0) n = 0) by (induction n as [|n IHn]; cbn [running]; lia). rewrite !Z0 in F. lia.
Qed.
Theorem tally_h L : 0 <= L <= 63 ->
  let t := snd (sse_plane blocks pli bd xdec ydec rec src bcols brows crop_w crop_h) in
  running t (Z.to_nat L) - running t 0 = h_error_tally L - h_error_tally 0.
Proof.
  intros H. cbv zeta. rewrite plane_folds. cbn [snd]. unfold h_error_tally.
  pose proof (fold_running sh (fun L x y => h_edge_error (h_size_tally blocks pli xdec ydec x y) x y L) L h_edges) as F.
  cbv beta in F. specialize (F ltac:(intros x y t; apply h_edge_running; auto) (fun _ => 0)).
  assert (Z0 : forall n, running (fun _ => 0) n = 0) by (induction n as [|n IHn]; cbn [running]; lia). rewrite !Z0 in F. lia.
Qed.
End Plane.

(** *** The search *)
Lemma best_from f : forall n m b, 0 <= b <= 63 -> (m + n <= 64)%nat -> forall r,
  r = fold_left (fun best i => if (best =? 999) || (f i <? f best) then i else best) (map Z.of_nat (seq m n)) b ->
  0 <= r <= 63 /\ f r <= f b /\ forall i, Z.of_nat m <= i < Z.of_nat (m + n) -> f r <= f i.
Proof.
  induction n as [|n IH]; intros m b Hb M r; cbn [seq map fold_left]; [intros ->; split; [lia|]; split; [lia|intros; lia]|].
  replace (b =? 999) with false by (symmetry; apply Z.eqb_neq; lia). cbn [orb].
  destruct (Z.ltb_spec (f (Z.of_nat m)) (f b)) as [L|L]; intros E.
  - destruct (IH (S m) (Z.of_nat m) ltac:(lia) ltac:(lia) r E) as (A1 & A2 & A3).
    split; [exact A1|]. split; [lia|]. intros i I. destruct (Z.eq_dec i (Z.of_nat m)) as [->|]; [exact A2|]. apply A3. lia.
  - destruct (IH (S m) b Hb ltac:(lia) r E) as (A1 & A2 & A3).
    split; [exact A1|]. split; [lia|]. intros i I. destruct (Z.eq_dec i (Z.of_nat m)) as [->|]; [lia|]. apply A3. lia.
Qed.
Lemma best_split f k : (k < 64)%nat ->
  fold_left (fun best i => if (best =? 999) || (f i <? f best) then i else best) (map Z.of_nat (seq 0 (S k))) 999 =
  fold_left (fun best i => if (best =? 999) || (f i <? f best) then i else best) (map Z.of_nat (seq 1 k)) 0.
Proof. intros _. reflexivity. Qed.
Lemma best_level_min f : 0 <= best_level f <= 63 /\ forall i, 0 <= i <= 63 -> f (best_level f) <= f i.
Proof.
  assert (E : best_level f = fold_left (fun best i => if (best =? 999) || (f i <? f best) then i else best) (map Z.of_nat (seq 1 63)) 0).
  { unfold best_level. apply best_split. lia. }
  destruct (best_from f 63 1 0 ltac:(lia) ltac:(lia) _ E) as (A1 & A2 & A3).
  split; [exact A1|]. intros i I. destruct (Z.eq_dec i 0) as [->|]; [exact A2|]. apply A3. lia.
Qed.
