(** The filter of one sample and of one block is the specification's. *)
From Verif Require Import Base Cdef_model Cdef_dir.
From Verif Require Cdef_spec.
Open Scope Z_scope.

Lemma clamp_clip v lo hi : clamp v lo hi = Cdef_spec.Clip3 lo hi v.
Proof. reflexivity. Qed.

Lemma constrain_spec d t n : constrain d t n = Cdef_spec.constrain d t n.
Proof.
  unfold constrain, Cdef_spec.constrain, msb. destruct (t =? 0); cbn [negb]; [reflexivity|].
  rewrite clamp_clip, Z.shiftr_div_pow2 by lia.
  destruct (Z.ltb_spec d 0).
  - rewrite Z.sgn_neg by lia. lia.
  - destruct (Z.eq_dec d 0) as [->|]; [|rewrite Z.sgn_pos by lia; lia].
    cbn [Z.sgn]. unfold Cdef_spec.Clip3. cbn [Z.abs].
    repeat match goal with |- context [?a <? ?b] => destruct (Z.ltb_spec a b) end; lia.
Qed.

(* a sample that is not there takes no part *)
Lemma constrain_far v t n : 0 <= v < 4096 -> 0 <= t <= 28672 -> n <= 13 ->
  constrain (CDEF_VERY_LARGE - v) t n = 0.
Proof.
  intros Hv Ht Hn. unfold constrain, CDEF_VERY_LARGE, msb.
  destruct (Z.eqb_spec t 0); cbn [negb]; [reflexivity|].
  rewrite Z.abs_eq by lia. rewrite Z.shiftr_div_pow2 by lia.
  set (s := Z.max 0 (n - Z.log2 t)).
  assert (Hs : t <= (32768 - v) / 2 ^ s).
  { apply Z.div_le_lower_bound; [apply Z.pow_pos_nonneg; lia|].
    destruct (Z.le_gt_cases n (Z.log2 t)).
    - replace s with 0 by lia. lia.
    - replace s with (n - Z.log2 t) by lia.
      pose proof (Z.log2_spec t ltac:(lia)) as [_ L]. pose proof (Z.log2_nonneg t).
      assert (2 ^ (n - Z.log2 t) * t < 2 ^ (n - Z.log2 t) * 2 ^ Z.succ (Z.log2 t)).
      { apply Z.mul_lt_mono_pos_l; [apply Z.pow_pos_nonneg; lia|assumption]. }
      rewrite <- Z.pow_add_r in H1 by lia.
      replace (n - Z.log2 t + Z.succ (Z.log2 t)) with (n + 1) in H1 by lia.
      assert (2 ^ (n + 1) <= 2 ^ 14) by (apply Z.pow_le_mono_r; lia). lia. }
  assert (E : clamp (t - (32768 - v) / 2 ^ s) 0 (32768 - v) = 0).
  { unfold clamp. destruct (Z.ltb_spec (t - (32768 - v) / 2 ^ s) 0); [reflexivity|].
    destruct (Z.ltb_spec (32768 - v) (t - (32768 - v) / 2 ^ s)); lia. }
  rewrite E. destruct (_ <? 0); reflexivity.
Qed.

(** ** One sample.  A tap is a weight, a strength and a sample or nothing. *)
Definition conv (o : option Z) : Z := match o with Some p => p | None => CDEF_VERY_LARGE end.
Definition tap := (Z * Z * option Z)%type.

(* what the encoder does with each tap *)
Definition step (x damping : Z) (st : Z * Z * Z) (t : tap) : Z * Z * Z :=
  let '(sum, max, min) := st in let '(w, str, o) := t in
  (sum + w * constrain (conv o - x) str damping,
   (if negb (conv o =? CDEF_VERY_LARGE) then Z.max (conv o) max else max),
   Z.min (conv o) min).
(* what the specification does with all of them *)
Definition avail (v damping : Z) (l : list tap) : list (Z * Z) :=
  flat_map (fun t => let '(w, str, o) := t in
    match o with Some p => [(w * Cdef_spec.constrain (p - v) str damping, p)] | None => [] end) l.

Definition tap_ok (t : tap) : Prop :=
  let '(_, str, o) := t in
  0 <= str <= 28672 /\ match o with Some p => 0 <= p < 4096 | None => True end.

Lemma steps v damping l : 0 <= v < 4096 -> damping <= 13 -> Forall tap_ok l ->
  forall s mx mn, mn <= v <= mx ->
  fold_left (step v damping) l (s, mx, mn) =
  (s + Cdef_spec.sum (map fst (avail v damping l)),
   fold_left Z.max (map snd (avail v damping l)) mx,
   fold_left Z.min (map snd (avail v damping l)) mn).
Proof.
  intros Hv Hd Hl. induction Hl as [|[[w str] o] l Ho Hl IH]; intros s mx mn Hm.
  - cbn. f_equal. f_equal. lia.
  - destruct Ho as [Hs Ho]. cbn [fold_left step]. destruct o as [p|]; cbn [conv].
    + rewrite (proj2 (Z.eqb_neq p CDEF_VERY_LARGE)) by (unfold CDEF_VERY_LARGE; lia). cbn [negb].
      rewrite IH by lia. cbn [avail flat_map app map fst snd fold_left]. fold (avail v damping l).
      rewrite sum_cons, constrain_spec. rewrite (Z.max_comm p mx), (Z.min_comm p mn).
      f_equal. f_equal. lia.
    + rewrite Z.eqb_refl. cbn [negb]. rewrite constrain_far by assumption.
      rewrite Z.min_r by (unfold CDEF_VERY_LARGE; lia). rewrite Z.mul_0_r, Z.add_0_r.
      rewrite IH by lia. reflexivity.
Qed.

(** the order of the taps does not matter *)
From Coq Require Import Permutation.
Lemma sum_perm l1 l2 : Permutation l1 l2 -> Cdef_spec.sum l1 = Cdef_spec.sum l2.
Proof. induction 1; rewrite ?sum_cons in *; lia. Qed.
Lemma fold_comm_perm (f : Z -> Z -> Z) : (forall a b c, f (f a b) c = f (f a c) b) ->
  forall l1 l2, Permutation l1 l2 -> forall a, fold_left f l1 a = fold_left f l2 a.
Proof.
  intros Hf l1 l2 H. induction H; intros a; cbn; [reflexivity|apply IHPermutation|now rewrite Hf|].
  now rewrite IHPermutation1.
Qed.

Definition out_of (v : Z) (a : list (Z * Z)) : Z :=
  let s := Cdef_spec.sum (map fst a) in
  Cdef_spec.Clip3 (fold_left Z.min (map snd a) v) (fold_left Z.max (map snd a) v)
    (v + (8 + s - (if s <? 0 then 1 else 0)) / 2 ^ 4).

Lemma out_perm v d l1 l2 : Permutation l1 l2 -> out_of v (avail v d l1) = out_of v (avail v d l2).
Proof.
  intros H. assert (Ha : Permutation (avail v d l1) (avail v d l2))
    by (unfold avail; now apply Permutation_flat_map).
  unfold out_of. rewrite (sum_perm _ _ (Permutation_map fst Ha)).
  rewrite (fold_comm_perm Z.min) with (l2 := map snd (avail v d l2)) by (try (intros; lia); now apply Permutation_map).
  rewrite (fold_comm_perm Z.max) with (l2 := map snd (avail v d l2)) by (try (intros; lia); now apply Permutation_map).
  reflexivity.
Qed.

Ltac find_split a r k :=
  match r with
  | a :: ?t => k (@nil tap) t
  | ?b :: ?t => find_split a t ltac:(fun l1 l2 => k (b :: l1) l2)
  end.
Ltac perm :=
  match goal with
  | |- Permutation [] [] => constructor
  | |- Permutation (?a :: ?l) ?r => find_split a r ltac:(fun l1 l2 =>
      change r with (l1 ++ a :: l2); apply (Permutation_cons_app l1 l2 a)); cbn [app]; perm
  end.

Lemma land7 a : Z.land a 7 = a mod 8.
Proof. change 7 with (Z.ones 3). now rewrite Z.land_ones by lia. Qed.

Lemma dir_cases d : 0 <= d < 8 -> d = 0 \/ d = 1 \/ d = 2 \/ d = 3 \/ d = 4 \/ d = 5 \/ d = 6 \/ d = 7.
Proof. lia. Qed.
Lemma dir_off_small d k : 0 <= d < 8 -> k = 0 \/ k = 1 ->
  Z.abs (fst (Cdef_spec.dir_off d k)) <= 2 /\ Z.abs (snd (Cdef_spec.dir_off d k)) <= 2.
Proof.
  intros Hd Hk. apply dir_cases in Hd.
  destruct Hd as [->|[->|[->|[->|[->|[->|[->| ->]]]]]]]; destruct Hk as [->| ->];
    split; vm_compute; intro; discriminate.
Qed.
Lemma directions_spec st d k : 0 <= d < 8 -> k = 0 \/ k = 1 ->
  idx2 (cdef_directions st) d k = fst (Cdef_spec.dir_off d k) * st + snd (Cdef_spec.dir_off d k).
Proof.
  intros Hd Hk. apply dir_cases in Hd.
  destruct Hd as [->|[->|[->|[->|[->|[->|[->| ->]]]]]]]; destruct Hk as [->| ->]; cbv -[Z.mul Z.add Z.sub]; lia.
Qed.

Section Sample.
(* the samples around the one that is filtered, by offset down and right *)
Variables (o : Z -> Z -> option Z) (v pri sec dir damping bd : Z).
Definition pri_tap (k : Z) : Z := Cdef_spec.at2 Cdef_spec.Cdef_Pri_Taps (Z.land (pri / 2 ^ (bd - 8)) 1) k.
Definition sec_tap (k : Z) : Z := Cdef_spec.at2 Cdef_spec.Cdef_Sec_Taps (Z.land (pri / 2 ^ (bd - 8)) 1) k.
Definition at_ (s d k : Z) : option Z :=
  o (s * fst (Cdef_spec.dir_off d k)) (s * snd (Cdef_spec.dir_off d k)).

(* the taps in the order of the encoder *)
Definition enc_taps : list tap :=
  flat_map (fun k => [ (pri_tap k, pri, at_ 1 dir k); (pri_tap k, pri, at_ (-1) dir k);
    (sec_tap k, sec, at_ 1 (Z.land (dir + 2) 7) k); (sec_tap k, sec, at_ (-1) (Z.land (dir + 2) 7) k);
    (sec_tap k, sec, at_ 1 (Z.land (dir + 6) 7) k); (sec_tap k, sec, at_ (-1) (Z.land (dir + 6) 7) k) ]) [0; 1].
(* and in that of the specification *)
Definition spec_taps : list tap :=
  flat_map (fun k => flat_map (fun s => [ (pri_tap k, pri, at_ s dir k);
    (sec_tap k, sec, at_ s (Z.land (dir + -2) 7) k); (sec_tap k, sec, at_ s (Z.land (dir + 2) 7) k) ]) [-1; 1]) [0; 1].

Lemma taps_perm : Permutation enc_taps spec_taps.
Proof.
  unfold enc_taps, spec_taps. cbn [flat_map app].
  assert (E : Z.land (dir + 6) 7 = Z.land (dir + -2) 7).
  { rewrite !land7. replace (dir + 6) with (dir + -2 + 1 * 8) by lia. now rewrite Z.mod_add by lia. }
  rewrite E.
  repeat match goal with |- context [(?a, ?b, at_ ?c ?d ?e)] => generalize (a, b, at_ c d e); intro end.
  perm.
Qed.

Variables (input : Z -> Z) (ptr istride : Z).
Hypotheses (Hdir : 0 <= dir < 8) (Hv : 0 <= v < 4096) (Hd : damping <= 13) (Hbd : 8 <= bd)
  (Hpri : 0 <= pri <= 28672) (Hsec : 0 <= sec <= 28672)
  (Ho : forall dy dx p, o dy dx = Some p -> 0 <= p < 4096)
  (H0 : input ptr = v)
  (Hin : forall dy dx, Z.abs dy <= 2 -> Z.abs dx <= 2 -> input (ptr + dy * istride + dx) = conv (o dy dx)).

Lemma at_read d k : 0 <= d < 8 -> k = 0 \/ k = 1 ->
  input (ptr + idx2 (cdef_directions istride) d k) = conv (at_ 1 d k) /\
  input (ptr - idx2 (cdef_directions istride) d k) = conv (at_ (-1) d k).
Proof.
  intros Hd' Hk. rewrite directions_spec by assumption. pose proof (dir_off_small d k Hd' Hk) as [S1 S2].
  unfold at_. split; rewrite <- Hin by lia; f_equal; lia.
Qed.

Lemma taps_tables k : k = 0 \/ k = 1 ->
  idx (nth (Z.to_nat (Z.land (Z.shiftr pri (bd - 8)) 1)) [[4; 2]; [3; 3]] []) k = pri_tap k /\
  idx (nth (Z.to_nat (Z.land (Z.shiftr pri (bd - 8)) 1)) [[2; 1]; [2; 1]] []) k = sec_tap k.
Proof.
  intros Hk. rewrite Z.shiftr_div_pow2 by lia. split; reflexivity.
Qed.

Lemma enc_taps_ok : Forall tap_ok enc_taps.
Proof.
  assert (T : forall w str d s k, 0 <= str <= 28672 -> tap_ok (w, str, at_ s d k)).
  { intros. split; [assumption|]. destruct (at_ s d k) eqn:E; [|exact I]. now apply Ho in E. }
  unfold enc_taps. cbn [flat_map app]. repeat (constructor; [now apply T|]). constructor.
Qed.

Lemma filter_px_enc :
  filter_px input ptr istride pri sec dir damping bd =
  out_of v (avail v damping spec_taps).
Proof.
  rewrite <- (out_perm v damping _ _ taps_perm).
  unfold filter_px. rewrite H0. cbv zeta.
  assert (R2 : 0 <= Z.land (dir + 2) 7 < 8) by (rewrite land7; apply Z.mod_pos_bound; lia).
  assert (R6 : 0 <= Z.land (dir + 6) 7 < 8) by (rewrite land7; apply Z.mod_pos_bound; lia).
  match goal with |- context [fold_left ?F [0; 1] (0, v, v)] =>
    assert (E : fold_left F [0; 1] (0, v, v) = fold_left (step v damping) enc_taps (0, v, v)) end.
  { unfold enc_taps. cbn [flat_map]. rewrite app_nil_r, fold_left_app.
    rewrite fold_left_ext_in with (g := fun st k => fold_left (step v damping) [ (pri_tap k, pri, at_ 1 dir k); (pri_tap k, pri, at_ (-1) dir k);
    (sec_tap k, sec, at_ 1 (Z.land (dir + 2) 7) k); (sec_tap k, sec, at_ (-1) (Z.land (dir + 2) 7) k);
    (sec_tap k, sec, at_ 1 (Z.land (dir + 6) 7) k); (sec_tap k, sec, at_ (-1) (Z.land (dir + 6) 7) k) ] st); [reflexivity|].
    intros [[s mx] mn] k Hk. assert (Hk' : k = 0 \/ k = 1) by (cbn in Hk; lia). clear Hk.
    pose proof (taps_tables k Hk') as [T1 T2].
    pose proof (at_read dir k Hdir Hk') as [A1 A2].
    pose proof (at_read _ k R2 Hk') as [B1 B2].
    pose proof (at_read _ k R6 Hk') as [C1 C2].
    rewrite T1, T2, A1, A2, B1, B2, C1, C2. reflexivity. }
  rewrite E, (steps v damping enc_taps Hv Hd enc_taps_ok 0 v v) by lia.
  rewrite Z.add_0_l, Z.shiftr_div_pow2 by lia. rewrite clamp_clip. reflexivity.
Qed.
End Sample.

(** ** The padded buffer *)
Lemma zrange_snoc a b : a <= b -> zrange a (b + 1) = zrange a b ++ [b].
Proof.
  intros H. unfold zrange. replace (Z.to_nat (b + 1 - a)) with (S (Z.to_nat (b - a))) by lia.
  rewrite seq_S, map_app. cbn [map]. do 2 f_equal. lia.
Qed.
Lemma zrange_nil a : zrange a a = [].
Proof. unfold zrange. now rewrite Z.sub_diag. Qed.
Lemma in_zrange a b x : In x (zrange a b) <-> a <= x < b.
Proof.
  unfold zrange. rewrite in_map_iff. split.
  - intros [k [<- Hk]]. apply in_seq in Hk. lia.
  - intros H. exists (Z.to_nat (x - a)). split; [lia|]. apply in_seq. lia.
Qed.

Lemma pad_row src (sp dp w : Z) tmp : 0 <= w -> forall a,
  fold_left (fun tmp x => set1 tmp (dp + x) (src (sp + x))) (zrange 0 w) tmp a =
  if (dp <=? a) && (a <? dp + w) then src (sp + (a - dp)) else tmp a.
Proof.
  intros Hw. pattern w. apply natlike_ind; [| |assumption].
  - intros a. rewrite zrange_nil. cbn. destruct (Z.leb_spec dp a), (Z.ltb_spec a (dp + 0)); cbn; lia.
  - intros n Hn IH a. rewrite <- Z.add_1_r, zrange_snoc by lia. rewrite fold_left_app. cbn [fold_left].
    unfold set1 at 1. rewrite IH. destruct (Z.eqb_spec a (dp + n)).
    + subst a. rewrite (proj2 (Z.leb_le dp (dp + n))), (proj2 (Z.ltb_lt (dp + n) (dp + (n + 1)))) by lia.
      cbn [andb]. f_equal. lia.
    + destruct (Z.leb_spec dp a), (Z.ltb_spec a (dp + n)), (Z.ltb_spec a (dp + (n + 1))); cbn [andb]; lia || reflexivity.
Qed.

Lemma pad_rows src ds ss w tmp : 0 <= w <= ds -> forall h, 0 <= h -> forall dp sp,
  let st := fold_left (fun st (_ : Z) =>
    let '(tmp, dst_ptr, src_ptr) := st in
    (fold_left (fun tmp x => set1 tmp (dst_ptr + x) (src (src_ptr + x))) (zrange 0 w) tmp,
     dst_ptr + ds, src_ptr + ss)) (zrange 0 h) (tmp, dp, sp) in
  snd (fst st) = dp + h * ds /\ snd st = sp + h * ss /\
  (forall r c, 0 <= c < ds -> fst (fst st) (dp + r * ds + c) =
    if (0 <=? r) && (r <? h) && (c <? w) then src (sp + r * ss + c) else tmp (dp + r * ds + c)).
Proof.
  intros Hw h Hh dp sp. pattern h. apply natlike_ind; [| |assumption].
  - rewrite zrange_nil. cbn [fold_left fst snd]. split; [lia|]. split; [lia|]. intros r c Hc.
    destruct (Z.leb_spec 0 r), (Z.ltb_spec r 0); cbn; lia || reflexivity.
  - intros n Hn IH. rewrite <- Z.add_1_r, zrange_snoc by lia. rewrite fold_left_app. cbv zeta in *.
    set (st := fold_left _ (zrange 0 n) _) in *. destruct st as [[t d] s]. cbn [fst snd] in IH.
    destruct IH as [-> [-> IH]]. cbn [fold_left fst snd]. split; [lia|]. split; [lia|].
    intros r c Hc. rewrite pad_row by lia.
    assert (Hn2 : n < r -> (n + 1) * ds <= r * ds) by (intros; apply Z.mul_le_mono_nonneg_r; lia).
    assert (Hn3 : r < n -> (r + 1) * ds <= n * ds) by (intros; apply Z.mul_le_mono_nonneg_r; lia).
    destruct (Z.eq_dec r n) as [->|Hr].
    + rewrite (proj2 (Z.leb_le (dp + n * ds) (dp + n * ds + c))) by lia.
      rewrite (proj2 (Z.leb_le 0 n)), (proj2 (Z.ltb_lt n (n + 1))) by lia. cbn [andb].
      destruct (Z.ltb_spec c w).
      * rewrite (proj2 (Z.ltb_lt (dp + n * ds + c) (dp + n * ds + w))) by lia. f_equal. lia.
      * rewrite (proj2 (Z.ltb_ge (dp + n * ds + c) (dp + n * ds + w))) by lia.
        rewrite IH by lia. rewrite Z.ltb_irrefl, andb_false_r. reflexivity.
    + replace ((dp + n * ds <=? dp + r * ds + c) && (dp + r * ds + c <? dp + n * ds + w)) with false.
      2: { symmetry. apply andb_false_iff. destruct (Z.lt_total r n) as [|[|]].
           - left. apply Z.leb_gt. lia.
           - lia.
           - right. apply Z.ltb_ge. lia. }
      rewrite IH by lia. replace (r <? n + 1) with (r <? n) by lia. reflexivity.
Qed.

Lemma pad_rows_at src ds ss w tmp h r0 c0 dp sp r c : 0 <= w -> 0 <= c0 -> c0 + w <= ds -> 0 <= h ->
  dp = r0 * ds + c0 -> 0 <= c < ds ->
  fst (fst (fold_left (fun st (_ : Z) =>
    let '(tmp, dst_ptr, src_ptr) := st in
    (fold_left (fun tmp x => set1 tmp (dst_ptr + x) (src (src_ptr + x))) (zrange 0 w) tmp,
     dst_ptr + ds, src_ptr + ss)) (zrange 0 h) (tmp, dp, sp))) (r * ds + c) =
  if (r0 <=? r) && (r <? r0 + h) && (c0 <=? c) && (c <? c0 + w)
  then src (sp + (r - r0) * ss + (c - c0)) else tmp (r * ds + c).
Proof.
  intros Hw Hc0 Hcw Hh Hdp Hc.
  destruct (pad_rows src ds ss w tmp ltac:(lia) h Hh dp sp) as [_ [_ H]].
  destruct (Z.leb_spec c0 c).
  - specialize (H (r - r0) (c - c0) ltac:(lia)).
    replace (dp + (r - r0) * ds + (c - c0)) with (r * ds + c) in H by lia. rewrite H.
    replace ((0 <=? r - r0) && (r - r0 <? h) && (c - c0 <? w))
      with ((r0 <=? r) && (r <? r0 + h) && true && (c <? c0 + w)) by lia.
    reflexivity.
  - specialize (H (r - 1 - r0) (c - c0 + ds) ltac:(lia)).
    replace (dp + (r - 1 - r0) * ds + (c - c0 + ds)) with (r * ds + c) in H by lia. rewrite H.
    rewrite (proj2 (Z.ltb_ge (c - c0 + ds) w)) by lia. rewrite !andb_false_r. reflexivity.
Qed.

(* the buffer after padding: row [r] and column [c] of an array with rows of [ts] *)
Lemma pad_spec tmp ts src s0 ss bw bh edges : 0 <= bw -> 0 <= bh -> ts = bw + 4 ->
  forall r c, 0 <= r < bh + 4 -> 0 <= c < ts ->
  pad_into_tmp16 tmp 0 ts src s0 ss bw bh edges (r * ts + c) =
  if (have edges CDEF_HAVE_LEFT || (2 <=? c)) && (have edges CDEF_HAVE_RIGHT || (c <? bw + 2)) &&
     (have edges CDEF_HAVE_TOP || (2 <=? r)) && (have edges CDEF_HAVE_BOTTOM || (r <? bh + 2))
  then src (s0 + (r - 2) * ss + (c - 2)) else tmp (r * ts + c).
Proof.
  intros Hbw Hbh -> r c Hr Hc. unfold pad_into_tmp16.
  destruct (have edges CDEF_HAVE_LEFT), (have edges CDEF_HAVE_RIGHT),
    (have edges CDEF_HAVE_TOP), (have edges CDEF_HAVE_BOTTOM); cbn [orb]; cbv beta iota zeta;
    match goal with
    | |- fst (fst (fold_left _ _ (_, 0, _))) _ = _ => rewrite pad_rows_at with (r0 := 0) (c0 := 0) by lia
    | |- fst (fst (fold_left _ _ (_, 0 + 2, _))) _ = _ => rewrite pad_rows_at with (r0 := 0) (c0 := 2) by lia
    | |- fst (fst (fold_left _ _ (_, 0 + 2 * _, _))) _ = _ => rewrite pad_rows_at with (r0 := 2) (c0 := 0) by lia
    | |- fst (fst (fold_left _ _ (_, 0 + 2 + 2 * _, _))) _ = _ => rewrite pad_rows_at with (r0 := 2) (c0 := 2) by lia
    end;
    repeat match goal with |- context [?a <=? ?b] => destruct (Z.leb_spec a b) end;
    repeat match goal with |- context [?a <? ?b] => destruct (Z.ltb_spec a b) end;
    cbn [andb]; try lia; try reflexivity; f_equal; lia.
Qed.

(* nothing outside the rows of the buffer is written *)
Lemma pad_outside tmp ts src s0 ss bw bh edges a : 0 <= bw -> 0 <= bh -> ts = bw + 4 ->
  ~ (0 <= a < (bh + 4) * ts) -> pad_into_tmp16 tmp 0 ts src s0 ss bw bh edges a = tmp a.
Proof.
  intros Hbw Hbh Hts Ha.
  assert (Hr : ~ (0 <= a / ts < bh + 4)).
  { intros [H1 H2]. apply Ha. split; [pose proof (Z.mul_div_le a ts); nia|].
    pose proof (Z.mul_succ_div_gt a ts). nia. }
  rewrite (Z.div_mod a ts) by lia. rewrite (Z.mul_comm ts).
  assert (Hc : 0 <= a mod ts < ts) by (apply Z.mod_pos_bound; lia).
  set (r := a / ts) in *. set (c := a mod ts) in *. clearbody r c. subst ts.
  unfold pad_into_tmp16.
  destruct (have edges CDEF_HAVE_LEFT), (have edges CDEF_HAVE_RIGHT),
    (have edges CDEF_HAVE_TOP), (have edges CDEF_HAVE_BOTTOM); cbn [orb]; cbv beta iota zeta;
    match goal with
    | |- fst (fst (fold_left _ _ (_, 0, _))) _ = _ => rewrite pad_rows_at with (r0 := 0) (c0 := 0) by lia
    | |- fst (fst (fold_left _ _ (_, 0 + 2, _))) _ = _ => rewrite pad_rows_at with (r0 := 0) (c0 := 2) by lia
    | |- fst (fst (fold_left _ _ (_, 0 + 2 * _, _))) _ = _ => rewrite pad_rows_at with (r0 := 2) (c0 := 0) by lia
    | |- fst (fst (fold_left _ _ (_, 0 + 2 + 2 * _, _))) _ = _ => rewrite pad_rows_at with (r0 := 2) (c0 := 2) by lia
    end;
    match goal with |- (if ?b then _ else _) = _ => replace b with false by lia end; reflexivity.
Qed.

(** ** A block.  The samples the encoder may use are those its edge flags allow. *)
Definition edge_ok (edges bw bh r c : Z) : bool :=
  (have edges CDEF_HAVE_LEFT || (0 <=? c)) && (have edges CDEF_HAVE_RIGHT || (c <? bw)) &&
  (have edges CDEF_HAVE_TOP || (0 <=? r)) && (have edges CDEF_HAVE_BOTTOM || (r <? bh)).

Lemma filter_block_spec junk mem ptr st pri sec dir damping bd xdec ydec edges i j :
  0 <= xdec <= 1 -> 0 <= ydec <= 1 -> 0 <= i < Z.shiftr 8 ydec -> 0 <= j < Z.shiftr 8 xdec ->
  0 <= dir < 8 -> damping <= 13 -> 8 <= bd -> 0 <= pri <= 28672 -> 0 <= sec <= 28672 ->
  (forall r c, edge_ok edges (Z.shiftr 8 xdec) (Z.shiftr 8 ydec) r c = true ->
     -2 <= r < Z.shiftr 8 ydec + 2 -> -2 <= c < Z.shiftr 8 xdec + 2 -> 0 <= mem (ptr + r * st + c) < 4096) ->
  let o := fun dy dx => if (Z.abs dy <=? 2) && (Z.abs dx <=? 2) &&
      edge_ok edges (Z.shiftr 8 xdec) (Z.shiftr 8 ydec) (i + dy) (j + dx)
    then Some (mem (ptr + (i + dy) * st + (j + dx))) else None in
  let v := mem (ptr + i * st + j) in
  cdef_filter_block junk mem ptr st pri sec dir damping bd xdec ydec edges i j =
  out_of v (avail v damping (spec_taps o pri sec dir bd)).
Proof.
  intros Hx Hy Hi Hj Hdir Hd Hbd Hpri Hsec Hmem o v.
  set (bw := Z.shiftr 8 xdec) in *. set (bh := Z.shiftr 8 ydec) in *.
  assert (Hbw : bw = 4 \/ bw = 8) by (unfold bw; assert (xdec = 0 \/ xdec = 1) as [->| ->] by lia; cbn; lia).
  assert (Hbh : bh = 4 \/ bh = 8) by (unfold bh; assert (ydec = 0 \/ ydec = 1) as [->| ->] by lia; cbn; lia).
  assert (Hin : edge_ok edges bw bh i j = true) by (unfold edge_ok; lia).
  assert (Hv : 0 <= v < 4096) by (apply Hmem; [assumption|lia|lia]).
  assert (Ho : forall dy dx p, o dy dx = Some p -> 0 <= p < 4096).
  { intros dy dx p. unfold o. destruct (edge_ok edges bw bh (i + dy) (j + dx)) eqn:E; [|now rewrite andb_false_r].
    rewrite andb_true_r. destruct (Z.leb_spec (Z.abs dy) 2), (Z.leb_spec (Z.abs dx) 2); cbn [andb]; try discriminate.
    intros [= <-]. apply Hmem; [assumption|lia|lia]. }
  unfold cdef_filter_block. fold bw bh. destruct (Z.eqb_spec edges CDEF_HAVE_ALL) as [He|He]; cbn [negb].
  - rewrite (filter_px_enc o v); try assumption; [reflexivity| |].
    + unfold v. f_equal. lia.
    + intros dy dx Hdy Hdx. unfold o. rewrite (proj2 (Z.leb_le _ _) Hdy), (proj2 (Z.leb_le _ _) Hdx). cbn [andb].
      unfold edge_ok. rewrite He. cbn -[Z.mul Z.add]. f_equal. lia.
  - set (tmp := fun a => if (0 <=? a) && (a <? 144) then CDEF_VERY_LARGE else junk a).
    set (t2 := pad_into_tmp16 _ _ _ _ _ _ _ _ _).
    assert (HT : forall r c, -2 <= r < bh + 2 -> -2 <= c < bw + 2 ->
      t2 ((r + 2) * (2 + bw + 2) + (c + 2)) =
      if edge_ok edges bw bh r c then mem (ptr + r * st + c) else CDEF_VERY_LARGE).
    { intros r c Hr Hc. unfold t2. rewrite pad_spec by lia. unfold edge_ok.
      replace (2 <=? c + 2) with (0 <=? c) by lia. replace (c + 2 <? bw + 2) with (c <? bw) by lia.
      replace (2 <=? r + 2) with (0 <=? r) by lia. replace (r + 2 <? bh + 2) with (r <? bh) by lia.
      destruct (_ && _); [f_equal; lia|]. unfold tmp.
      assert ((r + 2) * (2 + bw + 2) <= 11 * (2 + bw + 2)) by (apply Z.mul_le_mono_nonneg_r; lia).
      rewrite (proj2 (Z.leb_le 0 _)), (proj2 (Z.ltb_lt _ 144)) by nia. reflexivity. }
    clearbody t2.
    rewrite (filter_px_enc o v); try assumption; [reflexivity| |].
    + unfold v. replace (2 * (2 + bw + 2) + 2 + (i * (2 + bw + 2) + j))
        with ((i + 2) * (2 + bw + 2) + (j + 2)) by lia.
      rewrite HT by lia. now rewrite Hin.
    + intros dy dx Hdy Hdx. unfold o. rewrite (proj2 (Z.leb_le _ _) Hdy), (proj2 (Z.leb_le _ _) Hdx). cbn [andb].
      replace (2 * (2 + bw + 2) + 2 + (i * (2 + bw + 2) + j) + dy * (2 + bw + 2) + dx)
        with ((i + dy + 2) * (2 + bw + 2) + (j + dx + 2)) by lia.
      rewrite HT by lia. destruct (edge_ok edges bw bh (i + dy) (j + dx)); reflexivity.
Qed.

(** ** The specification's filter in the same terms *)
Lemma flat_map_map_tap v damping (l : list (Z * Z * Z * Z)) (g : Z -> Z -> option Z) :
  flat_map (fun t => match t with (w, str, ty, tx) =>
      match g ty tx with
      | Some p => [(w * Cdef_spec.constrain (p - v) str damping, p)]
      | None => [] end end) l =
  avail v damping (map (fun t => match t with (w, str, ty, tx) => (w, str, g ty tx) end) l).
Proof.
  induction l as [|[[[w str] ty] tx] l IH]; cbn [flat_map map avail]; [reflexivity|].
  fold (avail v damping (map (fun t => match t with (w, str, ty, tx) => (w, str, g ty tx) end) l)).
  now rewrite IH.
Qed.

Lemma cdef_filter_taps bd MiRows MiCols sx sy F plane pri sec damping dir y x :
  Cdef_spec.cdef_filter bd MiRows MiCols sx sy F plane pri sec damping dir y x =
  out_of (F plane y x) (avail (F plane y x) damping
    (spec_taps (fun dy dx => Cdef_spec.cdef_get_at MiRows MiCols sx sy F plane (y + dy) (x + dx)) pri sec dir bd)).
Proof.
  unfold Cdef_spec.cdef_filter. rewrite flat_map_map_tap. reflexivity.
Qed.

Lemma spec_taps_ext o1 o2 pri sec dir bd : 0 <= dir < 8 ->
  (forall dy dx, Z.abs dy <= 2 -> Z.abs dx <= 2 -> o1 dy dx = o2 dy dx) ->
  spec_taps o1 pri sec dir bd = spec_taps o2 pri sec dir bd.
Proof.
  intros Hd H.
  assert (A : forall s d k, s = 1 \/ s = -1 -> 0 <= d < 8 -> k = 0 \/ k = 1 -> at_ o1 s d k = at_ o2 s d k).
  { intros s d k Hs Hd' Hk. unfold at_. pose proof (dir_off_small d k Hd' Hk). apply H; lia. }
  assert (R : forall a, 0 <= Z.land a 7 < 8) by (intros; rewrite land7; apply Z.mod_pos_bound; lia).
  unfold spec_taps. cbn [flat_map app].
  rewrite !(A (-1) dir 0), !(A 1 dir 0), !(A (-1) dir 1), !(A 1 dir 1) by (auto; lia).
  rewrite !(A (-1) (Z.land (dir + -2) 7) 0), !(A 1 (Z.land (dir + -2) 7) 0),
    !(A (-1) (Z.land (dir + -2) 7) 1), !(A 1 (Z.land (dir + -2) 7) 1) by auto.
  rewrite !(A (-1) (Z.land (dir + 2) 7) 0), !(A 1 (Z.land (dir + 2) 7) 0),
    !(A (-1) (Z.land (dir + 2) 7) 1), !(A 1 (Z.land (dir + 2) 7) 1) by auto.
  reflexivity.
Qed.

(** ** The result lies between the least and the greatest sample it was made from *)
Lemma out_between v a lo hi : lo <= v <= hi -> Forall (fun t => lo <= snd t <= hi) a ->
  lo <= out_of v a <= hi.
Proof.
  intros Hv Ha. unfold out_of.
  assert (Hmax : forall l m, lo <= m <= hi -> Forall (fun p => lo <= p <= hi) l -> lo <= fold_left Z.max l m <= hi /\ m <= fold_left Z.max l m).
  { induction l as [|p l IH]; intros m Hm Hl; cbn; [lia|]. inversion Hl; subst.
    specialize (IH (Z.max m p) ltac:(lia) H2). lia. }
  assert (Hmin : forall l m, lo <= m <= hi -> Forall (fun p => lo <= p <= hi) l -> lo <= fold_left Z.min l m <= hi /\ fold_left Z.min l m <= m).
  { induction l as [|p l IH]; intros m Hm Hl; cbn; [lia|]. inversion Hl; subst.
    specialize (IH (Z.min m p) ltac:(lia) H2). lia. }
  assert (Hl : Forall (fun p => lo <= p <= hi) (map snd a)) by (now apply Forall_map).
  destruct (Hmax _ v Hv Hl), (Hmin _ v Hv Hl). unfold Cdef_spec.Clip3.
  repeat match goal with |- context [?a <? ?b] => destruct (Z.ltb_spec a b) end; lia.
Qed.
