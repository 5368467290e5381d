(** Segment identifiers are read back. *)
From Verif Require Import Sym Seg_model Seg_spec.
Open Scope string_scope.
Open Scope Z_scope.
Open Scope list_scope.

Lemma odd_double_pred k : Z.odd (2 * k - 1) = true.
Proof.
  replace (2 * k - 1) with (1 + 2 * (k - 1)) by ring.
  rewrite Z.odd_add_mul_2. reflexivity.
Qed.
Lemma odd_double k : Z.odd (2 * k) = false.
Proof. replace (2 * k) with (0 + 2 * k) by ring. rewrite Z.odd_add_mul_2. reflexivity. Qed.

Lemma neg_roundtrip x r max : 0 <= x < max -> 0 <= r ->
  exists d, neg_interleave x r max = Some d /\ 0 <= d < max /\ neg_deinterleave d r max = x.
Proof.
  intros Hx Hr. unfold neg_interleave, neg_deinterleave.
  replace (x <? max) with true by lia. cbn [negb].
  destruct (r =? 0) eqn:E0; [exists x; split; [reflexivity|lia]|].
  destruct (max - 1 <=? r) eqn:E1.
  { exists (- x + max - 1). split; [reflexivity|]. split; [lia|].
    replace (r >=? max - 1) with true by lia. lia. }
  replace (r >=? max - 1) with false by lia.
  cbv zeta. rewrite !Z.shiftl_mul_pow2 by lia. change (2 ^ 1) with 2.
  destruct (2 * r <? max) eqn:E2.
  - destruct (Z.abs (x - r) <=? r) eqn:E3.
    + destruct (0 <? x - r) eqn:E4.
      * exists ((x - r) * 2 - 1). split; [reflexivity|]. split; [lia|].
        replace ((x - r) * 2 - 1 <=? 2 * r) with true by lia.
        rewrite (Z.mul_comm _ 2), odd_double_pred.
        replace (2 * (x - r) - 1 + 1) with ((x - r) * 2) by ring.
        rewrite Z.div_mul by lia. lia.
      * exists (- (x - r) * 2). split; [reflexivity|]. split; [lia|].
        replace (- (x - r) * 2 <=? 2 * r) with true by lia.
        rewrite Z.div_mul by lia. rewrite (Z.mul_comm _ 2), odd_double. lia.
    + exists x. split; [reflexivity|]. split; [lia|].
      replace (x <=? 2 * r) with false by lia. reflexivity.
  - destruct (Z.abs (x - r) <? max - r) eqn:E3.
    + destruct (0 <? x - r) eqn:E4.
      * exists ((x - r) * 2 - 1). split; [reflexivity|]. split; [lia|].
        replace ((x - r) * 2 - 1 <=? 2 * (max - r - 1)) with true by lia.
        rewrite (Z.mul_comm _ 2), odd_double_pred.
        replace (2 * (x - r) - 1 + 1) with ((x - r) * 2) by ring.
        rewrite Z.div_mul by lia. lia.
      * exists (- (x - r) * 2). split; [reflexivity|]. split; [lia|].
        replace (- (x - r) * 2 <=? 2 * (max - r - 1)) with true by lia.
        rewrite Z.div_mul by lia. rewrite (Z.mul_comm _ 2), odd_double. lia.
    + exists (max - x - 1). split; [reflexivity|]. split; [lia|].
      replace (max - x - 1 <=? 2 * (max - r - 1)) with false by lia. lia.
Qed.

Section Tile.
Variables (preskip : bool) (last cols rows : Z).
Hypothesis Hlast : 0 <= last < 8.

(** cells already coded *)
Definition done (l : list sblock) (c r : Z) : Prop :=
  exists b, In b l /\ covers cols rows (sb_x b) (sb_y b) (sb_w b) (sb_h b) c r = true.

(** the block starts inside the tile, has a legal segment, and the units above
    it, to its left and diagonally above were coded before *)
Definition legal (prev : list sblock) (b : sblock) : Prop :=
  0 <= sb_x b < cols /\ 0 <= sb_y b < rows /\ 0 < sb_w b /\ 0 < sb_h b /\
  0 <= sb_idx b <= last /\
  (0 < sb_y b -> done prev (sb_x b) (sb_y b - 1)) /\
  (0 < sb_x b -> done prev (sb_x b - 1) (sb_y b)) /\
  (0 < sb_x b -> 0 < sb_y b -> done prev (sb_x b - 1) (sb_y b - 1)).

(** a legal coding order; blocks do not overlap *)
Fixpoint legal_order (prev : list sblock) (bs : list sblock) : Prop :=
  match bs with
  | [] => True
  | b :: bs =>
      legal prev b /\
      (forall c r, done prev c r -> covers cols rows (sb_x b) (sb_y b) (sb_w b) (sb_h b) c r = false) /\
      legal_order (prev ++ [b]) bs
  end.

Lemma set_store m x y bw bh v c r : x < cols -> 0 < bw ->
  set_segmentation_idx cols rows m x y bw bh v c r = store cols rows m x y bw bh v c r.
Proof.
  intros Hx Hw. unfold set_segmentation_idx, store, covers. cbv zeta.
  replace (x + (if cols <=? x + bw then cols - x else bw)) with (Z.min (x + bw) cols)
    by (destruct (cols <=? x + bw) eqn:E; lia).
  match goal with |- (if ?a then _ else _) = (if ?b then _ else _) => replace a with b; [reflexivity|] end.
  apply eq_true_iff_eq. rewrite !andb_true_iff, !Z.ltb_lt, !Z.leb_le. lia.
Qed.

(** agreement of the two maps on the coded cells, all of them legal *)
Definition agree (l : list sblock) (m ids : segmap) : Prop :=
  forall c r, done l c r -> m c r = ids c r /\ 0 <= m c r <= last.

Lemma pred_same (m ids : segmap) x y :
  0 <= x -> 0 <= y ->
  (0 < y -> m x (y - 1) = ids x (y - 1) /\ 0 <= m x (y - 1) <= last) ->
  (0 < x -> m (x - 1) y = ids (x - 1) y /\ 0 <= m (x - 1) y <= last) ->
  (0 < x -> 0 < y -> m (x - 1) (y - 1) = ids (x - 1) (y - 1) /\ 0 <= m (x - 1) (y - 1) <= last) ->
  get_segment_pred m x y last = (seg_pred (neighbours ids x y), seg_ctx (neighbours ids x y)) /\
  0 <= seg_pred (neighbours ids x y) <= last /\ 0 <= seg_ctx (neighbours ids x y) <= 2.
Proof.
  intros Hx Hy HU HL HD. unfold get_segment_pred, neighbours.
  rewrite !Z.gtb_ltb.
  assert (I8 : forall v, 0 <= v <= last -> as_i8 v = v).
  { intros v Hv. unfold as_i8. replace (v <? 128) with true by lia. reflexivity. }
  assert (U8 : forall v, 0 <= v <= last -> Z.min (as_u8 v) last = v).
  { intros v Hv. unfold as_u8. rewrite Z.mod_small by lia. lia. }
  assert (U0 : Z.min (as_u8 0) last = 0) by (unfold as_u8; cbn; lia).
  destruct (0 <? x) eqn:Ex; destruct (0 <? y) eqn:Ey; cbn [andb].
  - destruct (HU ltac:(lia)) as [<- BU]. destruct (HL ltac:(lia)) as [<- BL].
    destruct (HD ltac:(lia) ltac:(lia)) as [<- BD].
    set (u := m x (y - 1)) in *. set (l := m (x - 1) y) in *. set (d := m (x - 1) (y - 1)) in *.
    clearbody u l d. rewrite !I8 by assumption.
    cbn [seg_pred seg_ctx].
    replace (u =? -1) with false by lia. replace (l =? -1) with false by lia.
    replace (d <? 0) with false by lia. replace (u <? 0) with false by lia.
    replace (l <? 0) with false by lia. cbn [orb].
    split; [|destruct ((d =? u) && (d =? l))%bool, ((d =? u) || (d =? l) || (u =? l))%bool, (d =? u); lia].
    f_equal. destruct (d =? u); apply U8; lia.
  - destruct (HL ltac:(lia)) as [<- BL]. set (l := m (x - 1) y) in *. clearbody l.
    rewrite !I8 by assumption. cbn [seg_pred seg_ctx Z.ltb Z.compare orb Z.eqb Pos.eqb].
    replace (l =? -1) with false by lia.
    rewrite U8 by lia. split; [reflexivity|lia].
  - destruct (HU ltac:(lia)) as [<- BU]. set (u := m x (y - 1)) in *. clearbody u.
    rewrite !I8 by assumption. cbn [seg_pred seg_ctx Z.ltb Z.compare orb Z.eqb Pos.eqb].
    replace (u =? -1) with false by lia. 
    rewrite U8 by lia. split; [reflexivity|lia].
  - cbn [seg_pred seg_ctx Z.ltb Z.compare orb Z.eqb Pos.eqb].
    rewrite U0. split; [reflexivity|lia].
Qed.

Lemma covers_self x y w h : 0 <= x < cols -> 0 <= y < rows -> 0 < w -> 0 < h ->
  covers cols rows x y w h x y = true.
Proof. intros. unfold covers. rewrite !andb_true_iff, !Z.ltb_lt, !Z.leb_le. lia. Qed.

Lemma done_app l1 l2 c r : done (l1 ++ l2) c r <-> done l1 c r \/ done l2 c r.
Proof.
  unfold done. split.
  - intros [b [I C]]. apply in_app_or in I. destruct I; [left|right]; exists b; auto.
  - intros [[b [I C]]|[b [I C]]]; exists b; split; auto; apply in_or_app; auto.
Qed.
Lemma done_one b c r : done [b] c r <-> covers cols rows (sb_x b) (sb_y b) (sb_w b) (sb_h b) c r = true.
Proof.
  unfold done. split.
  - intros [b' [[->|[]] C]]. exact C.
  - intros C. exists b. split; [left; reflexivity|exact C].
Qed.

(** One block. *)
Lemma block_step prev m0 mt ids b :
  agree prev m0 ids -> legal prev b ->
  (forall c r, done prev c r -> mt c r = m0 c r) ->
  (* blocks do not overlap what was coded *)
  (forall c r, done prev c r -> covers cols rows (sb_x b) (sb_y b) (sb_w b) (sb_h b) c r = false) ->
  exists e m' v,
    pre_cdef preskip last cols rows
      (set_segmentation_idx cols rows mt (sb_x b) (sb_y b) (sb_w b) (sb_h b) (sb_idx b))
      (sb_x b) (sb_y b) (sb_w b) (sb_h b) (sb_ctx b) (sb_skip b) = Some (e, m') /\
    (forall rest, read_block preskip last ids (sb_x b) (sb_y b) (sb_ctx b) (e ++ rest)
       = Some ((v, sb_skip b), rest)) /\
    (sb_skip b = false \/ preskip = true -> v = sb_idx b) /\
    agree (prev ++ [b]) m' (store cols rows ids (sb_x b) (sb_y b) (sb_w b) (sb_h b) v).
Proof.
  intros HA (Hx & Hy & Hw & Hh & Hidx & HU & HL & HD) HT HO.
  set (m1 := set_segmentation_idx cols rows mt (sb_x b) (sb_y b) (sb_w b) (sb_h b) (sb_idx b)).
  assert (M1 : forall c r, m1 c r = store cols rows mt (sb_x b) (sb_y b) (sb_w b) (sb_h b) (sb_idx b) c r).
  { intros. apply set_store; lia. }
  assert (M1p : forall c r, done prev c r -> m1 c r = ids c r /\ 0 <= m1 c r <= last).
  { intros c r D. rewrite M1. unfold store. rewrite (HO c r D), (HT c r D). apply HA, D. }
  assert (M1b : m1 (sb_x b) (sb_y b) = sb_idx b).
  { rewrite M1. unfold store. rewrite covers_self by lia. reflexivity. }
  destruct (pred_same m1 ids (sb_x b) (sb_y b)) as [EP [BP BC]]; try lia; auto.
  set (pred := seg_pred (neighbours ids (sb_x b) (sb_y b))) in *.
  set (ctx := seg_ctx (neighbours ids (sb_x b) (sb_y b))) in *.
  destruct (neg_roundtrip (sb_idx b) pred (last + 1) ltac:(lia) ltac:(lia)) as [d [ED [BD RD]]].
  assert (W : write_segmentation cols rows m1 (sb_x b) (sb_y b) (sb_w b) (sb_h b) false last
     = Some ([ESym "segment_id" [ctx] 8 d], m1)).
  { unfold write_segmentation. rewrite EP. replace (255 <? last + 1) with false by lia.
    rewrite M1b, ED. rewrite Z.mod_small by lia. reflexivity. }
  assert (RC : clip3 0 last (neg_deinterleave d pred (last + 1)) = sb_idx b).
  { rewrite RD. unfold clip3. replace (sb_idx b <? 0) with false by lia.
    replace (sb_idx b >? last) with false by lia. reflexivity. }
  assert (AG : agree (prev ++ [b]) m1 (store cols rows ids (sb_x b) (sb_y b) (sb_w b) (sb_h b) (sb_idx b))).
  { intros c r D. apply done_app in D. rewrite done_one in D. unfold store.
    destruct (covers cols rows (sb_x b) (sb_y b) (sb_w b) (sb_h b) c r) eqn:C.
    - rewrite M1. unfold store. rewrite C. lia.
    - destruct D as [D|D]; [|discriminate]. apply M1p, D. }
  unfold pre_cdef, read_block. destruct preskip; cbn [negb].
  - rewrite W. exists ([ESym "segment_id" [ctx] 8 d] ++ [ESym "skip" [sb_ctx b] 2 (if sb_skip b then 1 else 0)] ++ []), m1, (sb_idx b).
    split; [reflexivity|]. split; [|split; [auto|exact AG]].
    intros rest. cbn [app]. unfold read_segment_id. fold ctx pred.
    unfold bind at 1. unfold bind at 1. rewrite rsym_ok by lia. rewrite RC. unfold ret at 1.
    unfold bind. rewrite rsym_ok by (destruct (sb_skip b); lia). unfold ret.
    destruct (sb_skip b); reflexivity.
  - destruct (sb_skip b) eqn:ES.
    + unfold write_segmentation. rewrite EP.
      exists ([] ++ [ESym "skip" [sb_ctx b] 2 1] ++ []),
        (set_segmentation_idx cols rows m1 (sb_x b) (sb_y b) (sb_w b) (sb_h b) pred), pred.
      split; [reflexivity|]. split; [|split; [intros [?|?]; discriminate|]].
      * intros rest. cbn [app]. unfold bind at 1. rewrite rsym_ok by lia. reflexivity.
      * intros c r D. apply done_app in D. rewrite done_one in D.
        rewrite set_store by lia. unfold store.
        destruct (covers cols rows (sb_x b) (sb_y b) (sb_w b) (sb_h b) c r) eqn:C.
        -- lia.
        -- destruct D as [D|D]; [|discriminate]. apply M1p, D.
    + rewrite W. exists ([] ++ [ESym "skip" [sb_ctx b] 2 0] ++ [ESym "segment_id" [ctx] 8 d]), m1, (sb_idx b).
      split; [reflexivity|]. split; [|split; [auto|exact AG]].
      intros rest. cbn [app]. unfold bind at 1. rewrite rsym_ok by lia. cbn [Z.eqb].
      unfold read_segment_id. fold ctx pred. unfold bind at 1. unfold bind at 1.
      rewrite rsym_ok by lia. rewrite RC. reflexivity.
Qed.

Lemma in_block_covers b c r :
  in_block cols rows b c r = covers cols rows (sb_x b) (sb_y b) (sb_w b) (sb_h b) c r.
Proof.
  unfold in_block, covers. apply eq_true_iff_eq. rewrite !andb_true_iff, !Z.ltb_lt, !Z.leb_le. lia.
Qed.

Definition geometry (b : sblock) : Z * Z * Z * Z * Z := (sb_x b, sb_y b, sb_w b, sb_h b, sb_ctx b).

Lemma blocks_read : forall bs prev m ids,
  agree prev m ids -> legal_order prev bs ->
  exists e m' vs ids',
    encode_segments preskip last cols rows prev m bs = Some (e, m') /\
    (forall rest, read_blocks preskip last cols rows ids (map geometry bs) (e ++ rest)
       = Some ((combine vs (map sb_skip bs), ids'), rest)) /\
    length vs = length bs /\
    Forall2 (fun v b => sb_skip b = false \/ preskip = true -> v = sb_idx b) vs bs /\
    agree (prev ++ bs) m' ids'.
Proof.
  induction bs as [|b bs IH]; intros prev m ids HA HL.
  - exists [], m, [], ids. rewrite app_nil_r. repeat split; auto; try (intros; apply HA; assumption).
  - destruct HL as [HL1 [HO HL2]].
    cbn [encode_segments].
    set (mt := fun c r => if existsb (fun b => in_block cols rows b c r) prev then m c r else sb_trials b c r).
    destruct (block_step prev m mt ids b HA HL1) as [e1 [m1 [v [E1 [R1 [V1 A1]]]]]]; [|exact HO|].
    { intros c r [b' [I C]]. unfold mt.
      replace (existsb (fun b => in_block cols rows b c r) prev) with true; [reflexivity|].
      symmetry. apply existsb_exists. exists b'. split; [exact I|]. rewrite in_block_covers. exact C. }
    rewrite E1.
    destruct (IH (prev ++ [b]) m1 _ A1 HL2) as [e2 [m2 [vs [ids2 [E2 [R2 [L2 [V2 A2]]]]]]]].
    rewrite E2. exists (e1 ++ e2), m2, (v :: vs), ids2.
    split; [reflexivity|]. split; [|split; [cbn [length]; congruence|split]].
    + intros rest. cbn [map read_blocks geometry]. unfold bind at 1. rewrite <- app_assoc, R1.
      unfold bind at 1. cbn [fst]. rewrite R2. reflexivity.
    + constructor; assumption.
    + rewrite <- app_assoc in A2. exact A2.
Qed.
End Tile.
