(** C56: intra prediction.  From the samples decoded so far to the predicted block, the
    encoder computes what the AV1 specification says for every mode, angle, block
    size, bit depth and position in the frame. *)
From Verif Require Import Base Edge_model Edge_order Edge_decode Edge_flags Intra_model Intra_edge Intra_dir Intra_proof Intra_cfl.
From Verif Require Import Edge_spec P_Edge.
From Verif Require Intra_spec.
Local Open Scope Z_scope.

(** The arrays of 7.11.2 start at index -1, where both hold the sample above and to the left. *)
Definition from_corner (tl : Z) (f : Z -> Z) (k : Z) : Z := if k <? 0 then tl else f k.

Lemma arrays_ok maxX maxY bd CF x y w h hl ha rt bl : 8 <= bd -> x <= maxX -> y <= maxY -> 0 < w -> 0 < h -> (forall r c, inr bd (CF r c)) ->
  let tl := aboveLeft bd CF x y hl ha in
  let A := from_corner tl (aboveRow maxX bd CF x y w hl ha rt) in let L := from_corner tl (leftCol maxY bd CF x y h hl ha bl) in
  (forall p, -1 <= p -> inr bd (A p)) /\ (forall p, -1 <= p -> inr bd (L p)) /\ L (-1) = A (-1) /\ filled bd A L hl ha.
Proof.
  intros Hb Hx Hy Hw Hh R. cbv zeta. assert (P : 1 < 2 ^ (bd - 1) /\ 2 ^ bd = 2 * 2 ^ (bd - 1)).
  { split; [change 1 with (2 ^ 0); apply Z.pow_lt_mono_r; lia|]. rewrite <- Z.pow_succ_r by lia. f_equal. lia. }
  assert (B : inr bd (2 ^ (bd - 1) - 1) /\ inr bd (2 ^ (bd - 1)) /\ inr bd (2 ^ (bd - 1) + 1)) by (unfold inr; lia). destruct B as (B1 & B2 & B3).
  assert (T : inr bd (aboveLeft bd CF x y hl ha)) by (unfold aboveLeft; destruct ha, hl; cbn [andb]; auto).
  unfold from_corner. split; [|split; [|split]].
  - intros p _. destruct (p <? 0); [exact T|]. unfold aboveRow. destruct ha, hl; cbn [andb negb]; auto; repeat (match goal with |- inr _ (if ?c then _ else _) => destruct c end; auto).
  - intros p _. destruct (p <? 0); [exact T|]. unfold leftCol. destruct ha, hl; cbn [andb negb]; auto; repeat (match goal with |- inr _ (if ?c then _ else _) => destruct c end; auto).
  - reflexivity.
  - unfold filled, aboveRow, leftCol, aboveLeft. cbn [Z.ltb Z.compare]. split; [|split].
    + intros -> ->. cbn [negb andb]. intros p Hp. replace (0 <? h) with true by lia. rewrite Z.add_0_r, Z.min_r by lia. destruct (p <? 0); reflexivity.
    + intros -> ->. cbn [negb andb]. intros p Hp. replace (0 <? w) with true by lia. rewrite Z.add_0_r, Z.min_r by lia. destruct (p <? 0); reflexivity.
    + intros -> ->. cbn [negb andb]. split; [reflexivity|]. intros p Hp. replace (p <? 0) with false by lia. auto.
Qed.

Section C56.
Variables sx sy MiRows MiCols RowStart ColStart RowEnd ColEnd r0 c0 : Z.
Hypothesis G : tile_geom sx sy MiRows MiCols RowStart ColStart RowEnd ColEnd r0 c0.
Variables (t : ptree) (rs : blk -> residual).
Variables (bpre : list blk) (b : blk) (bpost : list blk) (th tw : Z) (tpre : list tx) (tt : tx) (tpost : list tx).
Hypothesis M : moment sx sy MiRows MiCols r0 c0 t rs bpre b bpost th tw tpre tt tpost.
Let D : Z -> Z -> bool := BlockDecoded sx sy MiRows MiCols RowEnd ColEnd r0 c0 (flat_map (transform_blocks sx sy rs) bpre ++ tpre).
Let off_y : Z := t_y tt - Z.shiftr (b_row b) sy.
Let off_x : Z := t_x tt - Z.shiftr (b_col b) sx.
Let po_y : Z := 4 * (t_y tt - Z.shiftr RowStart sy).
Let po_x : Z := 4 * (t_x tt - Z.shiftr ColStart sx).
Let rect_w : Z := tile_size sx ColStart ColEnd.
Let rect_h : Z := tile_size sy RowStart RowEnd.

Lemma tx_in_frame : In (4 * tw) Intra_proof.sizes /\ In (4 * th) Intra_proof.sizes /\ 4 * t_x tt <= Z.shiftr (4 * MiCols) sx - 1 /\ 4 * t_y tt <= Z.shiftr (4 * MiRows) sy - 1.
Proof.
  destruct (moment_local _ _ _ _ _ _ _ _ _ _ G _ _ _ _ _ _ _ _ _ _ M) as (lb & lt & n & R & C & k & l1 & l2 & lpre & Eb & Et & Eh & Ew & Fit & Ith & Itw & _).
  unfold tx_sizes in Ith, Itw. apply filter_In in Ith. apply filter_In in Itw. destruct Ith as [I1 _], Itw as [I2 _].
  assert (Q : forall v, In v [1; 2; 4; 8; 16] -> In (4 * v) Intra_proof.sizes) by (intros v V; cbn in V; destruct V as [<-|[<-|[<-|[<-|[<-|[]]]]]]; cbn; auto 10).
  split; [apply Q; exact I2|]. split; [apply Q; exact I1|].
  pose proof (m_in _ _ _ _ _ _ _ _ _ _ _ _ _ _ _ _ M) as O. unfold outside in O. apply orb_false_elim in O. destruct O as [O1 O2]. clear - O1 O2. lia.
Qed.

Section Frame.
Variables (CurrFrame : Z -> Z -> Z) (bd tb by_ bx : Z) (mode : pmode) (delta : Z) (ef sm : bool).
Hypotheses (Hbd : 8 <= bd <= tb) (Hby : by_ * th = off_y) (Hbx : bx * tw = off_x) (HC : forall r c, 0 <= CurrFrame r c < 2 ^ bd).
Hypotheses (Hd : -3 <= delta <= 3) (Hd0 : is_directional mode = false -> delta = 0).
Let dst := fun y x => CurrFrame (4 * Z.shiftr RowStart sy + y) (4 * Z.shiftr ColStart sx + x).
Let maxX := Z.shiftr (4 * MiCols) sx - 1.
Let maxY := Z.shiftr (4 * MiRows) sy - 1.
Let x := 4 * t_x tt.
Let y := 4 * t_y tt.
Let hl := haveLeft sx ColStart b tt.
Let ha := haveAbove sy RowStart b tt.
Let tl := aboveLeft bd CurrFrame x y hl ha.
Let AboveRow := from_corner tl (aboveRow maxX bd CurrFrame x y (4 * tw) hl ha (haveAboveRt sx sy D tt)).
Let LeftCol := from_corner tl (leftCol maxY bd CurrFrame x y (4 * th) hl ha (haveBelowLft sx sy D tt)).
(* what the encoder runs: src/encoder.rs 1441-1490 *)
Let run (alpha : Z) (ac : slice) (i j : Z) : option Z :=
  do e <- get_intra_edges dst rect_w rect_h bd (b_row b - RowStart) (b_col b - ColStart) (b_w b) (b_h b) sx sy
            by_ bx po_y po_x (4 * tw) (4 * th) (edge_needs mode delta po_x po_y ef) ;
  predict_intra tb bd (4 * tw) (4 * th) mode po_x po_y alpha delta ac (ief mode ef sm) (maxX - x + 1) (maxY - y + 1)
    (left_of e) (e_corner e) (above_of e) i j.

(** Every mode but chroma from luma, and chroma from luma with alpha zero: the prediction is the
    specification's, and a sample of the bit depth. *)
Theorem C56_predict alpha ac i j : (mode <> UV_CFL_PRED \/ alpha = 0) -> 0 <= i < 4 * th -> 0 <= j < 4 * tw ->
  let p := Intra_spec.predict_intra bd (4 * tw) (4 * th) hl ha (maxX - x + 1) (maxY - y + 1) ef sm (tmode mode) delta AboveRow LeftCol i j in
  run alpha ac i j = Some p /\ 0 <= p < 2 ^ bd.
Proof.
  intros Hm Hi Hj. cbv zeta. destruct tx_in_frame as (Sw & Sh & Fx & Fy). pose proof (size_range _ Sw) as Rw. pose proof (size_range _ Sh) as Rh.
  destruct (C40_edges _ _ _ _ _ _ _ _ _ _ G _ _ _ _ _ _ _ _ _ _ M CurrFrame bd by_ bx (edge_needs mode delta po_x po_y ef) ltac:(lia) Hby Hbx) as (e & E & Na & Nl & Va & Vl & Vc).
  unfold run. change (get_intra_edges dst rect_w rect_h bd (b_row b - RowStart) (b_col b - ColStart) (b_w b) (b_h b) sx sy by_ bx po_y po_x (4 * tw) (4 * th) (edge_needs mode delta po_x po_y ef) = Some e) in E.
  rewrite E. cbn [obind].
  destruct (arrays_ok maxX maxY bd CurrFrame x y (4 * tw) (4 * th) hl ha (haveAboveRt sx sy D tt) (haveBelowLft sx sy D tt)) as (A1 & A2 & A3 & A4);
    [lia|exact Fx|exact Fy|lia|lia|exact HC|].
  apply (predict_sound tb bd (4 * tw) (4 * th) Hbd Sw Sh AboveRow LeftCol hl ha A1 A2 A3 A4 mode delta po_x po_y (maxX - x + 1) (maxY - y + 1) ef sm e); auto.
  - apply (left_avail _ _ _ _ _ _ _ _ _ _ G _ _ _ _ _ _ _ _ _ _ M).
  - apply (above_avail _ _ _ _ _ _ _ _ _ _ G _ _ _ _ _ _ _ _ _ _ M).
  - unfold maxX, x. clear - Fx. lia.
  - unfold maxY, y. clear - Fy. lia.
  - intros k Hk. rewrite Va by exact Hk. unfold AboveRow, from_corner. replace (k <? 0) with false by (clear - Hk; lia). reflexivity.
  - intros k Hk. rewrite Vl by exact Hk. unfold LeftCol, from_corner. replace (k <? 0) with false by (clear - Hk; lia). reflexivity.
Qed.

(** Chroma from luma, for a block with one transform: x y of the luma block, its transform size ltw lth. *)
Variables (Luma : Z -> Z -> Z) (ltw lth : Z).
Hypotheses (Hbd12 : bd <= 12) (HLuma : forall r c, 0 <= Luma r c < 2 ^ bd).
Hypotheses (DX : dim sx (4 * MiCols) (4 * b_col b) (4 * b_w b) ltw) (DY : dim sy (4 * MiRows) (4 * b_row b) (4 * b_h b) lth).
Hypotheses (Ow : 4 * tw = chroma_size sx (4 * b_w b)) (Oh : 4 * th = chroma_size sy (4 * b_h b)).
Let bx0 := luma_start sx (4 * b_col b) (4 * b_w b).
Let by0 := luma_start sy (4 * b_row b) (4 * b_h b).
Theorem C56_cfl alpha i j : mode = UV_CFL_PRED -> -32768 <= alpha < 32768 -> alpha <> 0 -> 0 <= i < 4 * th -> 0 <= j < 4 * tw ->
  let ac := pred_cfl_ac sx sy (4 * tw) (4 * th) (luma_pad sx (4 * MiCols) (4 * b_col b) (4 * b_w b) ltw) (luma_pad sy (4 * MiRows) (4 * b_row b) (4 * b_h b) lth)
              (fun r c => Luma (by0 + r) (bx0 + c)) in
  let ML := Intra_spec.MaxLuma (4 * MiCols) (4 * MiRows) (4 * b_col b) (4 * b_row b) (4 * b_w b) (4 * b_h b) ltw lth in
  run alpha ac i j =
    Some (Intra_spec.predict_chroma_from_luma bd (4 * tw) (4 * th) sx sy (4 * Z.shiftr (b_col b) sx) (4 * Z.shiftr (b_row b) sy) (fst ML) (snd ML) Luma alpha
            (Intra_spec.dc_pred bd (4 * tw) (4 * th) hl ha AboveRow LeftCol) i j).
Proof.
  intros Hm Ha Hn Hi Hj. cbv zeta. destruct tx_in_frame as (Sw & Sh & Fx & Fy). pose proof (size_range _ Sw) as Rw. pose proof (size_range _ Sh) as Rh.
  destruct (C40_edges _ _ _ _ _ _ _ _ _ _ G _ _ _ _ _ _ _ _ _ _ M CurrFrame bd by_ bx (edge_needs mode delta po_x po_y ef) ltac:(lia) Hby Hbx) as (e & E & Na & Nl & Va & Vl & Vc).
  unfold run. change (get_intra_edges dst rect_w rect_h bd (b_row b - RowStart) (b_col b - ColStart) (b_w b) (b_h b) sx sy by_ bx po_y po_x (4 * tw) (4 * th) (edge_needs mode delta po_x po_y ef) = Some e) in E.
  rewrite E. cbn [obind].
  destruct (arrays_ok maxX maxY bd CurrFrame x y (4 * tw) (4 * th) hl ha (haveAboveRt sx sy D tt) (haveBelowLft sx sy D tt)) as (A1 & A2 & A3 & A4);
    [lia|exact Fx|exact Fy|lia|lia|exact HC|].
  destruct (cfl_dc tb bd (4 * tw) (4 * th) Hbd Sw Sh AboveRow LeftCol hl ha A1 A2 A4 mode delta po_x po_y (maxX - x + 1) (maxY - y + 1) ef sm e) with
    (alpha := alpha) (i := i) (j := j) (ac := pred_cfl_ac sx sy (4 * tw) (4 * th) (luma_pad sx (4 * MiCols) (4 * b_col b) (4 * b_w b) ltw) (luma_pad sy (4 * MiRows) (4 * b_row b) (4 * b_h b) lth)
              (fun r c => Luma (by0 + r) (bx0 + c))) as [Q _]; auto.
  - apply (left_avail _ _ _ _ _ _ _ _ _ _ G _ _ _ _ _ _ _ _ _ _ M).
  - apply (above_avail _ _ _ _ _ _ _ _ _ _ G _ _ _ _ _ _ _ _ _ _ M).
  - unfold maxY, y. clear - Fy. lia.
  - intros k Hk. rewrite Va by exact Hk. unfold AboveRow, from_corner. replace (k <? 0) with false by (clear - Hk; lia). reflexivity.
  - intros k Hk. rewrite Vl by exact Hk. unfold LeftCol, from_corner. replace (k <? 0) with false by (clear - Hk; lia). reflexivity.
  - rewrite Q. rewrite Ow, Oh in *.
    assert (Sub : sx = 0 -> sy = 0) by (pose proof (tg_sub _ _ _ _ _ _ _ _ _ _ G) as S0; unfold sub_ok in S0; clear - S0; lia).
    pose proof (cfl_sound tb bd sx sy (4 * MiCols) (4 * MiRows) (4 * b_col b) (4 * b_row b) (4 * b_w b) (4 * b_h b) ltw lth Luma ltac:(lia) ltac:(lia) Sub DX DY HLuma alpha) as K.
    unfold chroma_start in K. rewrite !(Z.mul_comm 4 (b_col b)), !(Z.mul_comm 4 (b_row b)), !Z.div_mul in K by lia. rewrite !(Z.mul_comm (b_col b)), !(Z.mul_comm (b_row b)) in K.
    apply K; auto.
Qed.
End Frame.
End C56.

(** The choice of the edge filter: get_filter_type of 7.11.2.8, from what the encoder stored for the
    blocks of the tile. *)
Theorem C56_filter_type coded YMode UVMode Inter RowStart ColStart plane sx sy MiRow MiCol bh4 bw4 :
  (forall r c, agrees (luma_mode (coded r c)) (YMode (RowStart + r) (ColStart + c))) ->
  (forall r c, agrees (chroma_mode (coded r c)) (UVMode (RowStart + r) (ColStart + c))) ->
  (forall r c, Inter (RowStart + r) (ColStart + c) = negb (ref0_intra (coded r c))) ->
  0 <= plane -> (sx = 0 \/ sx = 1) -> (sy = 0 \/ sy = 1) -> RowStart mod 2 = 0 -> ColStart mod 2 = 0 -> RowStart <= MiRow -> ColStart <= MiCol ->
  (0 < plane -> sy = 1 -> (Z.odd MiRow = true <-> bh4 = 1)) -> (0 < plane -> sx = 1 -> (Z.odd MiCol = true <-> bw4 = 1)) ->
  smooth_filter coded plane sx sy (MiRow - RowStart) (MiCol - ColStart) =
    Intra_spec.get_filter_type YMode UVMode Inter plane sx sy MiRow MiCol
      (if (0 <? plane) && (sy =? 1) && (bh4 =? 1) then RowStart <=? MiRow - 2 else RowStart <=? MiRow - 1)
      (if (0 <? plane) && (sx =? 1) && (bw4 =? 1) then ColStart <=? MiCol - 2 else ColStart <=? MiCol - 1).
Proof. intros HY HU HI. apply filter_type_sound; assumption. Qed.

(** ** Concrete cases *)
(* C40's 8x8 chroma transform at the left edge of the tile, on a frame of distinct samples *)
Definition case_frame (r c : Z) : Z := (r * 37 + c * 11 + r * c) mod 256.
Definition case_run (m : pmode) (delta : Z) (ef : bool) (alpha : Z) (ac : slice) : list (option Z) :=
  match get_intra_edges case_frame 32 24 8 4 0 4 4 1 1 0 0 8 0 8 8 (edge_needs m delta 0 8 ef) with
  | Some e => map (fun k => predict_intra 8 8 8 8 m 0 8 alpha delta ac (ief m ef false) 32 16 (left_of e) (e_corner e) (above_of e) (k / 8) (k mod 8)) [0; 1; 7; 8; 9; 63]
  | None => []
  end.
Definition case_none : slice := mkSlice 0 (fun _ => 0).
Example case_d45 : case_run D45_PRED (-2) true 0 case_none = map (fun k => Some k) [26; 44; 152; 48; 66; 77]. Proof. vm_compute. reflexivity. Qed.
Example case_v : case_run V_PRED 0 true 0 case_none = map (fun k => Some k) [3; 21; 129; 3; 21; 129]. Proof. vm_compute. reflexivity. Qed.
Example case_smooth : case_run SMOOTH_PRED 0 true 0 case_none = map (fun k => Some k) [3; 26; 121; 3; 24; 66]. Proof. vm_compute. reflexivity. Qed.
Example case_d135 : case_run D135_PRED 1 true 0 case_none = map (fun k => Some k) [3; 7; 109; 3; 3; 3]. Proof. vm_compute. reflexivity. Qed.
(* chroma from luma of a 16x16 block in 4:2:0: the average is subtracted and the rest scaled *)
Definition case_luma (r c : Z) : Z := (r * 5 + c * 3) mod 256.
Example case_cfl : case_run UV_CFL_PRED 0 true 16 (pred_cfl_ac 1 1 8 8 0 0 case_luma) = map (fun k => Some k) [0; 0; 38; 0; 0; 178] /\
  case_run UV_CFL_PRED 0 true 0 case_none = map (fun k => Some k) [66; 66; 66; 66; 66; 66].
Proof. vm_compute. auto. Qed.
(* a 32x32 block with 24 columns in the frame: with 16x16 transforms all of it is used, with 8x8 transforms the
   last 8 columns are padded *)
Example case_max_luma : Intra_spec.MaxLuma 88 128 64 0 32 32 16 16 = (96, 32) /\ Intra_spec.MaxLuma 88 128 64 0 32 32 8 8 = (88, 32) /\
  luma_pad 1 88 64 32 16 = 0 /\ luma_pad 1 88 64 32 8 = 1 /\ luma_pad 0 88 64 32 8 = 2.
Proof. vm_compute. auto. Qed.
Lemma case_dim : dim 1 88 64 32 8. Proof. constructor; cbn; auto; lia. Qed.
Lemma case_dim4 : dim 1 16 4 4 4. Proof. constructor; cbn; auto; lia. Qed.
(* the specification's first sample for case_d45 *)
Example case_d45_spec :
  let D := BlockDecoded 1 1 12 16 12 16 0 0 (flat_map (transform_blocks 1 1 case_rs) (firstn 3 case_blocks) ++ []) in
  Intra_spec.predict_intra 8 8 8 false true 32 16 true false Intra_spec.D45 (-2)
    (from_corner (case_frame 7 0) (aboveRow 31 8 case_frame 0 8 8 false true (haveAboveRt 1 1 D (mkTx 2 0 2 2))))
    (from_corner (case_frame 7 0) (leftCol 23 8 case_frame 0 8 8 false true (haveBelowLft 1 1 D (mkTx 2 0 2 2)))) 0 0 = 26.
Proof. vm_compute. reflexivity. Qed.
(* the theorem's conditions hold there *)
Example case_applies alpha ac i j : 0 <= i < 8 -> 0 <= j < 8 ->
  exists e p, get_intra_edges case_frame 32 24 8 4 0 4 4 1 1 0 0 8 0 8 8 (edge_needs D45_PRED (-2) 0 8 true) = Some e /\
    predict_intra 8 8 8 8 D45_PRED 0 8 alpha (-2) ac (ief D45_PRED true false) 32 16 (left_of e) (e_corner e) (above_of e) i j = Some p /\ 0 <= p < 256.
Proof.
  intros Hi Hj.
  destruct (C56_predict _ _ _ _ _ _ _ _ _ _ case_geom _ _ _ _ _ _ _ _ _ _ case_mom case_frame 8 8 0 0 D45_PRED (-2) true false ltac:(lia) eq_refl eq_refl ltac:(intros r c; apply Z.mod_pos_bound; lia)
    ltac:(lia) ltac:(intros K; discriminate K) alpha ac i j ltac:(left; discriminate) Hi Hj) as [E R].
  change (fun y x => case_frame (4 * Z.shiftr 0 1 + y) (4 * Z.shiftr 0 1 + x)) with case_frame in E.
  destruct (get_intra_edges case_frame 32 24 8 4 0 4 4 1 1 0 0 8 0 8 8 (edge_needs D45_PRED (-2) 0 8 true)) as [e|] eqn:Q; [|vm_compute in Q; discriminate Q].
  exists e. eexists. split; [reflexivity|]. split; [|exact R].
  cbv beta in E. etransitivity; [|exact E].
  match goal with |- _ = obind ?g _ => change g with (get_intra_edges case_frame 32 24 8 4 0 4 4 1 1 0 0 8 0 8 8 (edge_needs D45_PRED (-2) 0 8 true)) end. rewrite Q. reflexivity.
Qed.

Print Assumptions C56_predict.
Print Assumptions C56_cfl.
Print Assumptions C56_filter_type.
