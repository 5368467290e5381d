(** The flags BlockDecoded of a decoder, at the time it predicts a transform block, and the
    encoder's tests. *)
From Verif Require Import Base Edge_model Edge_order Edge_decode.
From Verif Require Import Edge_spec.
Local Open Scope Z_scope.

(** A superblock at r0, c0 in a tile; rows and columns in units of 4 luma samples. *)
Record tile_geom (sx sy MiRows MiCols RowStart ColStart RowEnd ColEnd r0 c0 : Z) : Prop := {
  tg_sub : sub_ok sx sy;
  tg_rows : MiRows mod 2 = 0;
  tg_cols : MiCols mod 2 = 0;
  tg_rs : RowStart mod 16 = 0 /\ 0 <= RowStart;
  tg_cs : ColStart mod 16 = 0 /\ 0 <= ColStart;
  tg_re : RowEnd = MiRows \/ (RowEnd mod 16 = 0 /\ RowEnd <= MiRows);
  tg_ce : ColEnd = MiCols \/ (ColEnd mod 16 = 0 /\ ColEnd <= MiCols);
  tg_r0 : r0 mod 16 = 0 /\ RowStart <= r0 < RowEnd;
  tg_c0 : c0 mod 16 = 0 /\ ColStart <= c0 < ColEnd }.

(** The transform blocks of a block cover the part of it inside the frame and nothing else. *)
Definition residual_ok (sx sy MiRows MiCols : Z) (rs : blk -> residual) (b : blk) : Prop :=
  match rs b with
  | Uniform th tw => In th (tx_sizes (plane_h sy b)) /\ In tw (tx_sizes (plane_w sx b))
  | Tree l =>
      (forall t, In t l -> 0 < t_h t /\ 0 < t_w t /\
         Z.shiftr (b_row b) sy <= t_y t /\ t_y t + t_h t <= Z.shiftr (b_row b) sy + plane_h sy b /\
         Z.shiftr (b_col b) sx <= t_x t /\ t_x t + t_w t <= Z.shiftr (b_col b) sx + plane_w sx b) /\
      (forall y x, in_rect y x (Z.shiftr (b_row b) sy) (Z.shiftr (b_col b) sx) (plane_h sy b) (plane_w sx b) = true ->
         4 * y < Z.shiftr (4 * MiRows) sy -> 4 * x < Z.shiftr (4 * MiCols) sx ->
         existsb (fun t => in_rect y x (t_y t) (t_x t) (t_h t) (t_w t)) l = true)
  end.

Definition shift_tx (y x : Z) (t : tx) : tx := mkTx (y + t_y t) (x + t_x t) (t_h t) (t_w t).
Lemma raster_shift a b y0 x0 h w th tw : raster (a + y0) (b + x0) h w th tw = map (shift_tx a b) (raster y0 x0 h w th tw).
Proof.
  unfold raster. induction (upto (h / th)) as [|i l IH]; [reflexivity|]. cbn [flat_map]. rewrite map_app, IH. f_equal.
  rewrite map_map. apply map_ext. intros j. unfold shift_tx. cbn [t_y t_x t_h t_w]. f_equal; lia.
Qed.
Lemma raster_covers y x y0 x0 h w th tw : 0 < th -> 0 < tw -> h mod th = 0 -> w mod tw = 0 ->
  existsb (fun t => in_rect y x (t_y t) (t_x t) (t_h t) (t_w t)) (raster y0 x0 h w th tw) = in_rect y x y0 x0 h w.
Proof.
  intros Ht Hw Mh Mw. apply eq_true_iff_eq. rewrite existsb_exists. unfold raster, in_rect. split.
  - intros (t & I & H). apply in_flat_map in I. destruct I as (i & I1 & I2). apply in_map_iff in I2. destruct I2 as (j & <- & I2).
    apply in_upto in I1, I2. cbn [t_y t_x t_h t_w] in H. rewrite !andb_true_iff in *. rewrite !Z.leb_le, !Z.ltb_lt in *.
    apply Z.mod_divide in Mh, Mw; [|lia|lia]. destruct Mh as (p & ->), Mw as (q & ->). rewrite Z.div_mul in I1, I2 by lia. nia.
  - intros H. rewrite !andb_true_iff, !Z.leb_le, !Z.ltb_lt in H.
    exists (mkTx (y0 + (y - y0) / th * th) (x0 + (x - x0) / tw * tw) th tw). cbn [t_y t_x t_h t_w].
    pose proof (Z.div_mod (y - y0) th ltac:(lia)). pose proof (Z.mod_pos_bound (y - y0) th ltac:(lia)).
    pose proof (Z.div_mod (x - x0) tw ltac:(lia)). pose proof (Z.mod_pos_bound (x - x0) tw ltac:(lia)).
    split.
    + apply in_flat_map. exists ((y - y0) / th). split.
      * apply upto_in. split; [apply Z.div_pos; lia|]. apply Z.div_lt_upper_bound; [lia|]. apply Z.mod_divide in Mh; [|lia]. destruct Mh as (p & ->). rewrite Z.div_mul by lia. lia.
      * apply in_map_iff. exists ((x - x0) / tw). split; [reflexivity|]. apply upto_in. split; [apply Z.div_pos; lia|]. apply Z.div_lt_upper_bound; [lia|].
        apply Z.mod_divide in Mw; [|lia]. destruct Mw as (p & ->). rewrite Z.div_mul by lia. lia.
    + rewrite !andb_true_iff, !Z.leb_le, !Z.ltb_lt. lia.
Qed.
Lemma raster_in t y0 x0 h w th tw : 0 < th -> 0 < tw -> h mod th = 0 -> w mod tw = 0 -> In t (raster y0 x0 h w th tw) ->
  t_h t = th /\ t_w t = tw /\ y0 <= t_y t /\ t_y t + th <= y0 + h /\ x0 <= t_x t /\ t_x t + tw <= x0 + w.
Proof.
  intros Ht Hw Mh Mw I. unfold raster in I. apply in_flat_map in I. destruct I as (i & I1 & I2). apply in_map_iff in I2. destruct I2 as (j & <- & I2).
  apply in_upto in I1, I2. cbn [t_y t_x t_h t_w]. 
  apply Z.mod_divide in Mh, Mw; [|lia|lia]. destruct Mh as (p & ->), Mw as (q & ->). rewrite Z.div_mul in I1, I2 by lia. repeat split; nia.
Qed.
Lemma tx_size_div m v : In m [1; 2; 4; 8; 16] -> In v (tx_sizes m) -> 0 < v <= m /\ m mod v = 0.
Proof.
  intros M V. unfold tx_sizes in V. apply filter_In in V. destruct V as [V1 V2]. apply Z.leb_le in V2. cbn in M, V1.
  destruct M as [<-|[<-|[<-|[<-|[<-|[]]]]]], V1 as [<-|[<-|[<-|[<-|[<-|[]]]]]]; try lia; split; try lia; reflexivity.
Qed.

Lemma shr_mono a b k : 0 <= k -> a <= b -> Z.shiftr a k <= Z.shiftr b k.
Proof. intros Hk H. rewrite !Z.shiftr_div_pow2 by lia. apply Z.div_le_mono; [apply Z.pow_pos_nonneg; lia|exact H]. Qed.

Section Flags.
Variables sx sy MiRows MiCols RowStart ColStart RowEnd ColEnd r0 c0 : Z.
Hypothesis G : tile_geom sx sy MiRows MiCols RowStart ColStart RowEnd ColEnd r0 c0.
Definition sbW : Z := Z.shiftr (ColEnd - c0) sx.
Definition sbH : Z := Z.shiftr (RowEnd - r0) sy.
Let FR := MiRows - r0.
Let FC := MiCols - c0.
Lemma sx01 : sx = 0 \/ sx = 1. Proof. destruct (tg_sub _ _ _ _ _ _ _ _ _ _ G); lia. Qed.
Lemma sy01 : sy = 0 \/ sy = 1. Proof. destruct (tg_sub _ _ _ _ _ _ _ _ _ _ G); lia. Qed.
Lemma in_sb_local sub u v : sub = 0 \/ sub = 1 -> v mod 16 = 0 -> 0 <= u < Z.shiftr 16 sub -> in_sb sub (Z.shiftr v sub + u) = u.
Proof.
  intros H M Hu. unfold in_sb. rewrite Z.land_ones with (n := 4) by lia. rewrite Z.shiftl_mul_pow2, !Z.shiftr_div_pow2 in * by lia.
  destruct H as [-> | ->]; cbn [Z.pow Z.pow_pos Pos.iter Z.mul Pos.mul] in *; [change (2 ^ 0) with 1 in *|change (2 ^ 1) with 2 in *]; change (2 ^ 4) with 16; dlia.
Qed.
Lemma out_local sub u v M : sub = 0 \/ sub = 1 -> v mod 16 = 0 -> M mod 2 = 0 ->
  (Z.shiftr (4 * M) sub <=? 4 * (Z.shiftr v sub + u)) = (Z.shiftr (M - v) sub <=? u).
Proof.
  intros H Mv M2. rewrite !Z.shiftr_div_pow2 by lia. destruct H as [-> | ->]; [change (2 ^ 0) with 1|change (2 ^ 1) with 2]; dlia.
Qed.
Lemma sbW_frame : sbW <= Z.shiftr FC sx.
Proof. apply shr_mono; [destruct sx01 as [-> | ->]; lia|]. pose proof (tg_ce _ _ _ _ _ _ _ _ _ _ G). unfold FC. lia. Qed.
Lemma sbH_frame : sbH <= Z.shiftr FR sy.
Proof. apply shr_mono; [destruct sy01 as [-> | ->]; lia|]. pose proof (tg_re _ _ _ _ _ _ _ _ _ _ G). unfold FR. lia. Qed.
(* either the tile ends with the frame or the superblock is whole *)
Lemma sbW_cases : sbW = Z.shiftr FC sx \/ Z.shiftr 16 sx <= sbW.
Proof.
  unfold sbW, FC. destruct (tg_ce _ _ _ _ _ _ _ _ _ _ G) as [->|[A B]]; [left; reflexivity|right].
  apply shr_mono; [destruct sx01 as [-> | ->]; lia|]. destruct (tg_c0 _ _ _ _ _ _ _ _ _ _ G). clear - A H H0. dlia.
Qed.
Lemma sbH_cases : sbH = Z.shiftr FR sy \/ Z.shiftr 16 sy <= sbH.
Proof.
  unfold sbH, FR. destruct (tg_re _ _ _ _ _ _ _ _ _ _ G) as [->|[A B]]; [left; reflexivity|right].
  apply shr_mono; [destruct sy01 as [-> | ->]; lia|]. destruct (tg_r0 _ _ _ _ _ _ _ _ _ _ G). clear - A H H0. dlia.
Qed.

(** ** One transform block *)
Definition hit (y x : Z) (t : tx) : bool :=
  negb (outside sx sy MiRows MiCols t) && in_rect y x (in_sb sy (t_y t)) (in_sb sx (t_x t)) (t_h t) (t_w t).
Lemma flags_fold l : forall D y x,
  fold_left (transform_block sx sy MiRows MiCols) l D y x = existsb (hit y x) l || D y x.
Proof.
  induction l as [|t l IH]; intros D y x; [reflexivity|]. cbn [fold_left existsb]. rewrite IH. unfold transform_block, hit at 2.
  destruct (outside sx sy MiRows MiCols t); cbn [negb andb orb]; [reflexivity|].
  destruct (in_rect y x (in_sb sy (t_y t)) (in_sb sx (t_x t)) (t_h t) (t_w t)), (existsb (hit y x) l); reflexivity.
Qed.
Definition in_sbr (t : tx) : Prop := 0 <= t_y t < Z.shiftr 16 sy /\ 0 <= t_x t < Z.shiftr 16 sx.
Definition there (t : tx) : tx := shift_tx (Z.shiftr r0 sy) (Z.shiftr c0 sx) t.
Lemma there_pos t : in_sbr t -> in_sb sy (t_y (there t)) = t_y t /\ in_sb sx (t_x (there t)) = t_x t.
Proof.
  intros [A B]. unfold there, shift_tx. cbn [t_y t_x]. 
  split; apply in_sb_local; auto; try apply sx01; try apply sy01; [apply (tg_r0 _ _ _ _ _ _ _ _ _ _ G)|apply (tg_c0 _ _ _ _ _ _ _ _ _ _ G)].
Qed.
Lemma there_out t : outside sx sy MiRows MiCols (there t) = (Z.shiftr FC sx <=? t_x t) || (Z.shiftr FR sy <=? t_y t).
Proof.
  unfold outside, there, shift_tx. cbn [t_y t_x]. destruct G. rewrite (out_local sx) by (try apply sx01; tauto). rewrite (out_local sy) by (try apply sy01; tauto). reflexivity.
Qed.
Lemma hit_there y x t : in_sbr t -> y < Z.shiftr FR sy -> x < Z.shiftr FC sx ->
  hit y x (there t) = in_rect y x (t_y t) (t_x t) (t_h t) (t_w t).
Proof.
  intros I Hy Hx. unfold hit. destruct (there_pos t I) as [-> ->]. rewrite there_out. unfold there, shift_tx, in_rect. cbn [t_h t_w]. lia.
Qed.
(* a transform block never reaches past the superblock *)
Lemma hit_past y x t : in_sbr t -> t_y t + t_h t <= Z.shiftr 16 sy -> t_x t + t_w t <= Z.shiftr 16 sx ->
  y < 0 \/ x < 0 \/ Z.shiftr 16 sy <= y \/ Z.shiftr 16 sx <= x -> hit y x (there t) = false.
Proof.
  intros I A B C. unfold hit. destruct (there_pos t I) as [-> ->]. unfold there, shift_tx, in_rect. cbn [t_h t_w]. destruct I. lia.
Qed.

(** ** One block *)
Definition fits (lb : blk) : Prop :=
  0 <= b_row lb /\ 0 <= b_col lb /\
  (HasChroma sx sy lb = true -> Z.shiftr (b_row lb) sy + plane_h sy lb <= Z.shiftr 16 sy /\ Z.shiftr (b_col lb) sx + plane_w sx lb <= Z.shiftr 16 sx) /\
  In (plane_h sy lb) [1; 2; 4; 8; 16] /\ In (plane_w sx lb) [1; 2; 4; 8; 16].
Definition tblk (lb : blk) : blk := shift_blk r0 c0 lb.
Lemma chroma_there lb : HasChroma sx sy (tblk lb) = HasChroma sx sy lb.
Proof.
  unfold HasChroma, tblk, shift_blk. cbn [b_row b_col b_h b_w]. rewrite !Z.even_add.
  assert (E1 : Z.even r0 = true) by (destruct (tg_r0 _ _ _ _ _ _ _ _ _ _ G) as [M _]; rewrite Zeven_mod; apply Zeq_bool_iff || idtac; clear - M; apply Zeq_is_eq_bool; dlia).
  assert (E2 : Z.even c0 = true) by (destruct (tg_c0 _ _ _ _ _ _ _ _ _ _ G) as [M _]; rewrite Zeven_mod; clear - M; apply Zeq_is_eq_bool; dlia).
  rewrite E1, E2. destruct (Z.even (b_row lb)), (Z.even (b_col lb)); reflexivity.
Qed.
Lemma row_there lb : Z.shiftr (b_row (tblk lb)) sy = Z.shiftr r0 sy + Z.shiftr (b_row lb) sy.
Proof.
  unfold tblk, shift_blk. cbn [b_row]. destruct (tg_r0 _ _ _ _ _ _ _ _ _ _ G) as [M _]. rewrite !Z.shiftr_div_pow2 by (pose proof sy01; lia).
  destruct sy01 as [-> | ->]; [change (2 ^ 0) with 1|change (2 ^ 1) with 2]; dlia.
Qed.
Lemma col_there lb : Z.shiftr (b_col (tblk lb)) sx = Z.shiftr c0 sx + Z.shiftr (b_col lb) sx.
Proof.
  unfold tblk, shift_blk. cbn [b_col]. destruct (tg_c0 _ _ _ _ _ _ _ _ _ _ G) as [M _]. rewrite !Z.shiftr_div_pow2 by (pose proof sx01; lia).
  destruct sx01 as [-> | ->]; [change (2 ^ 0) with 1|change (2 ^ 1) with 2]; dlia.
Qed.
Lemma raster_there lb th tw : raster (Z.shiftr (b_row (tblk lb)) sy) (Z.shiftr (b_col (tblk lb)) sx) (plane_h sy (tblk lb)) (plane_w sx (tblk lb)) th tw = map there (local_raster sx sy lb th tw).
Proof. rewrite row_there, col_there. apply raster_shift. Qed.
Lemma shiftr_pos v k : 0 <= k -> 0 <= v -> 0 <= Z.shiftr v k.
Proof. intros. apply Z.shiftr_nonneg. auto. Qed.
(* the transform blocks, relative to the superblock *)
Lemma block_local rs lb : fits lb -> HasChroma sx sy lb = true -> residual_ok sx sy MiRows MiCols rs (tblk lb) ->
  exists l, transform_blocks sx sy rs (tblk lb) = map there l /\
    (forall t, In t l -> in_sbr t /\ t_y t + t_h t <= Z.shiftr 16 sy /\ t_x t + t_w t <= Z.shiftr 16 sx) /\
    (forall y x, y < Z.shiftr FR sy -> x < Z.shiftr FC sx -> existsb (fun t => in_rect y x (t_y t) (t_x t) (t_h t) (t_w t)) l = covers sx sy y x lb).
Proof.
  intros (F1 & F2 & F3 & F4 & F5) Hc Ok. specialize (F3 Hc). unfold transform_blocks. rewrite chroma_there, Hc. unfold residual_ok in Ok.
  pose proof (shiftr_pos (b_row lb) sy ltac:(pose proof sy01; lia) F1). pose proof (shiftr_pos (b_col lb) sx ltac:(pose proof sx01; lia) F2).
  destruct (rs (tblk lb)) as [th tw|l].
  - destruct Ok as [O1 O2]. change (plane_h sy (tblk lb)) with (plane_h sy lb) in O1. change (plane_w sx (tblk lb)) with (plane_w sx lb) in O2.
    destruct (tx_size_div _ _ F4 O1) as [P1 P2]. destruct (tx_size_div _ _ F5 O2) as [P3 P4].
    exists (local_raster sx sy lb th tw). split; [apply raster_there|]. split.
    + intros t I. apply raster_in in I; [|lia|lia|auto|auto]. destruct I as (-> & -> & I). unfold in_sbr. lia.
    + intros y x Hy Hx. unfold covers, local_raster. rewrite Hc. rewrite raster_covers; [reflexivity|lia|lia|auto|auto].
  - destruct Ok as [O1 O2]. exists (map (shift_tx (- Z.shiftr r0 sy) (- Z.shiftr c0 sx)) l).
    assert (E : l = map there (map (shift_tx (- Z.shiftr r0 sy) (- Z.shiftr c0 sx)) l)).
    { rewrite map_map. symmetry. erewrite map_ext_in; [apply map_id|]. intros t _. unfold there, shift_tx. cbn [t_y t_x t_h t_w]. destruct t as [a1 a2 a3 a4]. cbn [t_y t_x t_h t_w]. f_equal; lia. }
    split; [exact E|]. 
    assert (B : forall t, In t l -> 0 < t_h t /\ 0 < t_w t /\ Z.shiftr r0 sy + Z.shiftr (b_row lb) sy <= t_y t /\ t_y t + t_h t <= Z.shiftr r0 sy + Z.shiftr (b_row lb) sy + plane_h sy lb /\
         Z.shiftr c0 sx + Z.shiftr (b_col lb) sx <= t_x t /\ t_x t + t_w t <= Z.shiftr c0 sx + Z.shiftr (b_col lb) sx + plane_w sx lb).
    { intros t I. pose proof (O1 t I) as K. rewrite row_there, col_there in K. exact K. }
    split.
    + intros t I. apply in_map_iff in I. destruct I as (t' & <- & I). apply B in I. unfold in_sbr, shift_tx. cbn [t_y t_x t_h t_w]. lia.
    + intros y x Hy Hx. rewrite existsb_map. unfold covers. rewrite Hc. cbn [andb]. 
      destruct (in_rect y x (Z.shiftr (b_row lb) sy) (Z.shiftr (b_col lb) sx) (plane_h sy lb) (plane_w sx lb)) eqn:R.
      * pose proof (O2 (Z.shiftr r0 sy + y) (Z.shiftr c0 sx + x)) as K. rewrite row_there, col_there in K.
        assert (Y : 4 * (Z.shiftr r0 sy + y) < Z.shiftr (4 * MiRows) sy).
        { pose proof (out_local sy y r0 MiRows sy01 (proj1 (tg_r0 _ _ _ _ _ _ _ _ _ _ G)) (tg_rows _ _ _ _ _ _ _ _ _ _ G)) as Q. fold FR in Q. clear - Q Hy. lia. }
        assert (X : 4 * (Z.shiftr c0 sx + x) < Z.shiftr (4 * MiCols) sx).
        { pose proof (out_local sx x c0 MiCols sx01 (proj1 (tg_c0 _ _ _ _ _ _ _ _ _ _ G)) (tg_cols _ _ _ _ _ _ _ _ _ _ G)) as Q. fold FC in Q. clear - Q Hx. lia. }
        rewrite <- K; [|clear - R; unfold in_rect in *; change (plane_h sy (tblk lb)) with (plane_h sy lb); change (plane_w sx (tblk lb)) with (plane_w sx lb); lia|exact Y|exact X].
        apply existsb_ext. intros t _. unfold shift_tx, in_rect. cbn [t_y t_x t_h t_w]. lia.
      * apply not_true_iff_false. intros T. rewrite existsb_exists in T. destruct T as (t & I & T). apply B in I.
        unfold shift_tx, in_rect in *. cbn [t_y t_x t_h t_w] in T. lia.
Qed.
Lemma block_hits rs lb y x : fits lb -> residual_ok sx sy MiRows MiCols rs (tblk lb) -> y < Z.shiftr FR sy -> x < Z.shiftr FC sx ->
  existsb (hit y x) (transform_blocks sx sy rs (tblk lb)) = covers sx sy y x lb.
Proof.
  intros F Ok Hy Hx. destruct (HasChroma sx sy lb) eqn:Hc.
  - destruct (block_local rs lb F Hc Ok) as (l & -> & A & B). rewrite existsb_map, <- (B y x Hy Hx). apply existsb_ext. intros t I. apply hit_there; [apply A; auto|auto|auto].
  - unfold transform_blocks, covers. rewrite chroma_there, Hc. reflexivity.
Qed.
Lemma block_past rs lb y x : fits lb -> residual_ok sx sy MiRows MiCols rs (tblk lb) -> y < 0 \/ x < 0 \/ Z.shiftr 16 sy <= y \/ Z.shiftr 16 sx <= x ->
  existsb (hit y x) (transform_blocks sx sy rs (tblk lb)) = false.
Proof.
  intros F Ok H. destruct (HasChroma sx sy lb) eqn:Hc.
  - destruct (block_local rs lb F Hc Ok) as (l & -> & A & B). rewrite existsb_map. apply not_true_iff_false. intros T. rewrite existsb_exists in T. destruct T as (t & I & T).
    destruct (A t I) as (A1 & A2 & A3). rewrite hit_past in T by auto. discriminate.
  - unfold transform_blocks. rewrite chroma_there, Hc. reflexivity.
Qed.

(** ** The time of a transform block *)
Variables (t : ptree) (rs : blk -> residual).
Variables (bpre : list blk) (b : blk) (bpost : list blk) (th tw : Z) (tpre : list tx) (tt : tx) (tpost : list tx).
Record moment : Prop := {
  m_wf : wf_tree 16 t;
  m_tree : tree_ok sx sy t;
  m_blocks : decode_partition MiRows MiCols t r0 c0 16 = bpre ++ b :: bpost;
  m_res : forall b', In b' (decode_partition MiRows MiCols t r0 c0 16) -> residual_ok sx sy MiRows MiCols rs b';
  m_chroma : HasChroma sx sy b = true;
  m_uni : rs b = Uniform th tw;
  m_tx : transform_blocks sx sy rs b = tpre ++ tt :: tpost;
  m_in : outside sx sy MiRows MiCols tt = false }.
Definition flags : Z -> Z -> bool :=
  BlockDecoded sx sy MiRows MiCols RowEnd ColEnd r0 c0 (flat_map (transform_blocks sx sy rs) bpre ++ tpre).
Lemma moment_local : moment ->
  exists lb lt n R C k l1 l2 lpre, b = tblk lb /\ tt = there lt /\ t_h lt = th /\ t_w lt = tw /\ fits lb /\
    In th (tx_sizes (plane_h sy lb)) /\ In tw (tx_sizes (plane_w sx lb)) /\
    0 < th /\ 0 < tw /\ Z.shiftr (b_row lb) sy <= t_y lt /\ t_y lt + th <= Z.shiftr (b_row lb) sy + plane_h sy lb /\
    Z.shiftr (b_col lb) sx <= t_x lt /\ t_x lt + tw <= Z.shiftr (b_col lb) sx + plane_w sx lb /\ HasChroma sx sy lb = true /\
    t_y lt < Z.shiftr FR sy /\ t_x lt < Z.shiftr FC sx /\
    In n sizes /\ node_at n R /\ node_at n C /\ In k (kinds n sx sy) /\ node_blocks k R C n = l1 ++ lb :: l2 /\
    chk_tx sx sy l1 R C lb lpre lt = true /\
    (exists lpost, local_raster sx sy lb th tw = lpre ++ lt :: lpost) /\
    (forall y x, -1 <= y <= Z.shiftr 16 sy -> -1 <= x -> y < sbH -> x < sbW ->
       flags y x = avail sx sy l1 lpre R C y x) /\
    (forall y x, -1 <= y -> -1 <= x -> (Z.shiftr 16 sx <= x /\ sbW <= x) \/ (Z.shiftr 16 sy <= y /\ sbH <= y) -> flags y x = false).
Proof.
  intros [Wf Tr Bl Res Ch Un Tx Ins].
  pose proof Bl as Bl'. replace r0 with (r0 + 0) in Bl' at 1 by lia. replace c0 with (c0 + 0) in Bl' at 1 by lia.
  rewrite dp_shift in Bl'. destruct (map_mid _ _ _ _ _ Bl') as (lp & lb & lq & E & E1 & E2). fold FR FC in E.
  pose proof (tg_sub _ _ _ _ _ _ _ _ _ _ G) as S0.
  assert (N16 : In 16 sizes) by (cbn; auto). assert (Z16 : node_at 16 0) by (split; [lia|reflexivity]).
  destruct (before_block sx sy FR FC S0 t 16 0 0 lp lb lq N16 Z16 Z16 Wf Tr E) as (n & R & C & k & l1 & l2 & A1 & A2 & A3 & A4 & A5 & A6 & A7 & A8 & A9 & A10).
  assert (FIT : forall b', In b' (lp ++ lb :: lq) -> fits b').
  { intros b' I. apply in_split in I. destruct I as (q1 & q2 & Q). rewrite Q in E.
    destruct (before_block sx sy FR FC S0 t 16 0 0 q1 b' q2 N16 Z16 Z16 Wf Tr E) as (n' & R' & C' & k' & m1 & m2 & B1 & B2 & B3 & _ & _ & _ & B7 & B8 & _).
    assert (I' : In b' (node_blocks k' R' C' n')) by (rewrite B8; apply in_or_app; right; left; auto).
    destruct (inside_fact sx sy S0 n' R' C' k' b' B1 B2 B3 B7 I') as (K1 & K2 & K3 & K4 & K5 & K6 & K7). unfold fits. auto. }
  assert (RES : forall b', In b' (lp ++ lb :: lq) -> residual_ok sx sy MiRows MiCols rs (tblk b')).
  { intros b' I. apply Res. rewrite Bl, <- Bl'. apply (in_map (shift_blk r0 c0)). fold FR FC. rewrite E. exact I. }
  assert (Ilb : In lb (lp ++ lb :: lq)) by (apply in_or_app; right; left; auto).
  pose proof (FIT lb Ilb) as Fb. pose proof (RES lb Ilb) as Rb. fold (tblk lb) in E2. subst b.
  rewrite chroma_there in Ch. unfold transform_blocks in Tx. rewrite chroma_there, Ch, Un, raster_there in Tx. unfold residual_ok in Rb. rewrite Un in Rb. destruct Rb as [Rh Rw].
  change (plane_h sy (tblk lb)) with (plane_h sy lb) in Rh. change (plane_w sx (tblk lb)) with (plane_w sx lb) in Rw.
  destruct (map_mid _ _ _ _ _ Tx) as (lpre & lt & lpost & T1 & T2 & T3).
  destruct Fb as (F1 & F2 & F3 & F4 & F5). destruct (tx_size_div _ _ F4 Rh) as [P1 P2]. destruct (tx_size_div _ _ F5 Rw) as [P3 P4].
  assert (INL : forall t', In t' (lpre ++ lt :: lpost) -> t_h t' = th /\ t_w t' = tw /\ Z.shiftr (b_row lb) sy <= t_y t' /\ t_y t' + th <= Z.shiftr (b_row lb) sy + plane_h sy lb /\ Z.shiftr (b_col lb) sx <= t_x t' /\ t_x t' + tw <= Z.shiftr (b_col lb) sx + plane_w sx lb).
  { intros t' I. rewrite <- T1 in I. apply raster_in in I; auto; lia. }
  destruct (INL lt ltac:(apply in_or_app; right; left; auto)) as (L1 & L2 & L3 & L4 & L5 & L6).
  pose proof (F3 Ch) as [F6 F7].
  pose proof (shiftr_pos (b_row lb) sy ltac:(pose proof sy01; lia) F1) as SP1. pose proof (shiftr_pos (b_col lb) sx ltac:(pose proof sx01; lia) F2) as SP2.
  rewrite <- T3, there_out in Ins. apply orb_false_iff in Ins. destruct Ins as [O1 O2]. apply Z.leb_gt in O1, O2.
  exists lb, lt, n, R, C, k, l1, l2, lpre. split; [reflexivity|]. split; [symmetry; exact T3|]. split; [exact L1|]. split; [exact L2|]. split; [unfold fits; auto|].
  split; [exact Rh|]. split; [exact Rw|]. split; [apply P1|]. split; [apply P3|]. split; [exact L3|]. split; [exact L4|]. split; [exact L5|]. split; [exact L6|]. split; [exact Ch|]. split; [exact O2|]. split; [exact O1|].
  split; [exact A1|]. split; [exact A2|]. split; [exact A3|]. split; [exact A7|]. split; [exact A8|]. split.
  { pose proof (tests_fact sx sy S0 n R C k l1 lb l2 A1 A2 A3 A7 A8) as K. unfold chk_block in K. rewrite Ch in K. cbn [negb orb] in K.
    pose proof (forallb_in _ _ th K Rh) as K1. cbv beta in K1. pose proof (forallb_in _ _ tw K1 Rw) as K2. cbv beta in K2.
    exact (each_spec _ _ [] lpre lt lpost K2 T1). }
  split; [exists lpost; exact T1|].
  assert (SBR : forall t', In t' lpre -> in_sbr t' /\ t_y t' + t_h t' <= Z.shiftr 16 sy /\ t_x t' + t_w t' <= Z.shiftr 16 sx).
  { intros t' I. destruct (INL t' ltac:(apply in_or_app; left; auto)) as (-> & -> & I2). unfold in_sbr. lia. }
  assert (PAST : forall y x, y < 0 \/ x < 0 \/ Z.shiftr 16 sy <= y \/ Z.shiftr 16 sx <= x -> flags y x = clear_block_decoded_flags sx sy RowEnd ColEnd r0 c0 y x).
  { intros y x Cp. unfold flags, BlockDecoded. rewrite flags_fold, existsb_app, existsb_flat_map, <- E1, existsb_map, <- T2, existsb_map.
    rewrite (existsb_ext _ (fun _ => false) lp), (existsb_ext _ (fun _ => false) lpre).
    2:{ intros t' I. destruct (SBR t' I) as (Q1 & Q2 & Q3). apply hit_past; auto. }
    2:{ intros b' I. apply block_past; auto; [apply FIT|apply RES]; apply in_or_app; auto. }
    assert (NO : forall A (l : list A), existsb (fun _ => false) l = false) by (induction l; auto). rewrite !NO. reflexivity. }
  assert (NN1 : 0 <= Z.shiftr 16 sy) by (apply Z.shiftr_nonneg; lia). assert (NN2 : 0 <= Z.shiftr 16 sx) by (apply Z.shiftr_nonneg; lia).
  split; [|intros y x Hy Hx Hc; rewrite PAST by lia; unfold clear_block_decoded_flags; fold sbW sbH; clear - Hy Hx Hc NN1 NN2;
    destruct ((y =? Z.shiftr 16 sy) && (x =? -1)); [reflexivity|];
    destruct Hc as [[H1 H2]|[H1 H2]]; [replace (x <? sbW) with false by lia; replace (x <? 0) with false by lia|replace (y <? 0) with false by lia; replace (y <? sbH) with false by lia]; rewrite ?andb_false_r; reflexivity].
  intros y x Hy Hx Hsy Hsx. unfold avail.
  assert (CASE : (0 <= y < Z.shiftr 16 sy /\ 0 <= x < Z.shiftr 16 sx) \/ (y < 0 \/ x < 0 \/ Z.shiftr 16 sy <= y \/ Z.shiftr 16 sx <= x)) by lia.
  destruct CASE as [[Cy Cx]|Cp].
  - unfold flags, BlockDecoded. rewrite flags_fold, existsb_app, existsb_flat_map.
    assert (Fy : y < Z.shiftr FR sy) by (pose proof sbH_frame; lia). assert (Fx : x < Z.shiftr FC sx) by (pose proof sbW_frame; lia).
    rewrite <- E1, existsb_map. rewrite <- T2, existsb_map.
    replace (y <? 0) with false by lia. replace (x <? 0) with false by lia. replace ((Z.shiftr 16 sx <=? x) || (Z.shiftr 16 sy <=? y)) with false by lia.
    assert (D0 : clear_block_decoded_flags sx sy RowEnd ColEnd r0 c0 y x = false) by (unfold clear_block_decoded_flags; replace (y <? 0) with false by lia; replace (x <? 0) with false by lia; destruct ((y =? Z.shiftr 16 sy) && (x =? -1)); reflexivity).
    rewrite D0, orb_false_r. f_equal.
    + transitivity (existsb (covers sx sy y x) lp).
      * apply existsb_ext. intros b' I. apply block_hits; auto; [apply FIT|apply RES]; apply in_or_app; auto.
      * rewrite (A10 y x) by (repeat split; lia). f_equal. replace (in_node sx sy y x 0 0 16) with true; [reflexivity|].
        unfold in_node, in_rect. rewrite !Z.shiftr_0_l. clear - Cy Cx. lia.
    + apply existsb_ext. intros t' I. apply hit_there; auto. apply SBR. auto.
  - rewrite PAST by exact Cp.
    unfold clear_block_decoded_flags. fold sbW sbH. clear - Cp Hy Hx Hsy Hsx NN1 NN2.
    destruct (Z.ltb_spec y 0).
    + replace ((y =? Z.shiftr 16 sy) && (x =? -1)) with false by lia. replace (x <? sbW) with true by lia. reflexivity.
    + destruct (Z.ltb_spec x 0).
      * replace (x =? -1) with true by lia. rewrite andb_true_r. replace (y <? sbH) with true by lia. destruct (Z.eqb_spec y (Z.shiftr 16 sy)); cbn [andb]; lia.
      * replace (x =? -1) with false by lia. rewrite andb_false_r. cbn [andb]. replace ((Z.shiftr 16 sx <=? x) || (Z.shiftr 16 sy <=? y)) with true by lia. reflexivity.
Qed.
End Flags.
