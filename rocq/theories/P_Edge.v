(** C40: the edge samples of intra prediction.  The encoder's tables and tests say exactly
    which samples a decoder has when it predicts a transform block, and the edge arrays it
    prepares are those of the specification. *)
From Verif Require Import Base Edge_model Edge_order Edge_decode Edge_flags.
From Verif Require Import Edge_spec.
Local Open Scope Z_scope.

Lemma says_spec o first all : says o first all = true -> o = Some first /\ (first = true -> forall a, In a all -> a = true).
Proof.
  unfold says. destruct o as [v|]; [|discriminate]. intros H. apply andb_prop in H. destruct H as [H1 H2]. apply eqb_prop in H1. subst v. split; [reflexivity|].
  intros -> a I. cbn [negb orb] in H2. rewrite forallb_forall in H2. apply H2. exact I.
Qed.
Lemma htr_mod bw bh r c r' c' ta ra tw ro co sx : Z.land r 15 = Z.land r' 15 -> Z.land c 15 = Z.land c' 15 ->
  has_top_right bw bh r c ta ra tw ro co sx = has_top_right bw bh r' c' ta ra tw ro co sx.
Proof. intros A B. unfold has_top_right. rewrite A, B. reflexivity. Qed.
Lemma hbl_mod bw bh r c r' c' ta ra tw ro co sx : Z.land r 15 = Z.land r' 15 -> Z.land c 15 = Z.land c' 15 ->
  has_bottom_left bw bh r c ta ra tw ro co sx = has_bottom_left bw bh r' c' ta ra tw ro co sx.
Proof. intros A B. unfold has_bottom_left. rewrite A, B. reflexivity. Qed.
Lemma land15 r0 s a : r0 mod 16 = 0 -> s mod 16 = 0 -> Z.land (r0 + a - s) 15 = Z.land a 15.
Proof. intros A B. change 15 with (Z.ones 4). rewrite !Z.land_ones by lia. change (2 ^ 4) with 16. dlia. Qed.
Lemma shr4 v : Z.shiftr (4 * v) 2 = v.
Proof. rewrite Z.shiftr_div_pow2 by lia. change (2 ^ 2) with 4. rewrite Z.mul_comm. apply Z.div_mul. lia. Qed.
Lemma shr_sub sub a b : sub = 0 \/ sub = 1 -> a mod 16 = 0 -> b mod 16 = 0 -> Z.shiftr (a - b) sub = Z.shiftr a sub - Z.shiftr b sub.
Proof. intros H A B. rewrite !Z.shiftr_div_pow2 by lia. destruct H as [-> | ->]; [change (2 ^ 0) with 1|change (2 ^ 1) with 2]; dlia. Qed.

(** The samples of the tile in the plane. *)
Definition tile_size (sub start fin : Z) : Z := Z.shiftr (4 * (fin - start)) sub.
Lemma tile_size_local sub start fin v u : sub = 0 \/ sub = 1 -> start mod 16 = 0 -> v mod 16 = 0 -> fin mod 2 = 0 ->
  (4 * (Z.shiftr v sub + u - Z.shiftr start sub) <? tile_size sub start fin) = (u <? Z.shiftr (fin - v) sub) /\
  tile_size sub start fin = 4 * (Z.shiftr (fin - v) sub + Z.shiftr v sub - Z.shiftr start sub).
Proof.
  intros H A B C. unfold tile_size. rewrite !Z.shiftr_div_pow2 by lia. destruct H as [-> | ->]; [change (2 ^ 0) with 1|change (2 ^ 1) with 2]; split; dlia.
Qed.

(** ** Arithmetic of one edge *)
Section Arith.
Variables (CurrFrame : Z -> Z -> Z) (bd RS CS X0 Y0 lx ly tw th W H FW FH SBx SBy : Z).
Hypotheses (Hbd : 8 <= bd) (Htw : 0 < tw) (Hth : 0 < th) (Hlx : 0 <= lx) (Hly : 0 <= ly) (HX : CS <= X0) (HY : RS <= Y0).
Hypotheses (HW : W <= FW) (HW' : W = FW \/ SBx <= W) (HH : H <= FH) (HH' : H = FH \/ SBy <= H).
Hypotheses (HWa : W = FW \/ W <= lx + tw \/ lx + 2 * tw <= W) (HHa : H = FH \/ H <= ly + th \/ ly + 2 * th <= H).
Hypotheses (Hx : lx < W) (Hy : ly < H) (Hx' : lx + tw <= SBx) (Hy' : ly + th <= SBy).
Let dst (y x : Z) : Z := CurrFrame (4 * RS + y) (4 * CS + x).
Let po_x := 4 * (X0 + lx - CS).
Let po_y := 4 * (Y0 + ly - RS).
Let rect_w := 4 * (W + X0 - CS).
Let rect_h := 4 * (H + Y0 - RS).
Let maxX := 4 * (FW + X0) - 1.
Let maxY := 4 * (FH + Y0) - 1.
Let x := 4 * (X0 + lx).
Let y := 4 * (Y0 + ly).
Lemma base_bd : base bd = 2 ^ (bd - 1).
Proof. unfold base. rewrite Z.shiftl_mul_pow2 by lia. change 128 with (2 ^ 7). rewrite <- Z.pow_add_r by lia. f_equal. lia. Qed.
Lemma cf_eq a b c d : a = c -> b = d -> CurrFrame a b = CurrFrame c d.
Proof. intros -> ->. reflexivity. Qed.
Lemma above_eq har num i : 0 <= i ->
  (SBx <= lx + tw -> W <= lx + tw -> har = false) ->
  (num = (if negb (po_y =? 0) && ((po_x + 4 * tw <? rect_w) && har) then Z.min (4 * tw) (rect_w - po_x - 4 * tw) else 0) \/ (num = 0 /\ i < 4 * tw)) ->
  top_right_edge dst rect_w bd po_y po_x (4 * tw) num i =
  aboveRow maxX bd CurrFrame x y (4 * tw) (negb (po_x =? 0)) (negb (po_y =? 0)) har i.
Proof.
  intros Hi Hh Hn. unfold top_right_edge, top_edge, aboveRow. rewrite base_bd. rewrite !negb_involutive.
  destruct (Z.eqb_spec po_y 0) as [E|E]; cbn [negb andb].
  - (* no row above *)
    assert (num = 0) as -> by (cbn [negb andb] in Hn; clear - Hn; lia). cbn [Z.eqb].
    assert (K : (if negb (po_x =? 0) then dst 0 (po_x - 1) else 2 ^ (bd - 1) - 1) = (if negb (po_x =? 0) then CurrFrame y (x - 1) else if po_x =? 0 then 2 ^ (bd - 1) - 1 else 0)).
    { destruct (po_x =? 0); cbn [negb]; [reflexivity|]. unfold dst. apply cf_eq; unfold po_y, po_x, x, y in *; lia. }
    rewrite K. replace (i <? 4 * tw + 0) with (i <? 4 * tw) by (f_equal; lia). destruct (i <? 4 * tw); destruct (po_x =? 0); reflexivity.
  - cbn [negb] in Hn. cbv zeta.
    destruct (Z.ltb_spec rect_w (po_x + 4 * tw)) as [O|O].
    + (* the block passes the right side of the frame *)
      assert (num = 0) as -> by (clear - Hn O; destruct (Z.ltb_spec (po_x + 4 * tw) rect_w); cbn [andb] in Hn; lia).
      cbn [Z.eqb]. replace (i <? 4 * tw + 0) with (i <? 4 * tw) by (f_equal; lia).
      assert (WF : W = FW) by (clear - O HW' Hx'; unfold rect_w, po_x in O; lia).
      destruct (Z.ltb_spec i (4 * tw)) as [I|I].
      * destruct (Z.ltb_spec i (rect_w - po_x)); unfold dst; apply cf_eq; unfold maxX, rect_w, po_x, po_y, x, y in *; lia.
      * replace (4 * tw - 1 <? rect_w - po_x) with false by lia.
        destruct har; unfold dst; apply cf_eq; unfold maxX, rect_w, po_x, po_y, x, y in *; lia.
    + destruct (Z.ltb_spec i (4 * tw)) as [I|I].
      * unfold dst. apply cf_eq; unfold maxX, rect_w, po_x, po_y, x, y in *; lia.
      * destruct Hn as [Hn|Hn]; [|lia]. destruct (Z.ltb_spec (po_x + 4 * tw) rect_w) as [R|R]; cbn [andb] in Hn.
        -- destruct har; cbn [andb] in Hn.
           ++ assert (0 < num) by (clear - Hn R Htw; lia). replace (num =? 0) with false by lia.
              destruct (Z.ltb_spec i (4 * tw + num)); unfold dst; apply cf_eq; try (unfold maxX, rect_w, po_x, po_y, x, y in *; lia).
           ++ subst num. cbn [Z.eqb]. replace (i <? 4 * tw + 0) with false by lia. replace (4 * tw - 1 <? 4 * tw) with true by lia.
              unfold dst. apply cf_eq; unfold maxX, rect_w, po_x, po_y, x, y in *; lia.
        -- subst num. cbn [Z.eqb]. replace (i <? 4 * tw + 0) with false by lia. replace (4 * tw - 1 <? 4 * tw) with true by lia.
           assert (LW : lx + tw = W) by (unfold rect_w, po_x in *; lia).
           destruct har.
           ++ assert (W = FW) by (destruct HW' as [|K]; [auto|]; discriminate Hh; lia).
              unfold dst; apply cf_eq; unfold maxX, rect_w, po_x, po_y, x, y in *; lia.
           ++ unfold dst; apply cf_eq; unfold maxX, rect_w, po_x, po_y, x, y in *; lia.
Qed.
Lemma left_eq hbl num i : 0 <= i ->
  (SBy <= ly + th -> H <= ly + th -> hbl = false) ->
  (num = (if negb (po_x =? 0) && ((po_y + 4 * th <? rect_h) && hbl) then Z.min (4 * th) (rect_h - po_y - 4 * th) else 0) \/ (num = 0 /\ i < 4 * th)) ->
  bottom_left_edge dst rect_h bd po_y po_x (4 * th) num i =
  leftCol maxY bd CurrFrame x y (4 * th) (negb (po_x =? 0)) (negb (po_y =? 0)) hbl i.
Proof.
  intros Hi Hh Hn. unfold bottom_left_edge, left_edge, leftCol. rewrite base_bd. rewrite !negb_involutive.
  destruct (Z.eqb_spec po_x 0) as [E|E]; cbn [negb andb].
  - assert (num = 0) as -> by (cbn [negb andb] in Hn; clear - Hn; lia). cbn [Z.eqb].
    assert (K : (if negb (po_y =? 0) then dst (po_y - 1) 0 else 2 ^ (bd - 1) + 1) = (if negb (po_y =? 0) then CurrFrame (y - 1) x else if po_y =? 0 then 2 ^ (bd - 1) + 1 else 0)).
    { destruct (po_y =? 0); cbn [negb]; [reflexivity|]. unfold dst. apply cf_eq; unfold po_y, po_x, x, y in *; lia. }
    rewrite K. replace (i <? 4 * th + 0) with (i <? 4 * th) by (f_equal; lia). destruct (i <? 4 * th); destruct (po_y =? 0); reflexivity.
  - cbn [negb] in Hn. cbv zeta.
    destruct (Z.ltb_spec rect_h (po_y + 4 * th)) as [O|O].
    + assert (num = 0) as -> by (clear - Hn O; destruct (Z.ltb_spec (po_y + 4 * th) rect_h); cbn [andb] in Hn; lia).
      cbn [Z.eqb]. replace (i <? 4 * th + 0) with (i <? 4 * th) by (f_equal; lia).
      assert (WF : H = FH) by (clear - O HH' Hy'; unfold rect_h, po_y in O; lia).
      destruct (Z.ltb_spec i (4 * th)) as [I|I].
      * destruct (Z.ltb_spec i (rect_h - po_y)); unfold dst; apply cf_eq; unfold maxY, rect_h, po_x, po_y, x, y in *; lia.
      * replace (4 * th - 1 <? rect_h - po_y) with false by lia.
        destruct hbl; unfold dst; apply cf_eq; unfold maxY, rect_h, po_x, po_y, x, y in *; lia.
    + destruct (Z.ltb_spec i (4 * th)) as [I|I].
      * unfold dst. apply cf_eq; unfold maxY, rect_h, po_x, po_y, x, y in *; lia.
      * destruct Hn as [Hn|Hn]; [|lia]. destruct (Z.ltb_spec (po_y + 4 * th) rect_h) as [R|R]; cbn [andb] in Hn.
        -- destruct hbl; cbn [andb] in Hn.
           ++ assert (0 < num) by (clear - Hn R Hth; lia). replace (num =? 0) with false by lia.
              destruct (Z.ltb_spec i (4 * th + num)); unfold dst; apply cf_eq; try (unfold maxY, rect_h, po_x, po_y, x, y in *; lia).
           ++ subst num. cbn [Z.eqb]. replace (i <? 4 * th + 0) with false by lia. replace (4 * th - 1 <? 4 * th) with true by lia.
              unfold dst. apply cf_eq; unfold maxY, rect_h, po_x, po_y, x, y in *; lia.
        -- subst num. cbn [Z.eqb]. replace (i <? 4 * th + 0) with false by lia. replace (4 * th - 1 <? 4 * th) with true by lia.
           assert (LW : ly + th = H) by (unfold rect_h, po_y in *; lia).
           destruct hbl.
           ++ assert (H = FH) by (destruct HH' as [|K]; [auto|]; discriminate Hh; lia).
              unfold dst; apply cf_eq; unfold maxY, rect_h, po_x, po_y, x, y in *; lia.
           ++ unfold dst; apply cf_eq; unfold maxY, rect_h, po_x, po_y, x, y in *; lia.
Qed.
Lemma corner_eq nd l a : corner dst bd po_y po_x (4 * tw) (4 * th) nd l a =
  if n_topleft nd then
    let tl := aboveLeft bd CurrFrame x y (negb (po_x =? 0)) (negb (po_y =? 0)) in
    if n_filter nd && (24 <=? 4 * tw + 4 * th) then Z.shiftr (l * 5 + tl * 6 + a * 5 + 8) 4 else tl
  else 2 ^ (bd - 1).
Proof.
  unfold corner, aboveLeft. rewrite base_bd. destruct (n_topleft nd); [|reflexivity]. cbv zeta.
  assert (K : (if (po_x =? 0) && (po_y =? 0) then 2 ^ (bd - 1) else if po_y =? 0 then dst 0 (po_x - 1) else if po_x =? 0 then dst (po_y - 1) 0 else dst (po_y - 1) (po_x - 1))
    = (if negb (po_y =? 0) && negb (po_x =? 0) then CurrFrame (y - 1) (x - 1) else if negb (po_y =? 0) then CurrFrame (y - 1) x else if negb (po_x =? 0) then CurrFrame y (x - 1) else 2 ^ (bd - 1))).
  { destruct (Z.eqb_spec po_x 0), (Z.eqb_spec po_y 0); cbn [negb andb]; try reflexivity; unfold dst; apply cf_eq; unfold po_x, po_y, x, y in *; lia. }
  rewrite K. reflexivity.
Qed.
End Arith.

Lemma half_mod n r : n = 1 \/ n = 2 \/ n = 4 \/ n = 8 \/ n = 16 -> 2 <= n -> r mod n = 0 -> r mod (n / 2) = 0 /\ (r + n / 2) mod (n / 2) = 0.
Proof.
  intros Hn H2 M. assert (E : exists m, 0 < m /\ n = 2 * m) by (destruct Hn as [->|[->|[->|[->| ->]]]]; [lia|exists 1; lia|exists 2; lia|exists 4; lia|exists 8; lia]).
  destruct E as (m & Hm & ->). replace (2 * m / 2) with m by (rewrite Z.mul_comm, Z.div_mul by lia; reflexivity).
  apply Z.mod_divide in M; [|lia]. destruct M as (q & ->). split; [replace (q * (2 * m)) with (q * 2 * m) by lia|replace (q * (2 * m) + m) with ((q * 2 + 1) * m) by lia]; apply Z.mod_mul; lia.
Qed.
(** The blocks of a partition tree are aligned. *)
Lemma dp_blocks_at MR MC t : forall n r c b, n = 1 \/ n = 2 \/ n = 4 \/ n = 8 \/ n = 16 -> r mod n = 0 -> c mod n = 0 -> wf_tree n t ->
  In b (decode_partition MR MC t r c n) -> In (b_h b) [1; 2; 4; 8; 16] /\ In (b_w b) [1; 2; 4; 8; 16] /\ b_row b mod b_h b = 0 /\ b_col b mod b_w b = 0.
Proof.
  induction t as [| | |t1 IH1 t2 IH2 t3 IH3 t4 IH4]; intros n r c b Hn Hr Hc W I; cbn [decode_partition] in I; destruct ((MR <=? r) || (MC <=? c)); try contradiction; cbn in W.
  - destruct I as [<-|[]]. cbn [b_h b_w b_row b_col]. split; [cbn; lia|]. split; [cbn; lia|]. auto.
  - destruct I as [<-|I]; [|destruct (r + n / 2 <? MR); [destruct I as [<-|[]]|contradiction]]; cbn [b_h b_w b_row b_col]; destruct Hn as [->|[->|[->|[->| ->]]]]; try lia; 
      [change (2 / 2) with 1|change (4 / 2) with 2|change (8 / 2) with 4|change (16 / 2) with 8|change (2 / 2) with 1|change (4 / 2) with 2|change (8 / 2) with 4|change (16 / 2) with 8];
      (split; [cbn; lia|]; split; [cbn; lia|]; split; [dlia|exact Hc]).
  - destruct I as [<-|I]; [|destruct (c + n / 2 <? MC); [destruct I as [<-|[]]|contradiction]]; cbn [b_h b_w b_row b_col]; destruct Hn as [->|[->|[->|[->| ->]]]]; try lia;
      [change (2 / 2) with 1|change (4 / 2) with 2|change (8 / 2) with 4|change (16 / 2) with 8|change (2 / 2) with 1|change (4 / 2) with 2|change (8 / 2) with 4|change (16 / 2) with 8];
      (split; [cbn; lia|]; split; [cbn; lia|]; split; [exact Hr|dlia]).
  - destruct W as (W0 & W1 & W2 & W3 & W4).
    assert (Hh : n / 2 = 1 \/ n / 2 = 2 \/ n / 2 = 4 \/ n / 2 = 8 \/ n / 2 = 16) by (destruct Hn as [->|[->|[->|[->| ->]]]]; [lia|left; reflexivity|right; left; reflexivity|right; right; left; reflexivity|right; right; right; left; reflexivity]).
    pose proof (half_mod n r Hn W0 Hr) as Mr. pose proof (half_mod n c Hn W0 Hc) as Mc.
    destruct Mr as [Mr1 Mr2], Mc as [Mc1 Mc2]. rewrite !in_app_iff in I.
    destruct I as [I|[I|[I|I]]]; [exact (IH1 _ _ _ b Hh Mr1 Mc1 W1 I)|exact (IH2 _ _ _ b Hh Mr1 Mc2 W2 I)|exact (IH3 _ _ _ b Hh Mr2 Mc1 W3 I)|exact (IH4 _ _ _ b Hh Mr2 Mc2 W4 I)].
Qed.
Lemma dp_blocks MR MC t n r c b : n = 1 \/ n = 2 \/ n = 4 \/ n = 8 \/ n = 16 -> r mod n = 0 -> c mod n = 0 -> wf_tree n t ->
  In b (decode_partition MR MC t r c n) -> 1 <= b_h b /\ 1 <= b_w b /\ (b_h b = 1 \/ b_row b mod 2 = 0) /\ (b_w b = 1 \/ b_col b mod 2 = 0).
Proof.
  intros Hn Hr Hc W I. destruct (dp_blocks_at MR MC t n r c b Hn Hr Hc W I) as (A & B & C & D). clear - A B C D. cbn in A, B.
  destruct A as [A|[A|[A|[A|[A|[]]]]]], B as [B|[B|[B|[B|[B|[]]]]]]; rewrite <- A, <- B in *; clear A B; split; (split || idtac); dlia.
Qed.
(* a transform block is aligned to its size *)
Lemma plane_aligned sub p sz v : sub = 0 \/ sub = 1 -> In sz [1; 2; 4; 8; 16] -> p mod sz = 0 -> In v (tx_sizes (Z.max 1 (Z.shiftr sz sub))) -> Z.shiftr p sub mod v = 0 /\ In v [1; 2; 4; 8; 16].
Proof.
  intros Hs Hz Hp V. unfold tx_sizes in V. apply filter_In in V. destruct V as [V1 V2]. split; [|exact V1]. apply Z.leb_le in V2. rewrite Z.shiftr_div_pow2 in * by lia. cbn in Hz, V1.
  destruct Hs as [-> | ->]; [change (2 ^ 0) with 1 in *|change (2 ^ 1) with 2 in *];
  destruct Hz as [<-|[<-|[<-|[<-|[<-|[]]]]]]; cbn in V2; destruct V1 as [<-|[<-|[<-|[<-|[<-|[]]]]]]; try lia; dlia.
Qed.
Lemma room_right sub fin v l w : sub = 0 \/ sub = 1 -> fin mod 16 = 0 -> v mod 16 = 0 -> In w [1; 2; 4; 8; 16] -> w <= Z.shiftr 16 sub -> l mod w = 0 ->
  Z.shiftr (fin - v) sub <= l + w \/ l + 2 * w <= Z.shiftr (fin - v) sub.
Proof.
  intros Hs Hf Hv Hw L Hl. rewrite Z.shiftr_div_pow2 in * by lia. cbn in Hw.
  destruct Hs as [-> | ->]; [change (2 ^ 0) with 1 in *|change (2 ^ 1) with 2 in *]; destruct Hw as [<-|[<-|[<-|[<-|[<-|[]]]]]]; cbn in L; try lia; dlia.
Qed.

Section C40.
Variables sx sy MiRows MiCols RowStart ColStart RowEnd ColEnd r0 c0 : Z.
Hypothesis G : tile_geom sx sy MiRows MiCols RowStart ColStart RowEnd ColEnd r0 c0.
Variables (t : ptree) (rs : blk -> residual).
Variables (bpre : list blk) (b : blk) (bpost : list blk) (th tw : Z) (tpre : list tx) (tt : tx) (tpost : list tx).
Hypothesis M : moment sx sy MiRows MiCols r0 c0 t rs bpre b bpost th tw tpre tt tpost.
(* the flags when tt is predicted *)
Let D : Z -> Z -> bool := BlockDecoded sx sy MiRows MiCols RowEnd ColEnd r0 c0 (flat_map (transform_blocks sx sy rs) bpre ++ tpre).
(* what get_intra_edges passes: offsets in the block and in the tile *)
Let off_y : Z := t_y tt - Z.shiftr (b_row b) sy.
Let off_x : Z := t_x tt - Z.shiftr (b_col b) sx.
Let po_y : Z := 4 * (t_y tt - Z.shiftr RowStart sy).
Let po_x : Z := 4 * (t_x tt - Z.shiftr ColStart sx).
Let rect_w : Z := tile_size sx ColStart ColEnd.
Let rect_h : Z := tile_size sy RowStart RowEnd.

Lemma ends_even : RowEnd mod 2 = 0 /\ ColEnd mod 2 = 0.
Proof.
  pose proof (tg_rows _ _ _ _ _ _ _ _ _ _ G). pose proof (tg_cols _ _ _ _ _ _ _ _ _ _ G).
  split; [destruct (tg_re _ _ _ _ _ _ _ _ _ _ G) as [->|[A _]]|destruct (tg_ce _ _ _ _ _ _ _ _ _ _ G) as [->|[A _]]]; auto; clear - A; dlia.
Qed.
Lemma local_tests : exists lb lt, b = shift_blk r0 c0 lb /\ tt = shift_tx (Z.shiftr r0 sy) (Z.shiftr c0 sx) lt /\
  t_h tt = th /\ t_w tt = tw /\ 0 < th /\ 0 < tw /\
  0 <= t_y lt /\ t_y lt + th <= Z.shiftr 16 sy /\ 0 <= t_x lt /\ t_x lt + tw <= Z.shiftr 16 sx /\
  in_sb sy (t_y tt) = t_y lt /\ in_sb sx (t_x tt) = t_x lt /\
  off_y = t_y lt - Z.shiftr (b_row lb) sy /\ off_x = t_x lt - Z.shiftr (b_col lb) sx /\ 0 <= off_y /\ 0 <= off_x /\
  0 <= b_row lb /\ 0 <= b_col lb /\ HasChroma sx sy lb = true /\
  t_y lt < sbH sy RowEnd r0 /\ t_x lt < sbW sx ColEnd c0 /\
  (forall v, exists sw sh, supersample_chroma_bsize (b_w b) (b_h b) sx sy = (sw, sh) /\
     has_top_right sw sh (b_row b - RowStart) (b_col b - ColStart) true v tw off_y off_x sx =
       (if v then local_tr sx sy lb lt else Some false) /\
     has_bottom_left sw sh (b_row b - RowStart) (b_col b - ColStart) v true th off_y off_x sy =
       (if v then local_bl sx sy lb lt else Some false)) /\
  (t_x lt + tw < sbW sx ColEnd c0 -> local_tr sx sy lb lt = Some (D (t_y lt - 1) (t_x lt + tw)) /\
     (D (t_y lt - 1) (t_x lt + tw) = true -> forall i, 0 <= i < tw -> t_x lt + tw + i < sbW sx ColEnd c0 -> D (t_y lt - 1) (t_x lt + tw + i) = true)) /\
  (t_y lt + th < sbH sy RowEnd r0 -> local_bl sx sy lb lt = Some (D (t_y lt + th) (t_x lt - 1)) /\
     (D (t_y lt + th) (t_x lt - 1) = true -> forall i, 0 <= i < th -> t_y lt + th + i < sbH sy RowEnd r0 ->
        t_y lt + th + i < Z.shiftr 16 sy /\ D (t_y lt + th + i) (t_x lt - 1) = true)) /\
  (forall y x, -1 <= y -> -1 <= x -> (Z.shiftr 16 sx <= x /\ sbW sx ColEnd c0 <= x) \/ (Z.shiftr 16 sy <= y /\ sbH sy RowEnd r0 <= y) -> D y x = false).
Proof.
  destruct (moment_local _ _ _ _ _ _ _ _ _ _ G _ _ _ _ _ _ _ _ _ _ M) as (lb & lt & n & R & C & k & l1 & l2 & lpre & Eb & Et & Eh & Ew & Fit & Ith & Itw & Pth & Ptw & Y1 & Y2 & X1 & X2 & Hc & Fy & Fx & _ & _ & _ & _ & _ & Chk & _ & Av & Past).
  destruct Fit as (F1 & F2 & F3 & _). destruct (F3 Hc) as [F4 F5].
  assert (Sx : sx = 0 \/ sx = 1) by (destruct (tg_sub _ _ _ _ _ _ _ _ _ _ G); lia). assert (Sy : sy = 0 \/ sy = 1) by (destruct (tg_sub _ _ _ _ _ _ _ _ _ _ G); lia).
  assert (N1 : 0 <= Z.shiftr (b_row lb) sy) by (apply Z.shiftr_nonneg; auto). assert (N2 : 0 <= Z.shiftr (b_col lb) sx) by (apply Z.shiftr_nonneg; auto).
  assert (IS : in_sbr sx sy lt) by (unfold in_sbr; clear - N1 N2 Y1 Y2 X1 X2 F4 F5 Pth Ptw; lia).
  destruct (there_pos _ _ _ _ _ _ _ _ _ _ G lt IS) as [P1 P2].
  assert (O1 : off_y = t_y lt - Z.shiftr (b_row lb) sy).
  { unfold off_y. rewrite Eb, Et, (row_there _ _ _ _ _ _ _ _ _ _ G). unfold there, shift_tx. cbn [t_y]. lia. }
  assert (O2 : off_x = t_x lt - Z.shiftr (b_col lb) sx).
  { unfold off_x. rewrite Eb, Et, (col_there _ _ _ _ _ _ _ _ _ _ G). unfold there, shift_tx. cbn [t_x]. lia. }
  assert (Sb1 : t_y lt < sbH sy RowEnd r0).
  { destruct (sbH_cases _ _ _ _ _ _ _ _ _ _ G) as [->|Q]; [exact Fy|]. destruct IS. clear - Q H. lia. }
  assert (Sb2 : t_x lt < sbW sx ColEnd c0).
  { destruct (sbW_cases _ _ _ _ _ _ _ _ _ _ G) as [->|Q]; [exact Fx|]. destruct IS. clear - Q H0. lia. }
  unfold chk_tx in Chk. rewrite Eh, Ew in Chk. apply andb_prop in Chk. destruct Chk as [K1 K2]. apply says_spec in K1, K2. destruct K1 as [K1 K1'], K2 as [K2 K2'].
  change (flags sx sy MiRows MiCols RowEnd ColEnd r0 c0 rs bpre tpre) with D in Av, Past.
  exists lb, lt. split; [exact Eb|]. split; [exact Et|]. split; [rewrite Et; exact Eh|]. split; [rewrite Et; exact Ew|]. split; [exact Pth|]. split; [exact Ptw|].
  split; [apply IS|]. split; [clear - Y2 F4; lia|]. split; [apply IS|]. split; [clear - X2 F5; lia|]. split; [rewrite Et; exact P1|]. split; [rewrite Et; exact P2|].
  split; [exact O1|]. split; [exact O2|]. split; [clear - O1 Y1; lia|]. split; [clear - O2 X1; lia|]. split; [exact F1|]. split; [exact F2|]. split; [exact Hc|]. split; [exact Sb1|]. split; [exact Sb2|].
  split.
  { intros v. destruct (supersample_chroma_bsize (b_w b) (b_h b) sx sy) as [sw sh] eqn:Q. exists sw, sh. split; [reflexivity|].
    assert (Q' : supersample_chroma_bsize (b_w lb) (b_h lb) sx sy = (sw, sh)) by (rewrite Eb in Q; exact Q).
    destruct v; [|split; reflexivity]. unfold local_tr, local_bl. rewrite Q', O1, O2, Eh, Ew.
    assert (L1 : Z.land (b_row b - RowStart) 15 = Z.land (b_row lb) 15).
    { rewrite Eb. unfold tblk, shift_blk. cbn [b_row]. apply land15; [apply (tg_r0 _ _ _ _ _ _ _ _ _ _ G)|apply (tg_rs _ _ _ _ _ _ _ _ _ _ G)]. }
    assert (L2 : Z.land (b_col b - ColStart) 15 = Z.land (b_col lb) 15).
    { rewrite Eb. unfold tblk, shift_blk. cbn [b_col]. apply land15; [apply (tg_c0 _ _ _ _ _ _ _ _ _ _ G)|apply (tg_cs _ _ _ _ _ _ _ _ _ _ G)]. }
    split; [apply htr_mod; auto|apply hbl_mod; auto]. }
  destruct IS as [I1 I2].
  split.
  { intros Hw. assert (E0 : D (t_y lt - 1) (t_x lt + tw) = avail sx sy l1 lpre R C (t_y lt - 1) (t_x lt + tw)) by (apply Av; [clear - I1; lia|clear - I2 Ptw; lia|clear - Sb1; lia|exact Hw]).
    split; [rewrite K1, E0; reflexivity|]. intros T i Hi Hi'. rewrite Av; [|clear - I1; lia|clear - I2 Ptw Hi; lia|clear - Sb1; lia|exact Hi'].
    apply K1'; [rewrite <- E0; exact T|]. apply in_map_iff. exists i. split; [reflexivity|apply upto_in; exact Hi]. }
  split.
  { assert (B16 : t_y lt + th <= Z.shiftr 16 sy) by (clear - Y2 F4; lia).
    intros Hw. assert (E0 : D (t_y lt + th) (t_x lt - 1) = avail sx sy l1 lpre R C (t_y lt + th) (t_x lt - 1)) by (apply Av; [clear - I1 B16 Pth; lia|clear - I2; lia|exact Hw|clear - Sb2; lia]).
    split; [rewrite K2, E0; reflexivity|]. intros T i Hi Hi'.
    assert (AV : avail sx sy l1 lpre R C (t_y lt + th + i) (t_x lt - 1) = true) by (apply K2'; [rewrite <- E0; exact T|]; apply in_map_iff; exists i; split; [reflexivity|apply upto_in; exact Hi]).
    assert (LT : t_y lt + th + i < Z.shiftr 16 sy).
    { unfold avail in AV. replace (t_y lt + th + i <? 0) with false in AV by (clear - I1 Pth Hi; lia). destruct (t_x lt - 1 <? 0); [clear - AV; lia|].
      destruct ((Z.shiftr 16 sx <=? t_x lt - 1) || (Z.shiftr 16 sy <=? t_y lt + th + i)) eqn:Q; [discriminate|]. clear - Q. lia. }
    split; [exact LT|]. rewrite Av; [exact AV|clear - I1 Pth Hi LT; lia|clear - I2; lia|exact Hi'|clear - Sb2; lia]. }
  exact Past.
Qed.

(** The tests of the encoder are the flags of the decoder, inside the tile. *)
Theorem C40_top_right : exists sw sh, supersample_chroma_bsize (b_w b) (b_h b) sx sy = (sw, sh) /\
  let right := po_x + 4 * tw <? rect_w in
  has_top_right sw sh (b_row b - RowStart) (b_col b - ColStart) true right tw off_y off_x sx = Some (right && haveAboveRt sx sy D tt).
Proof.
  destruct local_tests as (lb & lt & Eb & Et & Eh & Ew & Pth & Ptw & Y0 & Y1 & X0 & X1 & P1 & P2 & O1 & O2 & O3 & O4 & B1 & B2 & Hc & S1 & S2 & Ca & Tr & Bl & Past).
  destruct (Ca (po_x + 4 * tw <? rect_w)) as (sw & sh & Q & A & _). exists sw, sh. split; [exact Q|]. cbv zeta. rewrite A. unfold haveAboveRt. rewrite P1, P2, Ew.
  destruct (po_x + 4 * tw <? rect_w) eqn:Hr; [|reflexivity]. cbn [andb].
  apply Tr. assert (Sx : sx = 0 \/ sx = 1) by (destruct (tg_sub _ _ _ _ _ _ _ _ _ _ G); lia).
  pose proof (tile_size_local sx ColStart ColEnd c0 (t_x lt + tw) Sx (proj1 (tg_cs _ _ _ _ _ _ _ _ _ _ G)) (proj1 (tg_c0 _ _ _ _ _ _ _ _ _ _ G)) (proj2 ends_even)) as [TS _].
  fold rect_w in TS. unfold sbW. apply Z.ltb_lt. rewrite <- TS. apply Z.ltb_lt. apply Z.ltb_lt in Hr. unfold po_x in Hr. rewrite Et in Hr. unfold shift_tx in Hr. cbn [t_x] in Hr. clear - Hr. lia.
Qed.
Theorem C40_bottom_left : exists sw sh, supersample_chroma_bsize (b_w b) (b_h b) sx sy = (sw, sh) /\
  let bottom := po_y + 4 * th <? rect_h in
  has_bottom_left sw sh (b_row b - RowStart) (b_col b - ColStart) bottom true th off_y off_x sy = Some (bottom && haveBelowLft sx sy D tt).
Proof.
  destruct local_tests as (lb & lt & Eb & Et & Eh & Ew & Pth & Ptw & Y0 & Y1 & X0 & X1 & P1 & P2 & O1 & O2 & O3 & O4 & B1 & B2 & Hc & S1 & S2 & Ca & Tr & Bl & Past).
  destruct (Ca (po_y + 4 * th <? rect_h)) as (sw & sh & Q & _ & A). exists sw, sh. split; [exact Q|]. cbv zeta. rewrite A. unfold haveBelowLft. rewrite P1, P2, Eh.
  destruct (po_y + 4 * th <? rect_h) eqn:Hr; [|reflexivity]. cbn [andb].
  apply Bl. assert (Sy : sy = 0 \/ sy = 1) by (destruct (tg_sub _ _ _ _ _ _ _ _ _ _ G); lia).
  pose proof (tile_size_local sy RowStart RowEnd r0 (t_y lt + th) Sy (proj1 (tg_rs _ _ _ _ _ _ _ _ _ _ G)) (proj1 (tg_r0 _ _ _ _ _ _ _ _ _ _ G)) (proj1 ends_even)) as [TS _].
  fold rect_h in TS. unfold sbH. apply Z.ltb_lt. rewrite <- TS. apply Z.ltb_lt. apply Z.ltb_lt in Hr. unfold po_y in Hr. rewrite Et in Hr. unfold shift_tx in Hr. cbn [t_y] in Hr. clear - Hr. lia.
Qed.

(** When a test says yes, every sample read is in a block decoded before. *)
Theorem C40_truthful :
  let right := po_x + 4 * tw <? rect_w in let bottom := po_y + 4 * th <? rect_h in
  forall sw sh, supersample_chroma_bsize (b_w b) (b_h b) sx sy = (sw, sh) ->
  (has_top_right sw sh (b_row b - RowStart) (b_col b - ColStart) true right tw off_y off_x sx = Some true ->
   forall i, 0 <= i < tw -> po_x + 4 * (tw + i) < rect_w -> D (in_sb sy (t_y tt) - 1) (in_sb sx (t_x tt) + tw + i) = true) /\
  (has_bottom_left sw sh (b_row b - RowStart) (b_col b - ColStart) bottom true th off_y off_x sy = Some true ->
   forall i, 0 <= i < th -> po_y + 4 * (th + i) < rect_h ->
     in_sb sy (t_y tt) + th + i < Z.shiftr 16 sy /\ D (in_sb sy (t_y tt) + th + i) (in_sb sx (t_x tt) - 1) = true).
Proof.
  cbv zeta. intros sw sh Q.
  destruct local_tests as (lb & lt & Eb & Et & Eh & Ew & Pth & Ptw & Y0 & Y1 & X0 & X1 & P1 & P2 & O1 & O2 & O3 & O4 & B1 & B2 & Hc & S1 & S2 & Ca & Tr & Bl & Past).
  rewrite P1, P2.
  assert (Sx : sx = 0 \/ sx = 1) by (destruct (tg_sub _ _ _ _ _ _ _ _ _ _ G); lia). assert (Sy : sy = 0 \/ sy = 1) by (destruct (tg_sub _ _ _ _ _ _ _ _ _ _ G); lia).
  assert (WX : forall u, 4 * (t_x tt - Z.shiftr ColStart sx) + 4 * u < rect_w -> t_x lt + u < sbW sx ColEnd c0).
  { intros u H. pose proof (tile_size_local sx ColStart ColEnd c0 (t_x lt + u) Sx (proj1 (tg_cs _ _ _ _ _ _ _ _ _ _ G)) (proj1 (tg_c0 _ _ _ _ _ _ _ _ _ _ G)) (proj2 ends_even)) as [TS _].
    fold rect_w in TS. unfold sbW. apply Z.ltb_lt. rewrite <- TS. rewrite Et in H. unfold shift_tx in H. cbn [t_x] in H. clear - H. lia. }
  assert (WY : forall u, 4 * (t_y tt - Z.shiftr RowStart sy) + 4 * u < rect_h -> t_y lt + u < sbH sy RowEnd r0).
  { intros u H. pose proof (tile_size_local sy RowStart RowEnd r0 (t_y lt + u) Sy (proj1 (tg_rs _ _ _ _ _ _ _ _ _ _ G)) (proj1 (tg_r0 _ _ _ _ _ _ _ _ _ _ G)) (proj1 ends_even)) as [TS _].
    fold rect_h in TS. unfold sbH. apply Z.ltb_lt. rewrite <- TS. rewrite Et in H. unfold shift_tx in H. cbn [t_y] in H. clear - H. lia. }
  split.
  - destruct (Ca (po_x + 4 * tw <? rect_w)) as (sw' & sh' & Q' & A & _). rewrite Q in Q'. injection Q' as <- <-. rewrite A. intros H i Hi Hi'.
    destruct (po_x + 4 * tw <? rect_w) eqn:Hr; [|discriminate]. apply Z.ltb_lt in Hr. destruct (Tr (WX tw Hr)) as [T1 T2]. rewrite H in T1. injection T1 as T1.
    apply T2; [auto|exact Hi|]. rewrite <- Z.add_assoc. apply WX. exact Hi'.
  - destruct (Ca (po_y + 4 * th <? rect_h)) as (sw' & sh' & Q' & _ & A). rewrite Q in Q'. injection Q' as <- <-. rewrite A. intros H i Hi Hi'.
    destruct (po_y + 4 * th <? rect_h) eqn:Hr; [|discriminate]. apply Z.ltb_lt in Hr. destruct (Bl (WY th Hr)) as [T1 T2]. rewrite H in T1. injection T1 as T1.
    apply T2; [auto|exact Hi|]. rewrite <- Z.add_assoc. apply WY. exact Hi'.
Qed.
(** The edge arrays are those of the specification, for every frame, every bit depth and every
    choice of the parts filled in. *)
Lemma above_avail : haveAbove sy RowStart b tt = negb (po_y =? 0).
Proof.
  destruct local_tests as (lb & lt & Eb & Et & Eh & Ew & Pth & Ptw & Y0 & Y1 & X0 & X1 & P1 & P2 & O1 & O2 & O3 & O4 & B1 & B2 & Hc & _).
  assert (Sy : sy = 0 \/ sy = 1) by (destruct (tg_sub _ _ _ _ _ _ _ _ _ _ G); lia).
  destruct (tg_rs _ _ _ _ _ _ _ _ _ _ G) as [R1 R2]. destruct (tg_r0 _ _ _ _ _ _ _ _ _ _ G) as [R3 R4].
  assert (AL : 1 <= b_h b /\ (b_h b = 1 \/ b_row b mod 2 = 0)).
  { destruct (dp_blocks MiRows MiCols t 16 r0 c0 b) as (K1 & _ & K2 & _); [lia|exact R3|apply (tg_c0 _ _ _ _ _ _ _ _ _ _ G)|apply M|rewrite (m_blocks _ _ _ _ _ _ _ _ _ _ _ _ _ _ _ _ M); apply in_or_app; right; left; reflexivity|]. auto. }
  assert (CH : HasChroma sx sy b = true) by apply M. unfold HasChroma in CH. apply andb_prop in CH. destruct CH as [CH _].
  unfold off_y in O3. assert (RB : RowStart <= b_row b) by (rewrite Eb; unfold shift_blk; cbn [b_row]; lia).
  unfold haveAbove, po_y. rewrite Zeven_mod in CH. clear - Sy R1 AL CH O3 RB. 
  destruct (Z.eqb_spec (t_y tt) (Z.shiftr (b_row b) sy)) as [E|E].
  - rewrite E. rewrite !Z.shiftr_div_pow2 by lia.
    assert (EV : (sy =? 1) && (b_h b =? 1) = true -> b_row b mod 2 <> 0) by (intros Q Q'; rewrite Q, Q' in CH; discriminate). clear CH.
    destruct Sy as [-> | ->]; [change (2 ^ 0) with 1|change (2 ^ 1) with 2].
    + cbn [Z.eqb andb]. rewrite !Z.div_1_r. lia.
    + cbn [Z.eqb Pos.eqb andb] in *. destruct (Z.eqb_spec (b_h b) 1) as [Q|Q].
      * specialize (EV eq_refl). clear AL. destruct (Z.eqb_spec (4 * (b_row b / 2 - RowStart / 2)) 0); dlia.
      * destruct AL as [_ [AL|AL]]; [lia|]. destruct (Z.eqb_spec (4 * (b_row b / 2 - RowStart / 2)) 0); dlia.
  - assert (0 <= Z.shiftr (b_row b) sy - Z.shiftr RowStart sy) by (pose proof (shr_mono RowStart (b_row b) sy ltac:(lia) RB); lia). lia.
Qed.
Lemma left_avail : haveLeft sx ColStart b tt = negb (po_x =? 0).
Proof.
  destruct local_tests as (lb & lt & Eb & Et & Eh & Ew & Pth & Ptw & Y0 & Y1 & X0 & X1 & P1 & P2 & O1 & O2 & O3 & O4 & B1 & B2 & Hc & _).
  assert (Sx : sx = 0 \/ sx = 1) by (destruct (tg_sub _ _ _ _ _ _ _ _ _ _ G); lia).
  destruct (tg_cs _ _ _ _ _ _ _ _ _ _ G) as [R1 R2]. destruct (tg_c0 _ _ _ _ _ _ _ _ _ _ G) as [R3 R4].
  assert (AL : 1 <= b_w b /\ (b_w b = 1 \/ b_col b mod 2 = 0)).
  { destruct (dp_blocks MiRows MiCols t 16 r0 c0 b) as (_ & K1 & _ & K2); [lia|apply (tg_r0 _ _ _ _ _ _ _ _ _ _ G)|exact R3|apply M|rewrite (m_blocks _ _ _ _ _ _ _ _ _ _ _ _ _ _ _ _ M); apply in_or_app; right; left; reflexivity|]. auto. }
  assert (CH : HasChroma sx sy b = true) by apply M. unfold HasChroma in CH. apply andb_prop in CH. destruct CH as [_ CH].
  unfold off_x in O4. assert (RB : ColStart <= b_col b) by (rewrite Eb; unfold shift_blk; cbn [b_col]; lia).
  unfold haveLeft, po_x. rewrite Zeven_mod in CH. clear - Sx R1 AL CH O4 RB. 
  destruct (Z.eqb_spec (t_x tt) (Z.shiftr (b_col b) sx)) as [E|E].
  - rewrite E. rewrite !Z.shiftr_div_pow2 by lia.
    assert (EV : (sx =? 1) && (b_w b =? 1) = true -> b_col b mod 2 <> 0) by (intros Q Q'; rewrite Q, Q' in CH; discriminate). clear CH.
    destruct Sx as [-> | ->]; [change (2 ^ 0) with 1|change (2 ^ 1) with 2].
    + cbn [Z.eqb andb]. rewrite !Z.div_1_r. lia.
    + cbn [Z.eqb Pos.eqb andb] in *. destruct (Z.eqb_spec (b_w b) 1) as [Q|Q].
      * specialize (EV eq_refl). clear AL. destruct (Z.eqb_spec (4 * (b_col b / 2 - ColStart / 2)) 0); dlia.
      * destruct AL as [_ [AL|AL]]; [lia|]. destruct (Z.eqb_spec (4 * (b_col b / 2 - ColStart / 2)) 0); dlia.
  - assert (0 <= Z.shiftr (b_col b) sx - Z.shiftr ColStart sx) by (pose proof (shr_mono ColStart (b_col b) sx ltac:(lia) RB); lia). lia.
Qed.
Lemma have_flag sub bo o : sub = 0 \/ sub = 1 -> 0 <= o -> 0 <= bo -> Z.shiftr bo sub + o <> 0 ->
  negb (o =? 0) || (if negb (sub =? 0) then 1 <? bo else 0 <? bo) = true.
Proof.
  intros H Ho Hb N. rewrite Z.shiftr_div_pow2 in N by lia. destruct (Z.eqb_spec o 0); [|reflexivity]. subst o.
  destruct H as [-> | ->]; [change (2 ^ 0) with 1 in N|change (2 ^ 1) with 2 in N]; cbn [Z.eqb negb orb]; dlia.
Qed.

Theorem C40_edges (CurrFrame : Z -> Z -> Z) (bd by_ bx : Z) (nd : needs) : 8 <= bd -> by_ * th = off_y -> bx * tw = off_x ->
  let dst := fun y x => CurrFrame (4 * Z.shiftr RowStart sy + y) (4 * Z.shiftr ColStart sx + x) in
  let maxX := Z.shiftr (4 * MiCols) sx - 1 in let maxY := Z.shiftr (4 * MiRows) sy - 1 in
  let x := 4 * t_x tt in let y := 4 * t_y tt in
  let hl := haveLeft sx ColStart b tt in let ha := haveAbove sy RowStart b tt in
  let above := aboveRow maxX bd CurrFrame x y (4 * tw) hl ha (haveAboveRt sx sy D tt) in
  let left := leftCol maxY bd CurrFrame x y (4 * th) hl ha (haveBelowLft sx sy D tt) in
  let tl := aboveLeft bd CurrFrame x y hl ha in
  exists e, get_intra_edges dst rect_w rect_h bd (b_row b - RowStart) (b_col b - ColStart) (b_w b) (b_h b) sx sy
              by_ bx po_y po_x (4 * tw) (4 * th) nd = Some e /\
    e_na e = (if n_top nd then 4 * tw else 0) + (if n_topright nd then 4 * th else 0) /\
    e_nl e = (if n_left nd then 4 * th else 0) + (if n_bottomleft nd then 4 * tw else 0) /\
    (forall i, 0 <= i < e_na e -> e_above e i = above i) /\
    (forall i, 0 <= i < e_nl e -> e_left e i = left i) /\
    e_corner e = (if n_topleft nd then
                    if n_filter nd && (24 <=? 4 * tw + 4 * th) then Z.shiftr (left 0 * 5 + tl * 6 + above 0 * 5 + 8) 4 else tl
                  else 2 ^ (bd - 1)).
Proof.
  intros Hbd Hby Hbx. cbv zeta. rewrite above_avail, left_avail.
  destruct local_tests as (lb & lt & Eb & Et & Eh & Ew & Pth & Ptw & Y0 & Y1 & X0 & X1 & P1 & P2 & O1 & O2 & O3 & O4 & B1 & B2 & Hc & S1 & S2 & _ & _ & _ & Past).
  assert (Sx : sx = 0 \/ sx = 1) by (destruct (tg_sub _ _ _ _ _ _ _ _ _ _ G); lia). assert (Sy : sy = 0 \/ sy = 1) by (destruct (tg_sub _ _ _ _ _ _ _ _ _ _ G); lia).
  destruct (tg_cs _ _ _ _ _ _ _ _ _ _ G) as [C1 C2]. destruct (tg_c0 _ _ _ _ _ _ _ _ _ _ G) as [C3 C4].
  destruct (tg_rs _ _ _ _ _ _ _ _ _ _ G) as [R1 R2]. destruct (tg_r0 _ _ _ _ _ _ _ _ _ _ G) as [R3 R4].
  assert (TX : t_x tt = Z.shiftr c0 sx + t_x lt) by (rewrite Et; reflexivity). assert (TY : t_y tt = Z.shiftr r0 sy + t_y lt) by (rewrite Et; reflexivity).
  assert (Px : po_x = 4 * (Z.shiftr c0 sx + t_x lt - Z.shiftr ColStart sx)) by (unfold po_x; rewrite TX; lia).
  assert (Py : po_y = 4 * (Z.shiftr r0 sy + t_y lt - Z.shiftr RowStart sy)) by (unfold po_y; rewrite TY; lia).
  assert (Rw : rect_w = 4 * (sbW sx ColEnd c0 + Z.shiftr c0 sx - Z.shiftr ColStart sx)) by (unfold rect_w, sbW; apply (tile_size_local sx ColStart ColEnd c0 0 Sx C1 C3 (proj2 ends_even))).
  assert (Rh : rect_h = 4 * (sbH sy RowEnd r0 + Z.shiftr r0 sy - Z.shiftr RowStart sy)) by (unfold rect_h, sbH; apply (tile_size_local sy RowStart RowEnd r0 0 Sy R1 R3 (proj1 ends_even))).
  assert (Mx : Z.shiftr (4 * MiCols) sx - 1 = 4 * (Z.shiftr (MiCols - c0) sx + Z.shiftr c0 sx) - 1).
  { pose proof (proj2 (tile_size_local sx 0 MiCols c0 0 Sx eq_refl C3 (tg_cols _ _ _ _ _ _ _ _ _ _ G))) as K. unfold tile_size in K. rewrite Z.sub_0_r, Z.shiftr_0_l in K. lia. }
  assert (My : Z.shiftr (4 * MiRows) sy - 1 = 4 * (Z.shiftr (MiRows - r0) sy + Z.shiftr r0 sy) - 1).
  { pose proof (proj2 (tile_size_local sy 0 MiRows r0 0 Sy eq_refl R3 (tg_rows _ _ _ _ _ _ _ _ _ _ G))) as K. unfold tile_size in K. rewrite Z.sub_0_r, Z.shiftr_0_l in K. lia. }
  assert (XX : 4 * t_x tt = 4 * (Z.shiftr c0 sx + t_x lt)) by lia. assert (YY : 4 * t_y tt = 4 * (Z.shiftr r0 sy + t_y lt)) by lia.
  assert (GX : Z.shiftr ColStart sx <= Z.shiftr c0 sx) by (apply shr_mono; lia). assert (GY : Z.shiftr RowStart sy <= Z.shiftr r0 sy) by (apply shr_mono; lia).
  pose proof (sbW_frame _ _ _ _ _ _ _ _ _ _ G) as W1. pose proof (sbW_cases _ _ _ _ _ _ _ _ _ _ G) as W2. pose proof (sbH_frame _ _ _ _ _ _ _ _ _ _ G) as H1. pose proof (sbH_cases _ _ _ _ _ _ _ _ _ _ G) as H2. 
  assert (PA : Z.shiftr 16 sx <= t_x lt + tw -> sbW sx ColEnd c0 <= t_x lt + tw -> haveAboveRt sx sy D tt = false).
  { intros K1 K2. unfold haveAboveRt. rewrite P1, P2, Ew. apply Past; [clear - Y0; lia|clear - X0 Ptw; lia|left; auto]. }
  assert (PB : Z.shiftr 16 sy <= t_y lt + th -> sbH sy RowEnd r0 <= t_y lt + th -> haveBelowLft sx sy D tt = false).
  { intros K1 K2. unfold haveBelowLft. rewrite P1, P2, Eh. apply Past; [clear - Y0 Pth; lia|clear - X0; lia|right; auto]. }
  assert (ALN : In (b_h b) [1; 2; 4; 8; 16] /\ In (b_w b) [1; 2; 4; 8; 16] /\ b_row b mod b_h b = 0 /\ b_col b mod b_w b = 0).
  { apply (dp_blocks_at MiRows MiCols t 16 r0 c0 b); [lia|exact R3|exact C3|apply M|rewrite (m_blocks _ _ _ _ _ _ _ _ _ _ _ _ _ _ _ _ M); apply in_or_app; right; left; reflexivity]. }
  assert (RES : In th (tx_sizes (plane_h sy b)) /\ In tw (tx_sizes (plane_w sx b))).
  { assert (K : residual_ok sx sy MiRows MiCols rs b) by (apply (m_res _ _ _ _ _ _ _ _ _ _ _ _ _ _ _ _ M); rewrite (m_blocks _ _ _ _ _ _ _ _ _ _ _ _ _ _ _ _ M); apply in_or_app; right; left; reflexivity).
    unfold residual_ok in K. rewrite (m_uni _ _ _ _ _ _ _ _ _ _ _ _ _ _ _ _ M) in K. exact K. }
  destruct ALN as (AL1 & AL2 & AL3 & AL4), RES as [RE1 RE2].
  destruct (plane_aligned sy (b_row b) (b_h b) th Sy AL1 AL3 RE1) as [PA1 PA2]. destruct (plane_aligned sx (b_col b) (b_w b) tw Sx AL2 AL4 RE2) as [PA3 PA4].
  assert (LY : t_y lt mod th = 0).
  { assert (Z.shiftr r0 sy mod th = 0) as K by (apply (plane_aligned sy r0 16 th Sy); [cbn; lia|exact R3|]; apply filter_In; split; [exact PA2|clear - Y0 Y1; lia]).
    replace (t_y lt) with (Z.shiftr (b_row b) sy + by_ * th - Z.shiftr r0 sy) by (rewrite Hby; unfold off_y; rewrite TY; clear; lia).
    apply Z.mod_divide in PA1, K; [|clear - Pth; lia|clear - Pth; lia]. apply Z.mod_divide; [clear - Pth; lia|]. apply Z.divide_sub_r; [apply Z.divide_add_r; [exact PA1|apply Z.divide_factor_r]|exact K]. }
  assert (LX : t_x lt mod tw = 0).
  { assert (Z.shiftr c0 sx mod tw = 0) as K by (apply (plane_aligned sx c0 16 tw Sx); [cbn; lia|exact C3|]; apply filter_In; split; [exact PA4|clear - X0 X1; lia]).
    replace (t_x lt) with (Z.shiftr (b_col b) sx + bx * tw - Z.shiftr c0 sx) by (rewrite Hbx; unfold off_x; rewrite TX; clear; lia).
    apply Z.mod_divide in PA3, K; [|clear - Ptw; lia|clear - Ptw; lia]. apply Z.mod_divide; [clear - Ptw; lia|]. apply Z.divide_sub_r; [apply Z.divide_add_r; [exact PA3|apply Z.divide_factor_r]|exact K]. }
  assert (W3 : sbW sx ColEnd c0 = Z.shiftr (MiCols - c0) sx \/ sbW sx ColEnd c0 <= t_x lt + tw \/ t_x lt + 2 * tw <= sbW sx ColEnd c0).
  { destruct (tg_ce _ _ _ _ _ _ _ _ _ _ G) as [K|[K _]]; [left; unfold sbW; rewrite K; reflexivity|right]. apply room_right; auto. clear - X0 X1. lia. }
  assert (H3 : sbH sy RowEnd r0 = Z.shiftr (MiRows - r0) sy \/ sbH sy RowEnd r0 <= t_y lt + th \/ t_y lt + 2 * th <= sbH sy RowEnd r0).
  { destruct (tg_re _ _ _ _ _ _ _ _ _ _ G) as [K|[K _]]; [left; unfold sbH; rewrite K; reflexivity|right]. apply room_right; auto. clear - Y0 Y1. lia. }
  pose proof (above_eq CurrFrame bd (Z.shiftr RowStart sy) (Z.shiftr ColStart sx) (Z.shiftr c0 sx) (Z.shiftr r0 sy) (t_x lt) (t_y lt) tw
    (sbW sx ColEnd c0) (sbH sy RowEnd r0) (Z.shiftr (MiCols - c0) sx) (Z.shiftr (MiRows - r0) sy) (Z.shiftr 16 sx) Hbd Ptw Y0 GY W1 W2 W3 S2 X1) as AE.
  pose proof (left_eq CurrFrame bd (Z.shiftr RowStart sy) (Z.shiftr ColStart sx) (Z.shiftr c0 sx) (Z.shiftr r0 sy) (t_x lt) (t_y lt) th
    (sbW sx ColEnd c0) (sbH sy RowEnd r0) (Z.shiftr (MiCols - c0) sx) (Z.shiftr (MiRows - r0) sy) (Z.shiftr 16 sy) Hbd Pth X0 GX H1 H2 H3 S1 Y1) as LE.
  pose proof (corner_eq CurrFrame bd (Z.shiftr RowStart sy) (Z.shiftr ColStart sx) (Z.shiftr c0 sx) (Z.shiftr r0 sy) (t_x lt) (t_y lt) tw th
    (sbW sx ColEnd c0) (sbH sy RowEnd r0) (Z.shiftr (MiCols - c0) sx) (Z.shiftr (MiRows - r0) sy) Hbd) as CE.
  rewrite <- Px, <- Py, <- Rw, <- Mx, <- XX, <- YY in AE. rewrite <- Px, <- Py, <- Rh, <- My, <- XX, <- YY in LE. rewrite <- Px, <- Py, <- XX, <- YY in CE.
  assert (NA : exists na, (if n_topright nd then topright_avail rect_w (b_row b - RowStart) (b_col b - ColStart) (b_w b) (b_h b) sx sy by_ bx po_y po_x (4 * tw) (4 * th) else Some 0) = Some na /\
     forall i, 0 <= i < (if n_top nd then 4 * tw else 0) + (if n_topright nd then 4 * th else 0) \/ i = 0 ->
       na = (if negb (po_y =? 0) && ((po_x + 4 * tw <? rect_w) && haveAboveRt sx sy D tt) then Z.min (4 * tw) (rect_w - po_x - 4 * tw) else 0) \/ (na = 0 /\ i < 4 * tw)).
  { destruct (n_topright nd); [|exists 0; split; [reflexivity|]; intros i Hi; right; destruct (n_top nd); clear - Hi Ptw; lia].
    destruct C40_top_right as (sw & sh & Q & A). cbv zeta in A. unfold topright_avail. rewrite Q. unfold by4, bx4.
    rewrite ?(shr4 th). rewrite ?(shr4 tw).
    rewrite Hby, Hbx. destruct (Z.eqb_spec po_y 0) as [E|E]; cbn [negb andb]; [exists 0; split; [reflexivity|]; auto|].
    unfold have_top, by4. rewrite ?(shr4 th). rewrite Hby.
    rewrite have_flag; [|exact Sy|exact O3|rewrite Eb; unfold shift_blk; cbn [b_row]; clear - B1 R4; lia|].
    2:{ rewrite Eb. unfold shift_blk. cbn [b_row]. rewrite O1. intros K. apply E. rewrite Py.
        replace (r0 + b_row lb - RowStart) with (r0 - RowStart + b_row lb) in K by lia.
        assert (SS : Z.shiftr (r0 - RowStart + b_row lb) sy = Z.shiftr r0 sy - Z.shiftr RowStart sy + Z.shiftr (b_row lb) sy).
        { clear - Sy R1 R3. rewrite !Z.shiftr_div_pow2 by lia. destruct Sy as [-> | ->]; [change (2 ^ 0) with 1|change (2 ^ 1) with 2]; dlia. }
        rewrite SS in K. clear - K. lia. }
    unfold right_available. rewrite A. destruct ((po_x + 4 * tw <? rect_w) && haveAboveRt sx sy D tt); [exists (Z.min (4 * tw) (rect_w - po_x - 4 * tw))|exists 0]; (split; [reflexivity|]; auto). }
  assert (NB : exists nb, (if n_bottomleft nd then bottomleft_avail rect_h (b_row b - RowStart) (b_col b - ColStart) (b_w b) (b_h b) sx sy by_ bx po_y po_x (4 * tw) (4 * th) else Some 0) = Some nb /\
     forall i, 0 <= i < (if n_left nd then 4 * th else 0) + (if n_bottomleft nd then 4 * tw else 0) \/ i = 0 ->
       nb = (if negb (po_x =? 0) && ((po_y + 4 * th <? rect_h) && haveBelowLft sx sy D tt) then Z.min (4 * th) (rect_h - po_y - 4 * th) else 0) \/ (nb = 0 /\ i < 4 * th)).
  { destruct (n_bottomleft nd); [|exists 0; split; [reflexivity|]; intros i Hi; right; destruct (n_left nd); clear - Hi Pth; lia].
    destruct C40_bottom_left as (sw & sh & Q & A). cbv zeta in A. unfold bottomleft_avail. rewrite Q. unfold by4, bx4.
    rewrite ?(shr4 th). rewrite ?(shr4 tw).
    rewrite Hby, Hbx. destruct (Z.eqb_spec po_x 0) as [E|E]; cbn [negb andb]; [exists 0; split; [reflexivity|]; auto|].
    unfold have_left, bx4. rewrite ?(shr4 tw). rewrite Hbx.
    rewrite have_flag; [|exact Sx|exact O4|rewrite Eb; unfold shift_blk; cbn [b_col]; clear - B2 C4; lia|].
    2:{ rewrite Eb. unfold shift_blk. cbn [b_col]. rewrite O2. intros K. apply E. rewrite Px.
        replace (c0 + b_col lb - ColStart) with (c0 - ColStart + b_col lb) in K by lia.
        assert (SS : Z.shiftr (c0 - ColStart + b_col lb) sx = Z.shiftr c0 sx - Z.shiftr ColStart sx + Z.shiftr (b_col lb) sx).
        { clear - Sx C1 C3. rewrite !Z.shiftr_div_pow2 by lia. destruct Sx as [-> | ->]; [change (2 ^ 0) with 1|change (2 ^ 1) with 2]; dlia. }
        rewrite SS in K. clear - K. lia. }
    unfold bottom_available. rewrite A. destruct ((po_y + 4 * th <? rect_h) && haveBelowLft sx sy D tt); [exists (Z.min (4 * th) (rect_h - po_y - 4 * th))|exists 0]; (split; [reflexivity|]; auto). }
  destruct NA as (na & NA1 & NA2), NB as (nb & NB1 & NB2).
  assert (AI : forall i, 0 <= i < (if n_top nd then 4 * tw else 0) + (if n_topright nd then 4 * th else 0) \/ i = 0 ->
     top_right_edge (fun y x => CurrFrame (4 * Z.shiftr RowStart sy + y) (4 * Z.shiftr ColStart sx + x)) rect_w bd po_y po_x (4 * tw) na i =
     aboveRow (Z.shiftr (4 * MiCols) sx - 1) bd CurrFrame (4 * t_x tt) (4 * t_y tt) (4 * tw) (negb (po_x =? 0)) (negb (po_y =? 0)) (haveAboveRt sx sy D tt) i).
  { intros i Hi. apply AE; auto. clear - Hi. lia. }
  assert (LI : forall i, 0 <= i < (if n_left nd then 4 * th else 0) + (if n_bottomleft nd then 4 * tw else 0) \/ i = 0 ->
     bottom_left_edge (fun y x => CurrFrame (4 * Z.shiftr RowStart sy + y) (4 * Z.shiftr ColStart sx + x)) rect_h bd po_y po_x (4 * th) nb i =
     leftCol (Z.shiftr (4 * MiRows) sy - 1) bd CurrFrame (4 * t_x tt) (4 * t_y tt) (4 * th) (negb (po_x =? 0)) (negb (po_y =? 0)) (haveBelowLft sx sy D tt) i).
  { intros i Hi. apply LE; auto. clear - Hi. lia. }
  unfold get_intra_edges. rewrite NA1, NB1. eexists. split; [reflexivity|]. cbn [e_na e_nl e_above e_left e_corner].
  split; [reflexivity|]. split; [reflexivity|]. split; [intros i Hi; apply AI; auto|]. split; [intros i Hi; apply LI; auto|].
  assert (A0 : top_edge (fun y x => CurrFrame (4 * Z.shiftr RowStart sy + y) (4 * Z.shiftr ColStart sx + x)) rect_w bd po_y po_x (4 * tw) 0 =
     aboveRow (Z.shiftr (4 * MiCols) sx - 1) bd CurrFrame (4 * t_x tt) (4 * t_y tt) (4 * tw) (negb (po_x =? 0)) (negb (po_y =? 0)) (haveAboveRt sx sy D tt) 0).
  { rewrite <- (AI 0 (or_intror eq_refl)). unfold top_right_edge. replace (0 <? 4 * tw) with true by (clear - Ptw; lia). reflexivity. }
  assert (L0 : left_edge (fun y x => CurrFrame (4 * Z.shiftr RowStart sy + y) (4 * Z.shiftr ColStart sx + x)) rect_h bd po_y po_x (4 * th) 0 =
     leftCol (Z.shiftr (4 * MiRows) sy - 1) bd CurrFrame (4 * t_x tt) (4 * t_y tt) (4 * th) (negb (po_x =? 0)) (negb (po_y =? 0)) (haveBelowLft sx sy D tt) 0).
  { rewrite <- (LI 0 (or_intror eq_refl)). unfold bottom_left_edge. replace (0 <? 4 * th) with true by (clear - Pth; lia). reflexivity. }
  rewrite A0, L0. apply CE; auto.
Qed.
End C40.

(** ** Motion vector candidates *)
Lemma tree_ok_444 t : tree_ok 0 0 t.
Proof. induction t; cbn; auto. intros [A _]. discriminate. Qed.
Theorem C40_mv_top_right MiRows MiCols RowStart ColStart RowEnd ColEnd r0 c0 t bpre b bpost :
  tile_geom 0 0 MiRows MiCols RowStart ColStart RowEnd ColEnd r0 c0 -> wf_tree 16 t ->
  decode_partition MiRows MiCols t r0 c0 16 = bpre ++ b :: bpost ->
  b_col b + b_w b < MiCols ->
  has_tr (b_row b - RowStart) (b_col b - ColStart) (b_w b) (b_h b) = decoded_before r0 c0 bpre (b_row b - 1) (b_col b + b_w b).
Proof.
  intros G Wf Bl Hin. destruct (tg_cs _ _ _ _ _ _ _ _ _ _ G) as [C1 C2]. destruct (tg_c0 _ _ _ _ _ _ _ _ _ _ G) as [C3 C4].
  destruct (tg_rs _ _ _ _ _ _ _ _ _ _ G) as [R1 R2]. destruct (tg_r0 _ _ _ _ _ _ _ _ _ _ G) as [R3 R4].
  pose proof Bl as Bl'. replace r0 with (r0 + 0) in Bl' at 1 by lia. replace c0 with (c0 + 0) in Bl' at 1 by lia.
  rewrite dp_shift in Bl'. destruct (map_mid _ _ _ _ _ Bl') as (lp & lb & lq & E & E1 & E2).
  assert (S0 : sub_ok 0 0) by (left; auto). assert (N16 : In 16 sizes) by (cbn; auto). assert (Z16 : node_at 16 0) by (split; [lia|reflexivity]).
  destruct (before_block 0 0 (MiRows - r0) (MiCols - c0) S0 t 16 0 0 lp lb lq N16 Z16 Z16 Wf (tree_ok_444 t) E) as (n & R & C & k & l1 & l2 & A1 & A2 & A3 & A4 & A5 & A6 & A7 & A8 & A9 & A10).
  assert (Ilb : In lb (node_blocks k R C n)) by (rewrite A8; apply in_or_app; right; left; reflexivity).
  destruct (inside_fact 0 0 S0 n R C k lb A1 A2 A3 A7 Ilb) as (F1 & F2 & F3 & F4 & _).
  pose proof (mv_fact n R C k l1 lb l2 A1 A2 A3 A7 A8) as K. subst b. unfold shift_blk in Hin |- *. cbn [b_row b_col b_h b_w] in *.
  assert (BW : forall b', In b' (bpre ++ shift_blk r0 c0 lb :: bpost) -> 1 <= b_h b' /\ 1 <= b_w b').
  { intros b' I. rewrite <- Bl in I. destruct (dp_blocks MiRows MiCols t 16 r0 c0 b') as (K1 & K2 & _); auto. }
  assert (BL : 1 <= b_h lb /\ 1 <= b_w lb) by (apply (BW (shift_blk r0 c0 lb)); apply in_or_app; right; left; reflexivity).
  assert (MOD : has_tr (r0 + b_row lb - RowStart) (c0 + b_col lb - ColStart) (b_w lb) (b_h lb) = has_tr (b_row lb) (b_col lb) (b_w lb) (b_h lb)).
  { assert (L4 : forall a s w v, a mod 16 = 0 -> s mod 16 = 0 -> 0 <= w < 16 -> Z.land (a + v - s) w = Z.land v w).
    { intros a s w v Ha Hs Hw. replace w with (Z.land 15 w) by (rewrite Z.land_comm; change 15 with (Z.ones 4); rewrite Z.land_ones by lia; apply Z.mod_small; change (2 ^ 4) with 16; lia).
      rewrite !Z.land_assoc, land15 by auto. reflexivity. }
    unfold has_tr. rewrite !land15 by auto. destruct (16 <? Z.max (b_w lb) (b_h lb)) eqn:Q; [reflexivity|].
    destruct (b_w lb <? b_h lb) eqn:Q1; [rewrite (L4 c0 ColStart (b_w lb)) by (auto; lia)|]; (destruct (b_h lb <? b_w lb) eqn:Q2; [rewrite (L4 r0 RowStart (b_h lb)) by (auto; lia)|]); reflexivity. }
  rewrite MOD, K. unfold avail, decoded_before. cbn [existsb]. rewrite orb_false_r. change (Z.shiftr 16 0) with 16.
  replace (r0 + b_row lb - 1 <? r0) with (b_row lb - 1 <? 0) by lia. destruct (Z.ltb_spec (b_row lb - 1) 0); [reflexivity|].
  replace (c0 + b_col lb + b_w lb <? c0) with false by lia. replace (b_col lb + b_w lb <? 0) with false by lia.
  assert (LI : forall y x b', 1 <= b_h b' -> 1 <= b_w b' -> luma_in (r0 + y) (c0 + x) (shift_blk r0 c0 b') = covers 0 0 y x b').
  { intros y x b' H1 H2. unfold luma_in, covers, HasChroma, plane_h, plane_w, shift_blk, in_rect. cbn [b_row b_col b_h b_w Z.eqb andb negb]. rewrite !Z.shiftr_0_r, !Z.max_r by lia. lia. }
  rewrite <- E1, existsb_map.
  replace (r0 + b_row lb - 1) with (r0 + (b_row lb - 1)) by lia. replace (c0 + b_col lb + b_w lb) with (c0 + (b_col lb + b_w lb)) by lia.
  rewrite (existsb_ext _ (covers 0 0 (b_row lb - 1) (b_col lb + b_w lb)) lp).
  2:{ intros b' I. assert (1 <= b_h b' /\ 1 <= b_w b') by (apply (BW (shift_blk r0 c0 b')); rewrite <- E1; apply in_or_app; left; apply in_map; exact I). apply LI; tauto. }
  destruct (Z.leb_spec 16 (b_col lb + b_w lb)) as [P|P]; cbn [orb].
  - (* past the superblock *)
    symmetry. apply not_true_iff_false. intros T. rewrite existsb_exists in T. destruct T as (b' & I & T).
    apply in_split in I. destruct I as (q1 & q2 & Q).
    assert (E' : decode_partition (MiRows - r0) (MiCols - c0) t 0 0 16 = q1 ++ b' :: (q2 ++ lb :: lq)) by (rewrite E, Q, <- app_assoc; reflexivity).
    destruct (before_block 0 0 (MiRows - r0) (MiCols - c0) S0 t 16 0 0 q1 b' _ N16 Z16 Z16 Wf (tree_ok_444 t) E') as (n' & R' & C' & k' & m1 & m2 & D1 & D2 & D3 & _ & _ & _ & D7 & D8 & _).
    assert (I' : In b' (node_blocks k' R' C' n')) by (rewrite D8; apply in_or_app; right; left; auto).
    destruct (inside_fact 0 0 S0 n' R' C' k' b' D1 D2 D3 D7 I') as (_ & _ & _ & H4 & H5 & _).
    unfold covers in T. apply andb_prop in T. destruct T as [T1 T2]. destruct (H5 T1) as [_ H6]. unfold in_rect in T2. change (Z.shiftr 16 0) with 16 in H6. clear - P T2 H6. lia.
  - replace (16 <=? b_row lb - 1) with false by lia. rewrite (A10 (b_row lb - 1) (b_col lb + b_w lb)).
    2:{ change (Z.shiftr 16 0) with 16. rewrite !Z.shiftr_0_r. unfold in_frame in A9. clear - A9 F1 F2 F3 F4 P H Hin BL. lia. }
    f_equal. replace (in_node 0 0 (b_row lb - 1) (b_col lb + b_w lb) 0 0 16) with true; [reflexivity|].
    unfold in_node, in_rect. rewrite !Z.shiftr_0_r. clear - P H F1 F2 F3 F4 BL. lia.
Qed.

(** ** A concrete case: 4:2:0 chroma of a 64x48 frame, the third block of the first 32x32. *)
Definition case_t : ptree := TSplit (TSplit TNone THorz TNone TVert) TNone THorz TNone.
Definition case_rs (b : blk) : residual := Uniform (plane_h 1 b) (plane_w 1 b).
Definition case_blocks : list blk := decode_partition 12 16 case_t 0 0 16.
Definition case_b : blk := mkBlk 4 0 4 4.
Example case_blocks_are : case_blocks =
  [mkBlk 0 0 4 4; mkBlk 0 4 2 4; mkBlk 2 4 2 4; mkBlk 4 0 4 4; mkBlk 4 4 4 2; mkBlk 4 6 4 2; mkBlk 0 8 8 8; mkBlk 8 0 4 8; mkBlk 8 8 8 8].
Proof. reflexivity. Qed.
Lemma case_geom : tile_geom 1 1 12 16 0 0 12 16 0 0.
Proof. constructor; try (left; reflexivity); try (split; [reflexivity|lia]); try reflexivity. right; right; auto. Qed.
Lemma case_mom : moment 1 1 12 16 0 0 case_t case_rs (firstn 3 case_blocks) case_b (skipn 4 case_blocks) 2 2 [] (mkTx 2 0 2 2) [].
Proof.
  constructor; try reflexivity.
  - cbn. repeat split; try lia; discriminate.
  - cbn. repeat split; intros [_ K]; discriminate.
  - intros b' I. cbn in I. unfold residual_ok, case_rs. repeat destruct I as [<-|I]; try contradiction; cbn; lia.
Qed.
(* the block above right has been decoded, the block itself not yet; the column left of the tile counts
   as decoded for the flags, which haveLeft then overrides *)
Example case_flags_there :
  let D := BlockDecoded 1 1 12 16 12 16 0 0 (flat_map (transform_blocks 1 1 case_rs) (firstn 3 case_blocks) ++ []) in
  haveAboveRt 1 1 D (mkTx 2 0 2 2) = true /\ haveBelowLft 1 1 D (mkTx 2 0 2 2) = true /\ D 3 2 = false.
Proof. vm_compute. auto. Qed.
Example case_tests_there :
  has_top_right 4 4 4 0 true true 2 0 0 1 = Some true /\ has_bottom_left 4 4 4 0 true true 2 0 0 1 = Some true /\
  has_bottom_left 2 4 4 6 true true 2 0 0 1 = Some false /\ has_top_right 2 4 4 6 true true 2 0 0 1 = Some false.
Proof. vm_compute. auto. Qed.
Example case_by_theorem : exists sw sh, supersample_chroma_bsize 4 4 1 1 = (sw, sh) /\
  has_top_right sw sh 4 0 true true 2 0 0 1 = Some true.
Proof. destruct (C40_top_right _ _ _ _ _ _ _ _ _ _ case_geom _ _ _ _ _ _ _ _ _ _ case_mom) as (sw & sh & E & H). exists sw, sh. split; [exact E|]. exact H. Qed.
Example case_mv_there : has_tr 4 0 4 4 = true /\ has_tr 4 4 2 4 = true /\ has_tr 4 6 2 4 = false.
Proof. vm_compute. auto. Qed.

Print Assumptions C40_top_right.
Print Assumptions C40_bottom_left.
Print Assumptions C40_truthful.
Print Assumptions C40_edges.
Print Assumptions C40_mv_top_right.
