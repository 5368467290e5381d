(** Proof that the partition tree and skip flags are read back: the encoder's partition
    context arrays hold the sizes of the blocks on the border of what is coded. *)
From Verif Require Import Sym Part_spec Part_model.
Open Scope string_scope.
Open Scope Z_scope.
Open Scope list_scope.

Section Tile.
Variables MiRows MiCols R0 C0 mh mw : Z.
Hypothesis Hmh : 0 < mh /\ mh mod 2 = 0.
Hypothesis Hmw : 0 < mw /\ mw mod 2 = 0.
Hypothesis Hrows : R0 + mh = MiRows \/ (mh mod 16 = 0 /\ R0 + mh <= MiRows).
Hypothesis Hcols : C0 + mw = MiCols \/ (mw mod 16 = 0 /\ C0 + mw <= MiCols).

Notation dec_block := (decode_block R0 (R0 + mh) C0 (C0 + mw)).
Notation dec_part := (decode_partition MiRows MiCols R0 (R0 + mh) C0 (C0 + mw)).

(** ** Sequences of steps of encoder and decoder *)
Definition step (m : option (list ev * est)) (d : reader (list dblk * dst)) (bl : list dblk) (Q : est -> dst -> Prop) : Prop :=
  exists l e D, m = Some (l, e) /\ (forall rest, d (l ++ rest) = Some ((bl, D), rest)) /\ Q e D.

Lemma step_seq m d b1 (Q : est -> dst -> Prop) k kd b2 (R : est -> dst -> Prop) :
  step m d b1 Q -> (forall e D, Q e D -> step (k e) (kd D) b2 R) ->
  step (eseq m k) (dseq d kd) (b1 ++ b2) R.
Proof.
  intros (l & e & D & Em & Ed & HQ) H. destruct (H e D HQ) as (l2 & e2 & D2 & Em2 & Ed2 & HR).
  exists (l ++ l2), e2, D2. split; [|split; [|exact HR]].
  - unfold eseq. rewrite Em, Em2. reflexivity.
  - intros rest. unfold dseq, bind. rewrite <- app_assoc, Ed. cbn [snd]. rewrite Ed2. reflexivity.
Qed.
Lemma step_nil e D (Q : est -> dst -> Prop) : Q e D -> step (Some ([], e)) (ret ([], D)) [] Q.
Proof. intros H. exists [], e, D. repeat split; auto. Qed.
Lemma step_weaken m d b (Q R : est -> dst -> Prop) : step m d b Q -> (forall e D, Q e D -> R e D) -> step m d b R.
Proof. intros (l & e & D & A & B & C) H. exists l, e, D. auto. Qed.

(** ** What is known of a state *)
Definition agree (e : est) (D : dst) (y x : Z) : Prop := skips e x y = Skips D (R0 + y) (C0 + x).
Definition size_ok (w : Z) : Prop := w = 1 \/ w = 2 \/ w = 4 \/ w = 8 \/ w = 16.
(* the border above row y, at column x; the border left of column x, at row y *)
Definition AA (e : est) (D : dst) (y x : Z) : Prop :=
  (0 < y -> agree e D (y - 1) x) /\
  (x mod 2 = 0 -> (y = 0 -> above e (x / 2) = 0) /\
                  (0 < y -> size_ok (fst (MiSizes D (R0 + y - 1) (C0 + x))) /\
                            above e (x / 2) = 32 - fst (MiSizes D (R0 + y - 1) (C0 + x)))).
Definition LL (e : est) (D : dst) (y x : Z) : Prop :=
  (0 < x -> agree e D y (x - 1)) /\
  (y mod 2 = 0 -> (x = 0 -> left e (y mod 16 / 2) = 0) /\
                  (0 < x -> size_ok (snd (MiSizes D (R0 + y) (C0 + x - 1))) /\
                            left e (y mod 16 / 2) = 32 - snd (MiSizes D (R0 + y) (C0 + x - 1)))).
Definition in_rect (y x y' x' w h : Z) : Prop := y' <= y < y' + h /\ x' <= x < x' + w.

(* nothing changed outside a rectangle; n x n for a node *)
Definition maps_frame (e : est) (D : dst) (e' : est) (D' : dst) (y x w h : Z) : Prop :=
  forall y' x', ~ in_rect y' x' y x w h ->
    skips e' x' y' = skips e x' y' /\ MiSizes D' (R0 + y') (C0 + x') = MiSizes D (R0 + y') (C0 + x') /\
    Skips D' (R0 + y') (C0 + x') = Skips D (R0 + y') (C0 + x').
Definition arrays_frame (e e' : est) (y x n : Z) : Prop :=
  (forall i, ~ (x <= 2 * i < x + n) -> above e' i = above e i) /\
  (forall i, ~ (y mod 16 <= 2 * i < y mod 16 + n) -> left e' i = left e i).
Definition frame e D e' D' y x n : Prop := maps_frame e D e' D' y x n n /\ arrays_frame e e' y x n.

Lemma maps_refl e D y x w h : maps_frame e D e D y x w h.
Proof. intros y' x' _. auto. Qed.
Lemma maps_trans e D e1 D1 e2 D2 y x w h y1 x1 w1 h1 y2 x2 w2 h2 :
  maps_frame e D e1 D1 y1 x1 w1 h1 -> maps_frame e1 D1 e2 D2 y2 x2 w2 h2 ->
  y <= y1 -> x <= x1 -> y1 + h1 <= y + h -> x1 + w1 <= x + w ->
  y <= y2 -> x <= x2 -> y2 + h2 <= y + h -> x2 + w2 <= x + w ->
  maps_frame e D e2 D2 y x w h.
Proof.
  intros H1 H2 A1 A2 A3 A4 B1 B2 B3 B4 y' x' N.
  assert (N1 : ~ in_rect y' x' y1 x1 w1 h1) by (clear - N A1 A2 A3 A4; unfold in_rect in *; lia).
  assert (N2 : ~ in_rect y' x' y2 x2 w2 h2) by (clear - N B1 B2 B3 B4; unfold in_rect in *; lia).
  destruct (H1 y' x' N1) as (P & Q & R), (H2 y' x' N2) as (P2 & Q2 & R2).
  rewrite P2, Q2, R2. auto.
Qed.
Lemma arrays_refl e y x n : arrays_frame e e y x n.
Proof. split; auto. Qed.
Lemma frame_refl e D y x n : frame e D e D y x n.
Proof. split; [apply maps_refl|apply arrays_refl]. Qed.

(* alignment of a node *)
Definition node (y x n : Z) : Prop := size_ok n /\ 0 <= y /\ 0 <= x /\ y mod n = 0 /\ x mod n = 0 /\ 16 * (y / 16) < mh /\ 16 * (x / 16) < mw.

Lemma frame_trans e D e1 D1 e2 D2 y x n y1 x1 n1 y2 x2 n2 :
  frame e D e1 D1 y1 x1 n1 -> frame e1 D1 e2 D2 y2 x2 n2 ->
  y <= y1 -> x <= x1 -> y1 + n1 <= y + n -> x1 + n1 <= x + n ->
  y <= y2 -> x <= x2 -> y2 + n2 <= y + n -> x2 + n2 <= x + n ->
  y1 / 16 = y / 16 -> y2 / 16 = y / 16 ->
  frame e D e2 D2 y x n.
Proof.
  intros [M1 [F1 G1]] [M2 [F2 G2]] A1 A2 A3 A4 B1 B2 B3 B4 S1 S2. split; [|split].
  - eapply maps_trans; eassumption.
  - intros i N. rewrite F2, F1 by lia. reflexivity.
  - intros i N. clear - N G1 G2 A1 A3 B1 B3 S1 S2.
    assert (E1 : y1 mod 16 = y mod 16 + (y1 - y)) by dlia.
    assert (E2 : y2 mod 16 = y mod 16 + (y2 - y)) by dlia.
    rewrite G2, G1 by lia. reflexivity.
Qed.

Lemma AA_frame e D e' D' y x n r c : frame e D e' D' y x n -> c < x \/ x + n <= c -> AA e D r c -> AA e' D' r c.
Proof.
  intros [M [F G]] N [A B].
  assert (K : forall y', ~ in_rect y' c y x n n) by (intros; unfold in_rect; lia).
  split.
  - intros H. destruct (M (r - 1) c (K _)) as (P & Q & R). unfold agree in *. rewrite P, R. auto.
  - intros H. destruct (B H) as [B1 B2]. assert (E : above e' (c / 2) = above e (c / 2)) by (apply F; dlia).
    destruct (M (r - 1) c (K _)) as (P & Q & R). replace (R0 + r - 1) with (R0 + (r - 1)) in * by ring.
    rewrite E, Q. auto.
Qed.
Lemma LL_frame e D e' D' y x n r c : frame e D e' D' y x n -> r < y \/ y + n <= r -> r / 16 = y / 16 -> LL e D r c -> LL e' D' r c.
Proof.
  intros [M [F G]] N S [A B].
  assert (K : forall x', ~ in_rect r x' y x n n) by (intros; unfold in_rect; lia).
  split.
  - intros H. destruct (M r (c - 1) (K _)) as (P & Q & R). unfold agree in *. rewrite P, R. auto.
  - intros H. destruct (B H) as [B1 B2]. assert (E : left e' (r mod 16 / 2) = left e (r mod 16 / 2)) by (apply G; dlia).
    destruct (M r (c - 1) (K _)) as (P & Q & R). replace (C0 + c - 1) with (C0 + (c - 1)) in * by ring.
    rewrite E, Q. auto.
Qed.

(** ** One block *)
Lemma inside_above y x : 0 <= y <= mh -> 0 <= x < mw -> is_inside R0 (R0 + mh) C0 (C0 + mw) (R0 + y - 1) (C0 + x) = (0 <? y).
Proof. intros. unfold is_inside. lia. Qed.
Lemma inside_left y x : 0 <= y < mh -> 0 <= x <= mw -> is_inside R0 (R0 + mh) C0 (C0 + mw) (R0 + y) (C0 + x - 1) = (0 <? x).
Proof. intros. unfold is_inside. lia. Qed.

(* after a block: the agreement grows by the block, and nothing else changes *)
Definition after (e : est) (D : dst) (y x w h : Z) (e' : est) (D' : dst) : Prop :=
  maps_frame e D e' D' y x w h /\ above e' = above e /\ left e' = left e /\
  (forall y' x', in_rect y' x' y x w h -> y' < mh -> x' < mw -> agree e' D' y' x' /\ MiSizes D' (R0 + y') (C0 + x') = (w, h)).

Lemma block_ok e D y x w h s : 0 <= y < mh -> 0 <= x < mw -> 0 < w -> 0 < h ->
  (0 < y -> agree e D (y - 1) x) -> (0 < x -> agree e D y (x - 1)) ->
  step (encode_block mw mh e x y w h s) (dec_block (R0 + y) (C0 + x) w h D) [mkDB (R0 + y) (C0 + x) w h s] (after e D y x w h).
Proof.
  intros Hy Hx Hw Hh Ha Hl. unfold encode_block.
  set (e' := set_skip mw mh e x y w h s).
  set (D' := mkD (fill (MiSizes D) (R0 + y) (C0 + x) w h (w, h)) (fill (Skips D) (R0 + y) (C0 + x) w h s)).
  assert (F : maps_frame e D e' D' y x w h).
  { intros y' x' N. unfold e', D', set_skip, fill, in_rect in *. cbn [skips MiSizes Skips].
    repeat split.
    - destruct (mw <=? x + w) eqn:E; destruct ((y <=? y') && (y' <? y + h) && (y' <? mh) && (x <=? x') && _)%bool eqn:E2; try reflexivity; exfalso; lia.
    - destruct (_ && _)%bool eqn:E2; [exfalso; lia|reflexivity].
    - destruct (_ && _)%bool eqn:E2; [exfalso; lia|reflexivity]. }
  exists [ESym "skip" [skip_context e' x y] 2 (if s then 1 else 0)], e', D'.
  split; [reflexivity|]. split.
  - intros rest. unfold decode_block, bind.
    assert (C : skip_ctx R0 (R0 + mh) C0 (C0 + mw) D (R0 + y) (C0 + x) = skip_context e' x y).
    { unfold skip_ctx, skip_context. rewrite inside_above, inside_left by lia. f_equal.
      - destruct (0 <? y) eqn:E; [|reflexivity]. assert (P : 0 < y) by lia. specialize (Ha P).
        destruct (F (y - 1) x) as (K & _); [unfold in_rect; lia|]. rewrite K. unfold agree in Ha. rewrite Ha.
        replace (R0 + (y - 1)) with (R0 + y - 1) by ring. reflexivity.
      - destruct (0 <? x) eqn:E; [|reflexivity]. assert (P : 0 < x) by lia. specialize (Hl P).
        destruct (F y (x - 1)) as (K & _); [unfold in_rect; lia|]. rewrite K. unfold agree in Hl. rewrite Hl.
        replace (C0 + (x - 1)) with (C0 + x - 1) by ring. reflexivity. }
    rewrite C. cbn [app]. rewrite rsym_ok by (destruct s; lia). unfold ret, D'. destruct s; reflexivity.
  - split; [exact F|]. split; [reflexivity|]. split; [reflexivity|].
    intros y' x' [N1 N2] Ly Lx.
    assert (E3 : ((R0 + y <=? R0 + y') && (R0 + y' <? R0 + y + h) && (C0 + x <=? C0 + x') && (C0 + x' <? C0 + x + w))%bool = true) by (clear - N1 N2; lia).
    unfold agree, e', D', set_skip, fill. cbn [skips Skips MiSizes]. rewrite E3. split; [|reflexivity].
    replace (((y <=? y') && (y' <? y + h) && (y' <? mh) && (x <=? x') && (x' <? x + (if mw <=? x + w then mw - x else w)))%bool) with true; [reflexivity|].
    destruct (mw <=? x + w) eqn:E; clear - N1 N2 Ly Lx E; lia.
Qed.

Lemma agree_after e D y x w h e' D' y' x' : after e D y x w h e' D' -> y' < mh -> x' < mw ->
  (agree e D y' x' \/ in_rect y' x' y x w h) -> agree e' D' y' x'.
Proof.
  intros (F & _ & _ & G) Hy Hx [A|A].
  - destruct (Z_lt_dec y' y) as [L|L]; [|destruct (Z_lt_dec y' (y + h)); [destruct (Z_lt_dec x' x); [|destruct (Z_lt_dec x' (x + w))]|]].
    all: try (destruct (F y' x') as (P & Q & R); [unfold in_rect; lia|]; unfold agree in *; rewrite P, R; exact A).
    apply (G y' x'); [unfold in_rect; lia|assumption|assumption].
  - apply (G y' x'); assumption.
Qed.
(** ** The partition symbol *)
Lemma rows_in v : 0 <= v -> 16 * (v / 16) < mh -> (R0 + v <? MiRows) = (v <? mh).
Proof using Hrows. clear - Hrows. intros. destruct Hrows as [E|[E1 E2]]; [lia|]. assert (v < mh) by dlia. lia. Qed.
Lemma cols_in v : 0 <= v -> 16 * (v / 16) < mw -> (C0 + v <? MiCols) = (v <? mw).
Proof using Hcols. clear - Hcols. intros. destruct Hcols as [E|[E1 E2]]; [lia|]. assert (v < mw) by dlia. lia. Qed.
Lemma half_sb v n : size_ok n -> 0 <= v -> v mod n = 0 -> (v + n / 2) / 16 = v / 16.
Proof. clear. intros [ -> | [ -> | [ -> | [ -> | -> ]]]] H0 H1; [change (1 / 2) with 0|change (2 / 2) with 1|change (4 / 2) with 2|change (8 / 2) with 4|change (16 / 2) with 8]; dlia. Qed.
Lemma half_size n : size_ok n -> 2 <= n -> size_ok (n / 2) /\ n / 2 + n / 2 = n /\ n mod 2 = 0.
Proof. clear. unfold size_ok. intros [ -> | [ -> | [ -> | [ -> | -> ]]]] H; try lia; vm_compute; repeat split; auto 6; discriminate. Qed.

Lemma ctx_bit w n : size_ok w -> size_ok n -> 2 <= n ->
  Z.land (Z.shiftr (32 - w) (Z.log2 n - 1)) 1 = b2z (Z.log2 w <? Z.log2 n).
Proof. clear. unfold size_ok. intros [ -> | [ -> | [ -> | [ -> | -> ]]]] [ -> | [ -> | [ -> | [ -> | -> ]]]] H; try lia; reflexivity. Qed.

Lemma plane_context e D y x n : node y x n -> 2 <= n -> y < mh -> x < mw -> AA e D y x -> LL e D y x ->
  partition_plane_context e x y n = part_ctx R0 (R0 + mh) C0 (C0 + mw) D (R0 + y) (C0 + x) (Z.log2 n) + 4 * (Z.log2 n - 1).
Proof.
  intros (Hn & Hy & Hx & Dy & Dx & Sy & Sx) N2 Ly Lx [_ A] [_ L].
  assert (Ex : x mod 2 = 0) by (clear - Hn N2 Dx; destruct Hn as [ -> | [ -> | [ -> | [ -> | -> ]]]]; dlia).
  assert (Ey : y mod 2 = 0) by (clear - Hn N2 Dy; destruct Hn as [ -> | [ -> | [ -> | [ -> | -> ]]]]; dlia).
  destruct (A Ex) as [A0 A1], (L Ey) as [L0 L1].
  unfold partition_plane_context, part_ctx, y_in_sb.
  rewrite inside_above, inside_left by lia.
  rewrite !Z.shiftr_div_pow2 with (n := 1) by lia. change (2 ^ 1) with 2.
  assert (B : Z.log2 (4 * n) - Z.log2 8 = Z.log2 n - 1) by (clear - Hn; destruct Hn as [ -> | [ -> | [ -> | [ -> | -> ]]]]; reflexivity).
  rewrite B.
  assert (P : Z.land (Z.shiftr (above e (x / 2)) (Z.log2 n - 1)) 1 = b2z ((0 <? y) && (Z.log2 (fst (MiSizes D (R0 + y - 1) (C0 + x))) <? Z.log2 n))).
  { destruct (0 <? y) eqn:E.
    - destruct A1 as [A1 A2]; [lia|]. rewrite A2. cbn [andb]. now apply ctx_bit.
    - rewrite A0 by lia. rewrite Z.shiftr_0_l. reflexivity. }
  assert (Q : Z.land (Z.shiftr (left e (y mod 16 / 2)) (Z.log2 n - 1)) 1 = b2z ((0 <? x) && (Z.log2 (snd (MiSizes D (R0 + y) (C0 + x - 1))) <? Z.log2 n))).
  { destruct (0 <? x) eqn:E.
    - destruct L1 as [L1 L2]; [lia|]. rewrite L2. cbn [andb]. now apply ctx_bit.
    - rewrite L0 by lia. rewrite Z.shiftr_0_l. reflexivity. }
  rewrite P, Q. ring.
Qed.

Lemma part_ctx_range D r c b : 0 <= part_ctx R0 (R0 + mh) C0 (C0 + mw) D r c b < 4.
Proof. unfold part_ctx, b2z. destruct (_ && _)%bool; destruct (_ && _)%bool; lia. Qed.

Lemma table_ok n ctx : size_ok n -> 2 <= n -> 0 <= ctx < 4 ->
  table_of (ctx + 4 * (Z.log2 n - 1)) = Some (part_table n, ctx, if n =? 2 then 4 else 10) /\ ctx + 4 * (Z.log2 n - 1) < 20.
Proof.
  clear. intros H H2 C.
  assert (K : ctx = 0 \/ ctx = 1 \/ ctx = 2 \/ ctx = 3) by lia.
  destruct H as [ -> | [ -> | [ -> | [ -> | -> ]]]]; try lia; destruct K as [ -> | [ -> | [ -> | -> ]]]; vm_compute; auto.
Qed.

Lemma partition_ok e D y x n p : node y x n -> 2 <= n -> y < mh -> x < mw -> AA e D y x -> LL e D y x ->
  0 <= p <= 3 -> (p = 0 -> x + n / 2 < mw /\ y + n / 2 < mh) -> (p = 1 -> x + n / 2 < mw) -> (p = 2 -> y + n / 2 < mh) ->
  exists l, write_partition mw mh e x y p n = Some l /\
    forall rest, read_partition MiRows MiCols R0 (R0 + mh) C0 (C0 + mw) (R0 + y) (C0 + x) n D (l ++ rest) = Some (p, rest).
Proof.
  intros Hn N2 Ly Lx HA HL Hp P0 P1 P2. pose proof (plane_context _ _ _ _ _ Hn N2 Ly Lx HA HL) as C.
  destruct Hn as (Hn & Hy & Hx & Dy & Dx & Sy & Sx).
  unfold write_partition, read_partition. rewrite C.
  set (ctx := part_ctx R0 (R0 + mh) C0 (C0 + mw) D (R0 + y) (C0 + x) (Z.log2 n)).
  destruct (table_ok n ctx Hn N2 (part_ctx_range _ _ _ _)) as [T1 T2]. rewrite T1.
  pose proof (half_sb y n Hn Hy Dy) as Qy. pose proof (half_sb x n Hn Hx Dx) as Qx.
  assert (Pn : 0 <= n / 2) by (apply Z.div_pos; lia).
  replace (R0 + y + n / 2) with (R0 + (y + n / 2)) by ring.
  replace (C0 + x + n / 2) with (C0 + (x + n / 2)) by ring.
  rewrite rows_in by (rewrite ?Qy; lia). rewrite cols_in by (rewrite ?Qx; lia).
  replace (n <? 2) with false by lia. replace (ctx + 4 * (Z.log2 n - 1) <? 20) with true by lia. cbn [negb].
  (* 8x8 blocks do not cross the edge *)
  assert (N8 : n = 2 -> y + n / 2 < mh /\ x + n / 2 < mw).
  { intros ->. change (2 / 2) with 1. clear - Hmh Hmw Dy Dx Ly Lx. destruct Hmh as [_ M1], Hmw as [_ M2]. dlia. }
  destruct (y + n / 2 <? mh) eqn:Er, (x + n / 2 <? mw) eqn:Ec; cbn [andb negb].
  - eexists. split; [reflexivity|]. intros rest. cbn [app]. apply rsym_ok. destruct (n =? 2); lia.
  - assert (Kp : p = 2 \/ p = 3) by lia. assert (2 < n) by lia. replace (2 <? n) with true by lia.
    destruct Kp as [ -> | -> ]; cbn [Z.eqb Pos.eqb orb negb]; eexists; (split; [reflexivity|]); intros rest; cbn [app];
      unfold bind; rewrite rsym_ok by lia; reflexivity.
  - assert (Kp : p = 1 \/ p = 3) by lia. assert (2 < n) by lia. replace (2 <? n) with true by lia.
    destruct Kp as [ -> | -> ]; cbn [Z.eqb Pos.eqb orb negb]; eexists; (split; [reflexivity|]); intros rest; cbn [app];
      unfold bind; rewrite rsym_ok by lia; reflexivity.
  - assert (p = 3) by lia. subst p. exists []. split; reflexivity.
Qed.

(** ** A node *)
(* the borders of a node before and after it *)
Definition pre (e : est) (D : dst) (y x n : Z) : Prop :=
  (forall c, x <= c < x + n -> c < mw -> AA e D y c) /\ (forall r, y <= r < y + n -> r < mh -> LL e D r x).
Definition post (e : est) (D : dst) (y x n : Z) : Prop :=
  (y + n <= mh -> forall c, x <= c < x + n -> c < mw -> AA e D (y + n) c) /\
  (x + n <= mw -> forall r, y <= r < y + n -> r < mh -> LL e D r (x + n)).
(* all blocks of the node have one size *)
Definition filled (e : est) (D : dst) (y x n w h : Z) : Prop :=
  forall r c, in_rect r c y x n n -> r < mh -> c < mw -> agree e D r c /\ MiSizes D (R0 + r) (C0 + c) = (w, h).

Lemma lookup_ok w h : size_ok w -> size_ok h -> w = h \/ w = 2 * h \/ h = 2 * w ->
  find_size w h partition_context_lookup = (32 - w, 32 - h).
Proof. clear. unfold size_ok. intros [ -> | [ -> | [ -> | [ -> | -> ]]]] [ -> | [ -> | [ -> | [ -> | -> ]]]] H; try lia; reflexivity. Qed.

Lemma update_ok e0 D0 e D y x n w h : node y x n -> 2 <= n -> y < mh -> x < mw -> size_ok w -> size_ok h -> w = h \/ w = 2 * h \/ h = 2 * w ->
  filled e D y x n w h -> maps_frame e0 D0 e D y x n n -> above e = above e0 -> left e = left e0 ->
  frame e0 D0 (update_partition_context e x y w h n) D y x n /\ post (update_partition_context e x y w h n) D y x n.
Proof.
  intros (Hn & Hy & Hx & Dy & Dx & Sy & Sx) N2 Ly Lx Hw Hh Hs F M EA EL.
  assert (Ex : x mod 2 = 0 /\ n mod 2 = 0 /\ y mod 2 = 0 /\ y mod 16 + n <= 16)
    by (clear - Hn N2 Dx Dy; destruct Hn as [ -> | [ -> | [ -> | [ -> | -> ]]]]; dlia).
  destruct Ex as (Ex & En & Ey & E16).
  unfold update_partition_context. rewrite (lookup_ok w h Hw Hh Hs). cbn [fst snd].
  rewrite !Z.shiftr_div_pow2 by lia. change (2 ^ 1) with 2. unfold y_in_sb.
  split.
  - split; [|split].
    + intros y' x' N. cbn [skips]. apply M, N.
    + intros i N. cbn [above]. destruct (_ && _)%bool eqn:E; [exfalso; clear - N E Ex En; apply andb_prop in E; destruct E as [E1 E2]; apply Z.leb_le in E1; apply Z.ltb_lt in E2; dlia|]. now rewrite EA.
    + intros i N. cbn [left]. destruct (_ && _)%bool eqn:E; [exfalso; clear - N E Ey En; apply andb_prop in E; destruct E as [E1 E2]; apply Z.leb_le in E1; apply Z.ltb_lt in E2; dlia|]. now rewrite EL.
  - split.
    + intros Hb c Hc Lc. destruct (F (y + n - 1) c) as [Q1 Q2]; [unfold in_rect; lia|lia|lia|].
      split.
      * intros _. exact Q1.
      * intros Ec. split; [lia|]. intros _. replace (R0 + (y + n) - 1) with (R0 + (y + n - 1)) by ring. rewrite Q2. cbn [fst above].
        split; [exact Hw|]. replace ((x / 2 <=? c / 2) && (c / 2 <? (x + n) / 2))%bool with true; [reflexivity|].
        symmetry. apply andb_true_intro. clear - Hc Ex En. split; [apply Z.leb_le; dlia|apply Z.ltb_lt; dlia].
    + intros Hb r Hr Lr. destruct (F r (x + n - 1)) as [Q1 Q2]; [unfold in_rect; lia|lia|lia|].
      split.
      * intros _. exact Q1.
      * intros Er. split; [lia|]. intros _. replace (C0 + (x + n) - 1) with (C0 + (x + n - 1)) by ring. rewrite Q2. cbn [snd left].
        split; [exact Hh|].
        replace ((y mod 16 / 2 <=? r mod 16 / 2) && (r mod 16 / 2 <? (y mod 16 + n) / 2))%bool with true; [reflexivity|].
        symmetry. apply andb_true_intro.
        assert (G : r mod 16 = y mod 16 + (r - y)) by (clear - Hr E16; dlia).
        rewrite G. clear - Hr Ey En Er. assert (y mod 16 mod 2 = 0) by dlia. set (a := y mod 16) in *.
        split; [apply Z.leb_le; dlia|apply Z.ltb_lt; dlia].
Qed.

(** The blocks of a tree, in coding order: what the encoder means. *)
Fixpoint leaves (t : etree) (y x n : Z) : list dblk :=
  if (mw <=? x) || (mh <=? y) then [] else
  let half := n / 2 in
  match t with
  | ENone s => [mkDB (R0 + y) (C0 + x) n n s]
  | EHorz s1 s2 => [mkDB (R0 + y) (C0 + x) n half s1] ++ (if y + half <? mh then [mkDB (R0 + (y + half)) (C0 + x) n half s2] else [])
  | EVert s1 s2 => [mkDB (R0 + y) (C0 + x) half n s1] ++ (if x + half <? mw then [mkDB (R0 + y) (C0 + (x + half)) half n s2] else [])
  | ESplit a b c d =>
      leaves a y x half ++ leaves b y (x + half) half ++ leaves c (y + half) x half ++ leaves d (y + half) (x + half) half
  end.

(* blocks of one size, gathered inside a node; [P] is the part covered so far *)
Definition acc (e : est) (D : dst) (y x n w h : Z) (P : Z -> Z -> Prop) (e' : est) (D' : dst) : Prop :=
  maps_frame e D e' D' y x n n /\ above e' = above e /\ left e' = left e /\
  (forall r c, r < mh -> c < mw -> agree e D r c -> agree e' D' r c) /\
  (forall r c, P r c -> r < mh -> c < mw -> agree e' D' r c /\ MiSizes D' (R0 + r) (C0 + c) = (w, h)).

Lemma acc_base e D y x n w h : acc e D y x n w h (fun _ _ => False) e D.
Proof. split; [apply maps_refl|]. repeat split; auto; contradiction. Qed.
Lemma acc_block e D y x n w h P e1 D1 y1 x1 s :
  acc e D y x n w h P e1 D1 -> 0 <= y1 < mh -> 0 <= x1 < mw -> 0 < w -> 0 < h ->
  y <= y1 -> x <= x1 -> y1 + h <= y + n -> x1 + w <= x + n ->
  (0 < y1 -> agree e D (y1 - 1) x1 \/ P (y1 - 1) x1) -> (0 < x1 -> agree e D y1 (x1 - 1) \/ P y1 (x1 - 1)) ->
  step (encode_block mw mh e1 x1 y1 w h s) (dec_block (R0 + y1) (C0 + x1) w h D1) [mkDB (R0 + y1) (C0 + x1) w h s]
       (acc e D y x n w h (fun r c => P r c \/ in_rect r c y1 x1 w h)).
Proof.
  intros (M & EA & EL & G & F) Hy Hx Hw Hh B1 B2 B3 B4 Na Nl.
  eapply step_weaken.
  - apply block_ok; try assumption.
    + intros K. destruct (Na K) as [A|A]; [apply G; [lia|lia|exact A]|apply F; [exact A|lia|lia]].
    + intros K. destruct (Nl K) as [A|A]; [apply G; [lia|lia|exact A]|apply F; [exact A|lia|lia]].
  - intros e2 D2 A. pose proof A as (M2 & EA2 & EL2 & F2).
    split; [|split; [|split; [|split]]].
    + eapply maps_trans; [exact M|exact M2|lia..].
    + congruence.
    + congruence.
    + intros r c Hr Hc K. apply (agree_after _ _ _ _ _ _ _ _ _ _ A Hr Hc). left. now apply G.
    + intros r c K Hr Hc.
      assert (Dc : in_rect r c y1 x1 w h \/ ~ in_rect r c y1 x1 w h) by (clear; unfold in_rect; lia).
      destruct Dc as [K2|K2]; [now apply F2|]. destruct K as [K|K]; [|contradiction].
      destruct (F r c K Hr Hc) as [Q1 Q2]. destruct (M2 r c K2) as (T1 & T2 & T3).
      unfold agree in *. rewrite T1, T2, T3. auto.
Qed.

Lemma small_ok t e D y x n w h P e1 D1 y1 x1 fuel :
  acc e D y x n w h P e1 D1 -> w = 1 -> h = 1 -> (0 < fuel)%nat -> chosen mw mh t x1 y1 1 -> 0 <= y1 < mh -> 0 <= x1 < mw ->
  16 * (y1 / 16) < mh -> 16 * (x1 / 16) < mw ->
  y <= y1 -> x <= x1 -> y1 + 1 <= y + n -> x1 + 1 <= x + n ->
  (0 < y1 -> agree e D (y1 - 1) x1 \/ P (y1 - 1) x1) -> (0 < x1 -> agree e D y1 (x1 - 1) \/ P y1 (x1 - 1)) ->
  step (encode_partition mw mh t x1 y1 1 e1) (dec_part fuel (R0 + y1) (C0 + x1) 1 D1) (leaves t y1 x1 1)
       (acc e D y x n w h (fun r c => P r c \/ in_rect r c y1 x1 w h)).
Proof.
  intros A -> -> Hf Hc Hy Hx S1 S2 B1 B2 B3 B4 Na Nl.
  destruct t as [s| | |]; cbn [chosen] in Hc; try (exfalso; destruct (Hc ltac:(lia) ltac:(lia)) as [K _]; lia).
  destruct fuel as [|fuel]; [lia|]. cbn [encode_partition decode_partition leaves].
  replace ((mw <=? x1) || (mh <=? y1))%bool with false by lia.
  assert (K1 : (MiRows <=? R0 + y1) = false) by (pose proof (rows_in y1 ltac:(lia) S1); lia).
  assert (K2 : (MiCols <=? C0 + x1) = false) by (pose proof (cols_in x1 ltac:(lia) S2); lia).
  rewrite K1, K2. cbn [orb]. unfold read_partition. change (1 <? 2) with true. change (2 <=? 1) with false. cbn [andb].
  destruct (acc_block e D y x n 1 1 P e1 D1 y1 x1 s A Hy Hx) as (l & e2 & D2 & E1 & E2 & HQ); try lia; try assumption.
  exists l, e2, D2. rewrite E1. cbn [part_type subsize app]. split; [reflexivity|]. split; [|exact HQ].
  intros rest. unfold bind at 1. unfold ret at 1. cbn [Z.eqb]. apply E2.
Qed.

Definition node_post e D y x n e' D' : Prop := frame e D e' D' y x n /\ post e' D' y x n.

Lemma outside_post e D y x n : 0 < n -> ~ (y < mh /\ x < mw) -> node_post e D y x n e D.
Proof. intros Hn H. split; [apply frame_refl|]. split; intros K r Hr Lr; exfalso; lia. Qed.

Lemma agree_above e D y c : AA e D y c -> 0 < y -> agree e D (y - 1) c.
Proof. intros [A _]; exact A. Qed.
Lemma agree_left e D r x : LL e D r x -> 0 < x -> agree e D r (x - 1).
Proof. intros [A _]; exact A. Qed.

Lemma child y x n i j : node y x n -> 2 <= n -> (i = 0 \/ i = 1) -> (j = 0 \/ j = 1) -> node (y + i * (n / 2)) (x + j * (n / 2)) (n / 2).
Proof.
  clear. intros (Hn & Hy & Hx & Dy & Dx & Sy & Sx) N2 Hi Hj.
  pose proof (half_sb y n Hn Hy Dy) as Qy. pose proof (half_sb x n Hn Hx Dx) as Qx.
  destruct (half_size n Hn N2) as (Z1 & Z2 & Z3).
  assert (A : (y + i * (n / 2)) / 16 = y / 16) by (destruct Hi as [ -> | -> ]; [f_equal; ring|rewrite Z.mul_1_l; exact Qy]).
  assert (B : (x + j * (n / 2)) / 16 = x / 16) by (destruct Hj as [ -> | -> ]; [f_equal; ring|rewrite Z.mul_1_l; exact Qx]).
  assert (P : 0 < n / 2) by (unfold size_ok in Z1; lia).
  assert (My : y mod (n / 2) = 0) by (apply Z.mod_divide; [lia|]; apply Z.mod_divide in Dy; [|lia]; destruct Dy as [k ->]; exists (2 * k); rewrite <- Z2 at 1; ring).
  assert (Mx : x mod (n / 2) = 0) by (apply Z.mod_divide; [lia|]; apply Z.mod_divide in Dx; [|lia]; destruct Dx as [k ->]; exists (2 * k); rewrite <- Z2 at 1; ring).
  unfold node. rewrite A, B. rewrite !Z.mod_add by lia. repeat split; try assumption; clear - Hy Hx P Hi Hj; nia.
Qed.

Lemma node_ok t : forall y x n e D fuel, node y x n -> 2 <= n -> Z.log2 n < Z.of_nat fuel -> chosen mw mh t x y n ->
  (y < mh -> x < mw -> pre e D y x n) ->
  step (encode_partition mw mh t x y n e) (dec_part fuel (R0 + y) (C0 + x) n D) (leaves t y x n) (node_post e D y x n).
Proof.
  induction t as [s|s1 s2|s1 s2|ta IHa tb IHb tc IHc td IHd]; intros y x n e D fuel Hnode N2 Hf Hc Hpre;
    (destruct fuel as [|fuel]; [pose proof (Z.log2_nonneg n); lia|]);
    pose proof Hnode as (Hn & Hy & Hx & Dy & Dx & Sy & Sx);
    pose proof (rows_in y Hy Sy) as Ry; pose proof (cols_in x Hx Sx) as Rx;
    (assert (Hout : (MiRows <=? R0 + y) || (MiCols <=? C0 + x) = ((mw <=? x) || (mh <=? y)))
       by (clear - Ry Rx; lia));
    cbn [encode_partition decode_partition leaves]; rewrite Hout;
    (destruct ((mw <=? x) || (mh <=? y))%bool eqn:Eout;
      [apply step_nil; apply outside_post; [lia|clear - Eout; lia]|]);
    (assert (Ly : y < mh) by (clear - Eout; lia)); (assert (Lx : x < mw) by (clear - Eout; lia)); clear Eout Hout Ry Rx;
    specialize (Hpre Ly Lx); destruct Hpre as [PA PL];
    (assert (HA : AA e D y x) by (apply PA; lia)); (assert (HL : LL e D y x) by (apply PL; lia));
    cbn [chosen] in Hc; specialize (Hc Lx Ly);
    destruct (half_size n Hn N2) as (Hh & H2 & Hev);
    (assert (Hp : 0 < n / 2) by (clear - Hh; unfold size_ok in Hh; lia));
    replace (2 <=? n) with true by lia; cbn [part_type].
  - (* one block *)
    destruct (partition_ok e D y x n 0 Hnode N2 Ly Lx HA HL) as (l & W & RD); try lia; try (intros; exact Hc); try discriminate.
    rewrite W.
    destruct (acc_block e D y x n n n _ e D y x s (acc_base e D y x n n n)) as (l2 & e2 & D2 & E1 & E2 & (M & EA & EL & G & F)); try lia.
    { intros K; left; now apply agree_above. } { intros K; left; now apply agree_left. }
    rewrite E1. cbn [subsize Z.eqb andb]. replace ((n =? 2) || negb false)%bool with true by (destruct (n =? 2); reflexivity).
    exists (l ++ l2), (update_partition_context e2 x y n n n), D2. split; [reflexivity|]. split.
    + intros rest. unfold bind at 1. rewrite <- app_assoc, RD. cbn [Z.eqb]. apply E2.
    + apply update_ok; try assumption; [left; reflexivity|]. intros r c K Kr Kc. apply F; auto.
  - (* two, one above the other *)
    destruct Hc as [_ Hc].
    destruct (partition_ok e D y x n 1 Hnode N2 Ly Lx HA HL) as (l & W & RD); try lia; try (intros; exact Hc); try discriminate.
    rewrite W.
    assert (Qy : (R0 + y + n / 2 <? MiRows) = (y + n / 2 <? mh))
      by (rewrite <- Z.add_assoc; apply rows_in; [lia|rewrite half_sb; assumption]).
    assert (S : step (eseq (encode_sub mw mh e x y n (n / 2) s1) (fun e => encode_sub mw mh e x (y + n / 2) n (n / 2) s2))
                     (dseq (dec_block (R0 + y) (C0 + x) n (n / 2) D)
                        (fun D => if R0 + y + n / 2 <? MiRows then dec_block (R0 + y + n / 2) (C0 + x) n (n / 2) D else ret ([], D)))
                     ([mkDB (R0 + y) (C0 + x) n (n / 2) s1] ++ (if y + n / 2 <? mh then [mkDB (R0 + (y + n / 2)) (C0 + x) n (n / 2) s2] else []))
                     (fun e' D' => maps_frame e D e' D' y x n n /\ above e' = above e /\ left e' = left e /\ filled e' D' y x n n (n / 2))).
    { eapply step_seq.
      - unfold encode_sub. replace ((mw <=? x) || (mh <=? y))%bool with false by lia.
        apply (acc_block e D y x n n (n / 2) _ e D y x s1 (acc_base e D y x n n (n / 2))); try lia.
        { intros K; left; now apply agree_above. } { intros K; left; now apply agree_left. }
      - intros e1 D1 A1. rewrite Qy. unfold encode_sub. replace (mw <=? x) with false by lia. cbn [orb].
        destruct (y + n / 2 <? mh) eqn:E.
        + replace (mh <=? y + n / 2) with false by lia.
          replace (R0 + y + n / 2) with (R0 + (y + n / 2)) by ring.
          eapply step_weaken; [apply (acc_block e D y x n n (n / 2) _ e1 D1 (y + n / 2) x s2 A1); try lia|].
          * intros K. right. right. unfold in_rect. lia.
          * intros K. left. apply agree_left; [|exact K]. apply PL; lia.
          * intros e2 D2 (M & EA & EL & G & F). split; [exact M|]. split; [exact EA|]. split; [exact EL|]. intros r c K Kr Kc. apply F; [clear - K H2; unfold in_rect in *; lia|exact Kr|exact Kc].
        + replace (mh <=? y + n / 2) with true by lia. apply step_nil.
          destruct A1 as (M & EA & EL & G & F). split; [exact M|]. split; [exact EA|]. split; [exact EL|]. intros r c K Kr Kc. apply F; [clear - K Kr E; unfold in_rect in *; lia|exact Kr|exact Kc]. }
    destruct S as (l2 & e2 & D2 & E1 & E2 & (M & EA & EL & F)).
    rewrite E1. cbn [subsize Z.eqb Pos.eqb andb]. replace ((n =? 2) || negb false)%bool with true by (destruct (n =? 2); reflexivity).
    exists (l ++ l2), (update_partition_context e2 x y n (n / 2) n), D2. split; [reflexivity|]. split.
    + intros rest. unfold bind at 1. rewrite <- app_assoc, RD. cbn [Z.eqb Pos.eqb]. apply E2.
    + apply update_ok; try assumption. clear - H2; lia.
  - (* two, side by side *)
    destruct Hc as [_ Hc].
    destruct (partition_ok e D y x n 2 Hnode N2 Ly Lx HA HL) as (l & W & RD); try lia; try (intros; exact Hc); try discriminate.
    rewrite W.
    assert (Qx : (C0 + x + n / 2 <? MiCols) = (x + n / 2 <? mw))
      by (rewrite <- Z.add_assoc; apply cols_in; [lia|rewrite half_sb; assumption]).
    assert (S : step (eseq (encode_sub mw mh e x y (n / 2) n s1) (fun e => encode_sub mw mh e (x + n / 2) y (n / 2) n s2))
                     (dseq (dec_block (R0 + y) (C0 + x) (n / 2) n D)
                        (fun D => if C0 + x + n / 2 <? MiCols then dec_block (R0 + y) (C0 + x + n / 2) (n / 2) n D else ret ([], D)))
                     ([mkDB (R0 + y) (C0 + x) (n / 2) n s1] ++ (if x + n / 2 <? mw then [mkDB (R0 + y) (C0 + (x + n / 2)) (n / 2) n s2] else []))
                     (fun e' D' => maps_frame e D e' D' y x n n /\ above e' = above e /\ left e' = left e /\ filled e' D' y x n (n / 2) n)).
    { eapply step_seq.
      - unfold encode_sub. replace ((mw <=? x) || (mh <=? y))%bool with false by lia.
        apply (acc_block e D y x n (n / 2) n _ e D y x s1 (acc_base e D y x n (n / 2) n)); try lia.
        { intros K; left; now apply agree_above. } { intros K; left; now apply agree_left. }
      - intros e1 D1 A1. rewrite Qx. unfold encode_sub. replace (mh <=? y) with false by lia.
        destruct (x + n / 2 <? mw) eqn:E.
        + replace (mw <=? x + n / 2) with false by lia. cbn [orb].
          replace (C0 + x + n / 2) with (C0 + (x + n / 2)) by ring.
          eapply step_weaken; [apply (acc_block e D y x n (n / 2) n _ e1 D1 y (x + n / 2) s2 A1); try lia|].
          * intros K. left. apply agree_above; [|exact K]. apply PA; lia.
          * intros K. right. right. unfold in_rect. lia.
          * intros e2 D2 (M & EA & EL & G & F). split; [exact M|]. split; [exact EA|]. split; [exact EL|]. intros r c K Kr Kc. apply F; [clear - K H2; unfold in_rect in *; lia|exact Kr|exact Kc].
        + replace (mw <=? x + n / 2) with true by lia. cbn [orb]. apply step_nil.
          destruct A1 as (M & EA & EL & G & F). split; [exact M|]. split; [exact EA|]. split; [exact EL|]. intros r c K Kr Kc. apply F; [clear - K Kc E; unfold in_rect in *; lia|exact Kr|exact Kc]. }
    destruct S as (l2 & e2 & D2 & E1 & E2 & (M & EA & EL & F)).
    rewrite E1. cbn [subsize Z.eqb Pos.eqb andb]. replace ((n =? 2) || negb false)%bool with true by (destruct (n =? 2); reflexivity).
    exists (l ++ l2), (update_partition_context e2 x y (n / 2) n n), D2. split; [reflexivity|]. split.
    + intros rest. unfold bind at 1. rewrite <- app_assoc, RD. cbn [Z.eqb Pos.eqb]. apply E2.
    + apply update_ok; try assumption. clear - H2; lia.
  - (* four *)
    destruct Hc as (_ & Ca & Cb & Cc & Cd).
    destruct (partition_ok e D y x n 3 Hnode N2 Ly Lx HA HL) as (l & W & RD); try lia; try discriminate.
    rewrite W.
    pose proof (half_sb y n Hn Hy Dy) as Qy. pose proof (half_sb x n Hn Hx Dx) as Qx.
    replace (R0 + y + n / 2) with (R0 + (y + n / 2)) by ring. replace (C0 + x + n / 2) with (C0 + (x + n / 2)) by ring.
    destruct (Z.eq_dec n 2) as [N|N].
    + (* four blocks of 4x4 *)
      subst n. change (2 / 2) with 1 in *.
      assert (Iy : y + 1 < mh) by (clear - Hmh Dy Ly; destruct Hmh; dlia).
      assert (Ix : x + 1 < mw) by (clear - Hmw Dx Lx; destruct Hmw; dlia).
      assert (Hf' : (0 < fuel)%nat) by (change (Z.log2 2) with 1 in Hf; lia).
      assert (S : step (eseq (encode_partition mw mh ta x y 1 e) (fun e => eseq (encode_partition mw mh tb (x + 1) y 1 e) (fun e =>
                          eseq (encode_partition mw mh tc x (y + 1) 1 e) (fun e => encode_partition mw mh td (x + 1) (y + 1) 1 e))))
                       (dseq (dec_part fuel (R0 + y) (C0 + x) 1 D) (fun D => dseq (dec_part fuel (R0 + y) (C0 + (x + 1)) 1 D) (fun D =>
                          dseq (dec_part fuel (R0 + (y + 1)) (C0 + x) 1 D) (fun D => dec_part fuel (R0 + (y + 1)) (C0 + (x + 1)) 1 D))))
                       (leaves ta y x 1 ++ leaves tb y (x + 1) 1 ++ leaves tc (y + 1) x 1 ++ leaves td (y + 1) (x + 1) 1)
                       (fun e' D' => maps_frame e D e' D' y x 2 2 /\ above e' = above e /\ left e' = left e /\ filled e' D' y x 2 1 1)).
      { eapply step_seq; [apply (small_ok ta e D y x 2 1 1 _ e D y x fuel (acc_base e D y x 2 1 1)); try assumption; try lia|].
        { intros K; left; now apply agree_above. } { intros K; left; now apply agree_left. }
        intros e1 D1 A1. eapply step_seq; [apply (small_ok tb e D y x 2 1 1 _ e1 D1 y (x + 1) fuel A1); try assumption; try lia|].
        { intros K; left; apply agree_above; [apply PA; lia|exact K]. } { intros K; right; right; unfold in_rect; lia. }
        intros e2 D2 A2. eapply step_seq; [apply (small_ok tc e D y x 2 1 1 _ e2 D2 (y + 1) x fuel A2); try assumption; try lia|].
        { intros K; right; left; right; unfold in_rect; lia. } { intros K; left; apply agree_left; [apply PL; lia|exact K]. }
        intros e3 D3 A3. eapply step_weaken; [apply (small_ok td e D y x 2 1 1 _ e3 D3 (y + 1) (x + 1) fuel A3); try assumption; try lia|].
        { intros K; right; left; right; unfold in_rect; lia. } { intros K; right; right; unfold in_rect; lia. }
        intros e4 D4 (M & EA & EL & G & F). split; [exact M|]. split; [exact EA|]. split; [exact EL|]. intros r c K Kr Kc. apply F; [clear - K; unfold in_rect in *; lia|exact Kr|exact Kc]. }
      destruct S as (l2 & e2 & D2 & E1 & E2 & (M & EA & EL & F)).
      rewrite E1. cbn [subsize Z.eqb Pos.eqb andb orb negb]. change (2 / 2) with 1.
      exists (l ++ l2), (update_partition_context e2 x y 1 1 2), D2. split; [reflexivity|]. split.
      * intros rest. unfold bind at 1. rewrite <- app_assoc, RD. cbn [Z.eqb Pos.eqb]. apply E2.
      * apply update_ok; try assumption; unfold size_ok; auto.
    + (* four nodes *)
      assert (N4 : 2 <= n / 2) by (clear - Hn N N2; destruct Hn as [ -> | [ -> | [ -> | [ -> | -> ]]]]; try lia; vm_compute; discriminate).
      assert (Lf : Z.log2 (n / 2) < Z.of_nat fuel).
      { assert (K : Z.log2 n = Z.log2 (n / 2) + 1) by (clear - Hn N2; destruct Hn as [ -> | [ -> | [ -> | [ -> | -> ]]]]; try lia; reflexivity).
        clear - K Hf. lia. }
      pose proof (child y x n 0 0 Hnode N2 ltac:(auto) ltac:(auto)) as Na. rewrite !Z.mul_0_l, !Z.add_0_r in Na.
      pose proof (child y x n 0 1 Hnode N2 ltac:(auto) ltac:(auto)) as Nb. rewrite !Z.mul_0_l, !Z.mul_1_l, !Z.add_0_r in Nb.
      pose proof (child y x n 1 0 Hnode N2 ltac:(auto) ltac:(auto)) as Nc. rewrite !Z.mul_0_l, !Z.mul_1_l, !Z.add_0_r in Nc.
      pose proof (child y x n 1 1 Hnode N2 ltac:(auto) ltac:(auto)) as Nd. rewrite !Z.mul_1_l in Nd.
      set (h := n / 2) in *.
      assert (Sr : forall r, y <= r < y + n -> r / 16 = y / 16).
      { clear - Hn Dy Hy. intros r Hr. destruct Hn as [ -> | [ -> | [ -> | [ -> | -> ]]]]; dlia. }
      assert (S : step (eseq (encode_partition mw mh ta x y h e) (fun e => eseq (encode_partition mw mh tb (x + h) y h e) (fun e =>
                          eseq (encode_partition mw mh tc x (y + h) h e) (fun e => encode_partition mw mh td (x + h) (y + h) h e))))
                       (dseq (dec_part fuel (R0 + y) (C0 + x) h D) (fun D => dseq (dec_part fuel (R0 + y) (C0 + (x + h)) h D) (fun D =>
                          dseq (dec_part fuel (R0 + (y + h)) (C0 + x) h D) (fun D => dec_part fuel (R0 + (y + h)) (C0 + (x + h)) h D))))
                       (leaves ta y x h ++ leaves tb y (x + h) h ++ leaves tc (y + h) x h ++ leaves td (y + h) (x + h) h)
                       (node_post e D y x n)).
      { eapply step_seq; [apply (IHa y x h e D fuel Na N4 Lf Ca)|].
        { intros _ _. split; [intros c Kc Lc; apply PA; lia|intros r Kr Lr; apply PL; lia]. }
        intros e1 D1 [F1 [QA1 QL1]]. eapply step_seq; [apply (IHb y (x + h) h e1 D1 fuel Nb N4 Lf Cb)|].
        { intros _ Kx. split.
          - intros c Kc Lc. apply (AA_frame _ _ _ _ _ _ _ _ _ F1); [lia|]. apply PA; lia.
          - intros r Kr Lr. apply QL1; lia. }
        intros e2 D2 [F2 [QA2 QL2]]. eapply step_seq; [apply (IHc (y + h) x h e2 D2 fuel Nc N4 Lf Cc)|].
        { intros Ky _. split.
          - intros c Kc Lc. apply (AA_frame _ _ _ _ _ _ _ _ _ F2); [lia|]. apply QA1; lia.
          - intros r Kr Lr. assert (r / 16 = y / 16) by (apply Sr; lia). apply (LL_frame _ _ _ _ _ _ _ _ _ F2); [lia|assumption|].
            apply (LL_frame _ _ _ _ _ _ _ _ _ F1); [lia|assumption|]. apply PL; lia. }
        intros e3 D3 [F3 [QA3 QL3]]. eapply step_weaken; [apply (IHd (y + h) (x + h) h e3 D3 fuel Nd N4 Lf Cd)|].
        { intros Ky Kx. split.
          - intros c Kc Lc. apply (AA_frame _ _ _ _ _ _ _ _ _ F3); [lia|]. apply QA2; lia.
          - intros r Kr Lr. apply QL3; lia. }
        intros e4 D4 [F4 [QA4 QL4]]. split; [|split].
        - assert (F12 : frame e D e2 D2 y x n) by (eapply frame_trans; [exact F1|exact F2|lia..|reflexivity|reflexivity]).
          assert (F34 : frame e2 D2 e4 D4 y x n) by (eapply frame_trans; [exact F3|exact F4|lia..|exact Qy|exact Qy]).
          eapply frame_trans; [exact F12|exact F34|lia..|reflexivity|reflexivity].
        - intros Kb c Kc Lc. destruct (Z_lt_dec c (x + h)) as [C|C].
          + apply (AA_frame _ _ _ _ _ _ _ _ _ F4); [lia|]. replace (y + n) with (y + h + h) by lia. apply QA3; lia.
          + replace (y + n) with (y + h + h) by lia. apply QA4; lia.
        - intros Kb r Kr Lr. assert (r / 16 = (y + h) / 16) by (rewrite Qy; apply Sr; lia). destruct (Z_lt_dec r (y + h)) as [C|C].
          + apply (LL_frame _ _ _ _ _ _ _ _ _ F4); [lia|assumption|]. apply (LL_frame _ _ _ _ _ _ _ _ _ F3); [lia|assumption|].
            replace (x + n) with (x + h + h) by lia. apply QL2; lia.
          + replace (x + n) with (x + h + h) by lia. apply QL4; lia. }
      destruct S as (l2 & e2 & D2 & E1 & E2 & HQ).
      rewrite E1. replace (n =? 2) with false by lia. cbn [subsize Z.eqb Pos.eqb andb orb negb].
      exists (l ++ l2), e2, D2. split; [reflexivity|]. split; [|exact HQ].
      intros rest. unfold bind at 1. rewrite <- app_assoc, RD. cbn [Z.eqb Pos.eqb]. apply E2.
Qed.

(** ** The tile *)
Fixpoint zs (k : nat) (a : Z) : list Z := match k with O => [] | S k => a :: zs k (a + 1) end.
Lemma upto_zs n : upto n = zs (Z.to_nat n) 0.
Proof.
  clear. unfold upto. change 0 with (Z.of_nat 0). generalize 0%nat as s. generalize (Z.to_nat n) as k.
  induction k as [|k IH]; intros s; [reflexivity|]. cbn [seq map zs]. f_equal. rewrite IH. f_equal. lia.
Qed.
(* what the encoder means *)
Definition tile_leaves (sb : Z -> Z -> etree) : list dblk :=
  flat_map (fun i => flat_map (fun j => leaves (sb j i) (16 * i) (16 * j) 16) (upto ((mw + 15) / 16))) (upto ((mh + 15) / 16)).

Notation dec_sbs := (decode_sbs MiRows MiCols R0 (R0 + mh) C0 (C0 + mw)).
Lemma dec_sbs_app l1 l2 : forall D s b1 D1 s1 r, dec_sbs l1 D s = Some ((b1, D1), s1) ->
  dec_sbs l2 D1 s1 = r ->
  dec_sbs (l1 ++ l2) D s = match r with Some ((b2, D2), s2) => Some ((b1 ++ b2, D2), s2) | None => None end.
Proof.
  induction l1 as [|[a b] l1 IH]; intros D s b1 D1 s1 r H1 H2.
  - cbn in H1. unfold ret in H1. injection H1 as <- <- <-. cbn [app]. rewrite H2. destruct r as [[[? ?] ?]|]; reflexivity.
  - cbn [app decode_sbs] in *. unfold dseq, bind in *.
    destruct (dec_part 5 a b 16 D s) as [[[bb Db] sb]|]; [|discriminate]. cbn [fst snd] in *.
    destruct (dec_sbs l1 Db sb) as [[[bc Dc] sc]|] eqn:E; [|discriminate]. unfold ret in *. injection H1 as <- <- <-.
    rewrite (IH _ _ _ _ _ r E H2). destruct r as [[[b2 D2] s2]|]; [|reflexivity]. cbn [fst snd]. now rewrite app_assoc.
Qed.

Section Sb.
Variable sb : Z -> Z -> etree.
Hypothesis Hsb : forall j i, 0 <= j -> 0 <= i -> 16 * j < mw -> 16 * i < mh -> chosen mw mh (sb j i) (16 * j) (16 * i) 16.

Lemma row_ok i : 0 <= i -> 16 * i < mh -> forall k j e D, 0 <= j -> 16 * (j + Z.of_nat k) < mw + 16 -> mw <= 16 * (j + Z.of_nat k) ->
  (forall c, 16 * j <= c < mw -> AA e D (16 * i) c) ->
  (16 * i + 16 <= mh -> forall c, 0 <= c < 16 * j -> c < mw -> AA e D (16 * i + 16) c) ->
  (16 * j < mw -> forall r, 16 * i <= r < 16 * i + 16 -> r < mh -> LL e D r (16 * j)) ->
  step (encode_row mw mh k j i sb e) (dec_sbs (map (fun j => (R0 + 16 * i, C0 + 16 * j)) (zs k j)) D)
       (flat_map (fun j => leaves (sb j i) (16 * i) (16 * j) 16) (zs k j))
       (fun e' D' => 16 * i + 16 <= mh -> forall c, 0 <= c < mw -> AA e' D' (16 * i + 16) c).
Proof.
  intros Hi Li. induction k as [|k IH]; intros j e D Hj K1 K2 HA HB HL.
  - cbn [encode_row zs map decode_sbs flat_map]. apply step_nil. intros H c Hc. apply HB; lia.
  - cbn [encode_row zs map decode_sbs flat_map]. assert (Lj : 16 * j < mw) by lia.
    eapply step_seq.
    + apply node_ok.
      * split; [unfold size_ok; auto 6|]. split; [lia|]. split; [lia|]. clear - Li Lj. dlia.
      * lia.
      * reflexivity.
      * now apply Hsb.
      * intros _ _. split; [intros c Kc Lc; apply HA; lia|intros r Kr Lr; apply HL; lia].
    + intros e1 D1 [F [QA QL]]. apply (IH (j + 1)); [lia|lia|lia| | |].
      * intros c Kc. apply (AA_frame _ _ _ _ _ _ _ _ _ F); [lia|]. apply HA; lia.
      * intros H c Kc Lc. destruct (Z_lt_dec c (16 * j)) as [C|C].
        -- apply (AA_frame _ _ _ _ _ _ _ _ _ F); [lia|]. apply HB; lia.
        -- apply QA; lia.
      * intros H r Kr Lr. replace (16 * (j + 1)) with (16 * j + 16) by ring. apply QL; lia.
Qed.

Lemma rows_ok : forall k i e D, 0 <= i -> 16 * (i + Z.of_nat k) < mh + 16 -> mh <= 16 * (i + Z.of_nat k) ->
  (16 * i < mh -> forall c, 0 <= c < mw -> AA e D (16 * i) c) ->
  step (encode_rows mw mh k i sb e)
       (dec_sbs (flat_map (fun i => map (fun j => (R0 + 16 * i, C0 + 16 * j)) (upto ((mw + 15) / 16))) (zs k i)) D)
       (flat_map (fun i => flat_map (fun j => leaves (sb j i) (16 * i) (16 * j) 16) (upto ((mw + 15) / 16))) (zs k i))
       (fun _ _ => True).
Proof.
  induction k as [|k IH]; intros i e D Hi K1 K2 HA.
  - cbn [encode_rows zs flat_map decode_sbs]. now apply step_nil.
  - cbn [encode_rows zs flat_map]. assert (Li : 16 * i < mh) by lia. specialize (HA Li).
    rewrite !upto_zs.
    assert (W : 0 <= (mw + 15) / 16 /\ mw <= 16 * ((mw + 15) / 16) < mw + 16) by (clear - Hmw; destruct Hmw as [P _]; dlia).
    destruct (row_ok i Hi Li (Z.to_nat ((mw + 15) / 16)) 0 (reset_left e) D) as (l & e1 & D1 & E1 & E2 & Q).
    + lia.
    + rewrite Z2Nat.id by lia. lia.
    + rewrite Z2Nat.id by lia. lia.
    + intros c Kc. destruct (HA c) as [A B]; [lia|]. split; [exact A|exact B].
    + intros _ c Kc. lia.
    + intros _ r Kr Lr. split; [lia|]. intros _. split; [reflexivity|lia].
    + destruct (IH (i + 1) e1 D1) as (l2 & e2 & D2 & E3 & E4 & _); [lia|lia|lia| |].
      { intros H c Kc. replace (16 * (i + 1)) with (16 * i + 16) by ring. apply Q; lia. }
      rewrite !upto_zs in E4.
      exists (l ++ l2), e2, D2. split; [|split; [|exact I]].
      * unfold eseq. rewrite E1, E3. reflexivity.
      * intros rest. rewrite <- app_assoc. rewrite (dec_sbs_app _ _ _ _ _ _ _ _ (E2 _) (E4 _)). reflexivity.
Qed.

Theorem tile_ok sk D :
  reads (decode_tile MiRows MiCols R0 (R0 + mh) C0 (C0 + mw) D) (encode_tile mw mh sb sk) (tile_leaves sb).
Proof.
  assert (W : 0 <= (mh + 15) / 16 /\ mh <= 16 * ((mh + 15) / 16) < mh + 16) by (clear - Hmh; destruct Hmh as [P _]; dlia).
  destruct (rows_ok (Z.to_nat ((mh + 15) / 16)) 0 (mkE (fun _ => 0) (fun _ => 0) sk) D) as (l & e & D' & E1 & E2 & _).
  - lia.
  - rewrite Z2Nat.id by lia. lia.
  - rewrite Z2Nat.id by lia. lia.
  - intros _ c Kc. split; [lia|]. intros _. split; [reflexivity|lia].
  - exists l. split.
    + unfold encode_tile. rewrite E1. reflexivity.
    + intros rest. unfold decode_tile, superblocks, tile_leaves, bind.
      replace (C0 + mw - C0 + 15) with (mw + 15) by ring. replace (R0 + mh - R0 + 15) with (mh + 15) by ring.
      rewrite (upto_zs ((mh + 15) / 16)), E2. reflexivity.
Qed.
End Sb.
End Tile.

(** ** The gathered tables *)
Lemma sub_probs_ok cdf es : forall out, (forall e, In e es -> 0 <= cdf_element_prob cdf e) ->
  fold_right Z.add 0 (map (cdf_element_prob cdf) es) <= out ->
  sub_probs out cdf es = Some (out - fold_right Z.add 0 (map (cdf_element_prob cdf) es)).
Proof.
  induction es as [|e es IH]; intros out H1 H2; cbn [sub_probs map fold_right] in *; [f_equal; ring|].
  assert (0 <= cdf_element_prob cdf e) by (apply H1; left; reflexivity).
  assert (0 <= fold_right Z.add 0 (map (cdf_element_prob cdf) es)).
  { clear - H1. induction es as [|a es IH]; cbn; [lia|]. assert (0 <= cdf_element_prob cdf a) by (apply H1; right; left; reflexivity).
    assert (0 <= fold_right Z.add 0 (map (cdf_element_prob cdf) es)); [|lia]. apply IH. intros b Hb. apply H1. destruct Hb; [left|right; right]; assumption. }
  replace ((cdf_element_prob cdf e <? 0) || (out <? cdf_element_prob cdf e))%bool with false by lia.
  rewrite IH; [f_equal; ring|intros; apply H1; right; assumption|lia].
Qed.
