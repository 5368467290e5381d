(** C51: the transform coefficients of a tile, written by write_coeffs_lv_map
    block after block, are read back by the decoder. *)
From Verif Require Import Coef_model Coef_spec Coef_proof Coef_block Coef_tile.
Open Scope string_scope.
Open Scope Z_scope.
Open Scope list_scope.

(** For every tile: whatever the blocks, their sizes, positions, transform types and
    coefficients, the encoder emits the symbols without a panic, and the decoder
    following the specification, with contexts of its own, obtains from them (and
    from nothing after them) every transform type, position of the last coefficient
    and coefficient. *)
Theorem C51_coefficients W H xd yd reduced rows :
  (xd = 0 \/ xd = 1) -> (yd = 0 \/ yd = 1) -> (xd = 1 -> W mod 2 = 0) -> (yd = 1 -> H mod 2 = 0) ->
  legal_rows W H xd yd 0 reduced rows ->
  exists e, encode_tile W H xd yd reduced rows = Some e /\
    forall rest, read_tile W H xd yd reduced (map (map gitem_of) rows) (e ++ rest) = Some (map found_in rows, rest).
Proof. intros A B C D L. exact (tile_read W H xd yd reduced A B C D rows L). Qed.
Print Assumptions C51_coefficients.

(** For the two sizes which the encoder does not use the statement is false: the
    table for the position of the last coefficient is chosen from the full area. *)
Definition tall (t : Z) : tblock :=
  {| tb_plane := 0; tb_x := 0; tb_y := 0; tb_t := t; tb_ty := 0; tb_inter := true; tb_mode := 0;
     tb_pwl := 6; tb_phl := 6; tb_eob := 1; tb_coeffs := 5 :: repeat 0 511 |}.
Lemma repeat_zero k n : nth k (repeat 0 n) 0 = 0.
Proof. revert k. induction n as [|n IH]; intros [|k]; cbn; auto. Qed.
Lemma lone_dc (t : Z) : (t = 17 \/ t = 18) -> forall k, 1 <= Z.of_nat k ->
  coef_at (tall t) (nth k (scan_pos (tall t)) (0, 0)) = 0 \/ zlen (scan_pos (tall t)) <= Z.of_nat k.
Proof.
  intros Ht k Hk.
  assert (F : forallb (fun p => negb (fst p * 32 + snd p =? 0) && negb (fst p * 16 + snd p =? 0) && (0 <=? fst p) && (0 <=? snd p)) (skipn 1 (scan_pos (tall t))) = true)
    by (destruct Ht as [->| ->]; vm_compute; reflexivity).
  destruct (Z.leb_spec (zlen (scan_pos (tall t))) (Z.of_nat k)) as [L|L]; [right; exact L|left].
  rewrite forallb_forall in F.
  assert (I : In (nth k (scan_pos (tall t)) (0, 0)) (skipn 1 (scan_pos (tall t)))).
  { destruct (scan_pos (tall t)) as [|x l]; [unfold zlen in L; cbn in L; lia|]. cbn [skipn].
    destruct k as [|k]; [lia|]. cbn [nth]. apply nth_In. unfold zlen in L. cbn [length] in L. lia. }
  apply F in I. destruct (nth k (scan_pos (tall t)) (0, 0)) as [c r]. cbn [fst snd] in I.
  unfold coef_at. change (tb_coeffs (tall t)) with (5 :: repeat 0 511). cbn [fst snd].
  assert (C : 0 < c * coded_dim (snd (dims_of (tall t))) + r).
  { destruct Ht as [->| ->]; [change (coded_dim (snd (dims_of (tall 17)))) with 32|change (coded_dim (snd (dims_of (tall 18)))) with 16]; lia. }
  destruct (Z.to_nat (c * coded_dim (snd (dims_of (tall t))) + r)) as [|n] eqn:E; [lia|]. cbn [nth]. apply repeat_zero.
Qed.
Theorem C51_16x64_refuted :
  exists b, legal_content false b /\
  exists e cx, write_coeffs false b [] [] = Some (e, cx) /\ read_coeffs false (geom_of b) [] [] e = None.
Proof.
  exists (tall 17). split.
  - repeat split; try (cbn; lia); try (vm_compute; congruence).
    + constructor; [reflexivity|]. apply Forall_forall. intros x I. apply repeat_spec in I. subst x. reflexivity.
    + intros k Hk. apply lone_dc; [left; reflexivity|]. exact Hk.
  - exists [ESym "txb_skip_cdf" [3; 1] 2 0; ESym "eob_flag_cdf1024" [0; 0] 11 0;
            ESym "coeff_base_eob_cdf" [3; 0; 0] 3 2; ESym "coeff_br_cdf" [3; 0; 0] 4 2; ESym "dc_sign_cdf" [0; 0] 2 0], 133.
    split; vm_compute; reflexivity.
Qed.
Print Assumptions C51_16x64_refuted.

(** ** An example: 4:2:0, a frame 6 units wide, two rows of superblocks.  Luma blocks
    with large coefficients, a chroma block, a block without coefficients *)
Definition luma (x y : Z) (l : list Z) (eob : Z) : tblock :=
  {| tb_plane := 0; tb_x := x; tb_y := y; tb_t := 0; tb_ty := 0; tb_inter := false; tb_mode := 3;
     tb_pwl := 3; tb_phl := 3; tb_eob := eob; tb_coeffs := l |}.
Definition chroma (x y : Z) (l : list Z) (eob : Z) : tblock :=
  {| tb_plane := 1; tb_x := x; tb_y := y; tb_t := 0; tb_ty := 11; tb_inter := false; tb_mode := 3;
     tb_pwl := 2; tb_phl := 2; tb_eob := eob; tb_coeffs := l |}.
Definition l1 := [-1000; 3; 0; 0; 17; 0; 0; 0; -2; 0; 0; 0; 0; 0; 0; 0].
Definition l2 := [1; -1; 2; 0; 0; 0; 0; 0; 0; 0; 0; 0; 0; 0; 0; 0].
Definition ex_tile : list (list titem) :=
  [[TTx (luma 0 0 l1 6); TTx (luma 1 0 l2 4); TTx (luma 0 1 l2 4); TTx (luma 1 1 (repeat 0 16) 0);
    TTx (chroma 0 0 l2 3); TSkip {| sk_x := 2; sk_y := 0; sk_w := 4; sk_h := 4; sk_chroma := true |};
    TTx (luma 4 2 l1 6)];
   [TTx (luma 0 16 l1 6)]].
(** a check of the conditions on the coefficients *)
Definition contentb (b : tblock) : bool :=
  (zlen (tb_coeffs b) =? coded_dim (fst (dims_of b)) * coded_dim (snd (dims_of b))) &&
  forallb (fun v => Z.abs v <? 2 ^ 20) (tb_coeffs b) &&
  (0 <=? tb_eob b) && (tb_eob b <=? zlen (tb_coeffs b)) &&
  forallb (fun p => coef_at b p =? 0) (skipn (Z.to_nat (tb_eob b)) (scan_pos b)) &&
  ((tb_eob b <=? 0) || negb (coef_at b (nth (Z.to_nat (tb_eob b - 1)) (scan_pos b) (0, 0)) =? 0)).
Lemma content_ok b : good_size (tb_t b) -> 0 <= tb_ty b < 16 -> 0 <= tb_plane b -> 0 <= tb_pwl b -> 0 <= tb_phl b ->
  (tb_plane b = 0 -> type_allowed (fst (dims_of b)) (snd (dims_of b)) (tb_inter b) false (tb_ty b)) ->
  contentb b = true -> legal_coeffs false b.
Proof.
  intros G H1 H2 H3 H4 H5 C. unfold contentb in C. rewrite !andb_true_iff in C.
  destruct C as [[[[[C1 C2] C3] C4] C5] C6]. split; [exact G|]. unfold good_size in G.
  split; [lia|]. repeat (split; [assumption|]). split; [lia|]. split.
  { apply Forall_forall. rewrite forallb_forall in C2. intros x I. apply C2 in I. lia. }
  split; [lia|]. split.
  - intros k Hk. destruct (Z.leb_spec (zlen (scan_pos b)) (Z.of_nat k)) as [L|L]; [right; exact L|left].
    rewrite forallb_forall in C5. apply Z.eqb_eq, C5.
    rewrite <- (firstn_skipn (Z.to_nat (tb_eob b)) (scan_pos b)) at 1. unfold zlen in L.
    rewrite app_nth2; rewrite firstn_length; [|lia]. apply nth_In. rewrite skipn_length. lia.
  - intros Hp E. rewrite E in C6. lia.
Qed.
Example ex_legal : legal_rows 6 34 1 1 0 false ex_tile.
Proof.
  assert (T : forall s x y l eob, y / 16 = s -> 0 <= x < 6 -> 0 <= y < 34 -> contentb (luma x y l eob) = true -> y mod 16 + 1 <= 16 ->
            legal_tx 6 34 1 1 s false (luma x y l eob)).
  { intros s x y l eob <- Hx Hy C F. split; [|cbn [tb_plane tb_x tb_y luma]; repeat split; try lia; try exact F].
    - apply content_ok; [unfold good_size; cbn; lia| | | | | |exact C]; cbn; lia.
    - unfold y_in_sb, dec_of. change (0 =? 0) with true. cbv iota. change (2 ^ 0) with 1. rewrite !Z.div_1_r.
      change (2 ^ (snd (dims_of (luma x y l eob)) - 2)) with 1. exact F. }
  unfold ex_tile. cbn [legal_rows].
  repeat (match goal with |- _ /\ _ => split | |- Forall _ _ => constructor | |- True => exact I end); cbn [legal_item].
  1-4: apply T; [reflexivity|lia|lia|vm_compute; reflexivity|cbn; lia].
  - split; [|cbn [tb_plane tb_x tb_y chroma]; repeat split; try lia; try reflexivity; vm_compute; congruence].
    apply content_ok; [unfold good_size; cbn; lia| | | | | |]; cbn; try lia. vm_compute; reflexivity.
  - cbn. repeat split; try lia; try (intros _ _; right; split; reflexivity); try reflexivity; vm_compute; congruence.
  - apply T; [reflexivity|lia|lia|vm_compute; reflexivity|cbn; lia].
  - apply T; [reflexivity|lia|lia|vm_compute; reflexivity|cbn; lia].
Qed.
Example ex_back : match encode_tile 6 34 1 1 false ex_tile with
  | Some e => (60 <? length e)%nat = true /\
      read_tile 6 34 1 1 false (map (map gitem_of) ex_tile) (e ++ [ELit 1 0]) = Some (map found_in ex_tile, [ELit 1 0])
  | None => False
  end.
Proof. vm_compute. split; reflexivity. Qed.
(** the first block, read back *)
Example ex_found : nth 0 (nth 0 (map found_in ex_tile) []) (0, 0, []) =
  (0, 6, [-1000; 17; -2; 0; 3; 0; 0; 0; 0; 0; 0; 0; 0; 0; 0; 0]).
Proof. reflexivity. Qed.
