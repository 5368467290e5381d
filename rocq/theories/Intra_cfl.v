(** Intra prediction: chroma from luma, and the choice of the edge filter. *)
From Verif Require Import Base Edge_model Intra_model Intra_edge Intra_dir Intra_proof.
From Verif Require Intra_spec.
Local Open Scope Z_scope.

Lemma i16_id v : -32768 <= v < 32768 -> i16 v = v.
Proof. intros H. unfold i16. destruct (Z.ltb_spec (v mod 65536) 32768); dlia. Qed.
Lemma sum_app f a b : Intra_spec.sum f (a + b) = Intra_spec.sum f a + Intra_spec.sum (fun k => f (Z.of_nat a + k)) b.
Proof. induction b as [|b IH]; [rewrite Nat.add_0_r; cbn; lia|]. rewrite Nat.add_succ_r. cbn [Intra_spec.sum]. rewrite IH, Nat2Z.inj_add. lia. Qed.
Lemma sum_rows (f : Z -> Z -> Z) a b : (0 < a)%nat -> Intra_spec.sum (fun k => f (k / Z.of_nat a) (k mod Z.of_nat a)) (b * a) = Intra_spec.sum (fun i => Intra_spec.sum (fun j => f i j) a) b.
Proof.
  intros Ha. induction b as [|b IH]; [reflexivity|]. replace (S b * a)%nat with (b * a + a)%nat by lia. rewrite sum_app, IH. cbn [Intra_spec.sum]. f_equal. apply sum_ext. intros k Hk.
  rewrite Nat2Z.inj_mul. rewrite (Z.add_comm _ k), Z.div_add, Z.mod_add by lia. rewrite Z.div_small, Z.mod_small by lia. reflexivity.
Qed.
Lemma fold_plus (f : nat -> Z) n : fold_left (fun acc k => acc + f k) (seq 0 n) 0 = Intra_spec.sum (fun k => f (Z.to_nat k)) n.
Proof. induction n as [|n IH]; [reflexivity|]. rewrite seq_S, fold_left_app, IH. cbn [fold_left Intra_spec.sum Nat.add]. rewrite Nat2Z.id. lia. Qed.

(** ** The part of the luma block that is used *)
Lemma count_S n : Intra_spec.count (Z.of_nat (S n)) = Intra_spec.count (Z.of_nat n) ++ [Z.of_nat n].
Proof. unfold Intra_spec.count. rewrite !Nat2Z.id, seq_S, map_app. reflexivity. Qed.
(* how many of n blocks of size t at pos start before f *)
Definition blocks_in (f pos t n : Z) : Z := Z.min n ((f - pos + t - 1) / t).
Lemma row_fold fw fh x y tw th i n m : 0 < tw -> x < fw -> y + i * th < fh -> 
  fold_left (fun m p => if (x + fst p * tw <? fw) && (y + snd p * th <? fh) then (x + fst p * tw + tw, y + snd p * th + th) else m)
    (map (fun j => (j, i)) (Intra_spec.count (Z.of_nat n))) m = if (n =? 0)%nat then m else (x + blocks_in fw x tw (Z.of_nat n) * tw, y + i * th + th).
Proof.
  intros Ht Hx Hy. induction n as [|n IH]; [reflexivity|]. rewrite count_S, map_app, fold_left_app, IH. cbn [map fold_left fst snd Nat.eqb].
  replace (y + i * th <? fh) with true by lia. rewrite andb_true_r.
  assert (Q : (x + Z.of_nat n * tw <? fw) = (Z.of_nat n + 1 <=? (fw - x + tw - 1) / tw)).
  { destruct (Z.leb_spec (Z.of_nat n + 1) ((fw - x + tw - 1) / tw)) as [L|L].
    - apply Z.ltb_lt. pose proof (Z.mul_div_le (fw - x + tw - 1) tw Ht). assert (tw * (Z.of_nat n + 1) <= tw * ((fw - x + tw - 1) / tw)) by (apply Z.mul_le_mono_nonneg_l; lia). nia.
    - apply Z.ltb_ge. pose proof (Z.mul_succ_div_gt (fw - x + tw - 1) tw Ht). assert (tw * Z.succ ((fw - x + tw - 1) / tw) <= tw * (Z.of_nat n + 1)) by (apply Z.mul_le_mono_nonneg_l; lia). nia. }
  rewrite Q. unfold blocks_in. rewrite Nat2Z.inj_succ. destruct (Z.leb_spec (Z.of_nat n + 1) ((fw - x + tw - 1) / tw)).
  - f_equal. rewrite Z.min_l by lia. ring.
  - destruct n as [|n]; cbn [Nat.eqb].
    + exfalso. assert (1 <= (fw - x + tw - 1) / tw) by (apply Z.div_le_lower_bound; lia). lia.
    + f_equal. rewrite !Z.min_r by lia. reflexivity.
Qed.
Lemma row_skip fw fh x y tw th i l m : fh <= y + i * th -> 
  fold_left (fun m p => if (x + fst p * tw <? fw) && (y + snd p * th <? fh) then (x + fst p * tw + tw, y + snd p * th + th) else m) (map (fun j => (j, i)) l) m = m.
Proof. intros H. induction l as [|a l IH]; [reflexivity|]. cbn [map fold_left fst snd]. replace (y + i * th <? fh) with false by lia. rewrite andb_false_r. apply IH. Qed.
Lemma max_luma_eq fw fh x y bw bh tw th : 0 < tw -> 0 < th -> x < fw -> y < fh -> 1 <= bw / tw -> 1 <= bh / th ->
  Intra_spec.MaxLuma fw fh x y bw bh tw th = (x + blocks_in fw x tw (bw / tw) * tw, y + blocks_in fh y th (bh / th) * th).
Proof.
  intros Tw Th Hx Hy Nw Nh. unfold Intra_spec.MaxLuma.
  rewrite <- (Z2Nat.id (bw / tw)), <- (Z2Nat.id (bh / th)) by lia. set (a := Z.to_nat (bw / tw)). set (b := Z.to_nat (bh / th)).
  assert (A : (1 <= a)%nat) by lia. assert (B : (1 <= b)%nat) by lia. clearbody a b. clear Nw Nh.
  assert (K : forall b, fold_left (fun m p => if (x + fst p * tw <? fw) && (y + snd p * th <? fh) then (x + fst p * tw + tw, y + snd p * th + th) else m)
    (flat_map (fun i => map (fun j => (j, i)) (Intra_spec.count (Z.of_nat a))) (Intra_spec.count (Z.of_nat b))) (0, 0) =
    if (b =? 0)%nat then (0, 0) else (x + blocks_in fw x tw (Z.of_nat a) * tw, y + blocks_in fh y th (Z.of_nat b) * th)).
  { clear b B. induction b as [|b IH]; [reflexivity|]. rewrite count_S, flat_map_app, fold_left_app, IH. cbn [flat_map Nat.eqb]. rewrite app_nil_r.
    assert (Q : (y + Z.of_nat b * th <? fh) = (Z.of_nat b + 1 <=? (fh - y + th - 1) / th)).
    { destruct (Z.leb_spec (Z.of_nat b + 1) ((fh - y + th - 1) / th)) as [L|L].
      - apply Z.ltb_lt. pose proof (Z.mul_div_le (fh - y + th - 1) th Th). assert (th * (Z.of_nat b + 1) <= th * ((fh - y + th - 1) / th)) by (apply Z.mul_le_mono_nonneg_l; lia). nia.
      - apply Z.ltb_ge. pose proof (Z.mul_succ_div_gt (fh - y + th - 1) th Th). assert (th * Z.succ ((fh - y + th - 1) / th) <= th * (Z.of_nat b + 1)) by (apply Z.mul_le_mono_nonneg_l; lia). nia. }
    destruct (Z.leb_spec (Z.of_nat b + 1) ((fh - y + th - 1) / th)) as [L|L].
    - apply Z.ltb_lt in Q. rewrite row_fold by auto. replace (a =? 0)%nat with false by (symmetry; apply Nat.eqb_neq; lia). f_equal. unfold blocks_in. rewrite Nat2Z.inj_succ, Z.min_l by lia. ring.
    - apply Z.ltb_ge in Q. rewrite row_skip by exact Q. destruct b as [|b]; cbn [Nat.eqb].
      + exfalso. assert (1 <= (fh - y + th - 1) / th) by (apply Z.div_le_lower_bound; lia). lia.
      + f_equal. unfold blocks_in. rewrite Nat2Z.inj_succ, !Z.min_r by lia. reflexivity. }
  rewrite K. replace (b =? 0)%nat with false by (symmetry; apply Nat.eqb_neq; lia). reflexivity.
Qed.

(* one dimension: a luma block of size b at pos, with transforms of size t, in a frame of size f *)
Record dim (dec f pos b t : Z) : Prop := {
  d_dec : dec = 0 \/ dec = 1;
  d_b : In b sizes;
  d_t : In t sizes;
  d_tb : t <= b;
  d_f : f mod 8 = 0;
  d_pos : 0 <= pos < f;
  d_al : pos mod b = 0;
  d_chroma : dec = 1 -> b = 4 -> pos mod 8 = 4       (* the block that carries chroma *)
}.
Definition chroma_size (dec b : Z) : Z := Z.max 4 (Z.shiftr b dec).
Definition chroma_start (dec pos : Z) : Z := 4 * Z.shiftr (pos / 4) dec.
Lemma size_div b t : In b sizes -> In t sizes -> t <= b -> (b / t) * t = b /\ 1 <= b / t.
Proof. intros B T L. cbn in B, T. destruct B as [<-|[<-|[<-|[<-|[<-|[]]]]]], T as [<-|[<-|[<-|[<-|[<-|[]]]]]]; try lia; (split; [reflexivity|vm_compute; discriminate]). Qed.
Lemma luma_max_eq dec f pos b t : dim dec f pos b t -> luma_max b (Z.min (f - pos) b) t = blocks_in f pos t (b / t) * t /\
  luma_max b (Z.min (f - pos) b) t <= b /\ (b = 4 -> luma_max b (Z.min (f - pos) b) t = 4) /\ (b <> 4 -> 8 <= luma_max b (Z.min (f - pos) b) t /\ luma_max b (Z.min (f - pos) b) t mod 8 = 0).
Proof.
  intros [D B T L F P A C]. destruct (size_div b t B T L) as [E N].
  assert (R : blocks_in f pos t (b / t) * t = t * ((Z.min (f - pos) b + t - 1) / t)).
  { pose proof (size_range t T) as Tr. unfold blocks_in. rewrite Z.mul_comm. f_equal. set (n := b / t) in *. clearbody n. subst b.
    destruct (Z.le_gt_cases (f - pos) (n * t)).
    - rewrite (Z.min_l (f - pos)) by lia. apply Z.min_r. assert ((f - pos + t - 1) / t < n + 1) by (apply Z.div_lt_upper_bound; nia). lia.
    - rewrite (Z.min_r (f - pos)) by lia. replace (n * t + t - 1) with (t - 1 + n * t) by ring. rewrite Z.div_add, (Z.div_small (t - 1)) by lia.
      assert (n <= (f - pos + t - 1) / t) by (apply Z.div_le_lower_bound; nia). lia. }
  assert (S : t * ((Z.min (f - pos) b + t - 1) / t) = Z.shiftl (Z.shiftr (Z.min (f - pos) b + Z.shiftl 1 (Z.log2 t) - 1) (Z.log2 t)) (Z.log2 t)).
  { rewrite size_shr by exact T. rewrite !Z.shiftl_mul_pow2 by apply Z.log2_nonneg.
    assert (Q : 2 ^ Z.log2 t = t) by (clear - T; cbn in T; destruct T as [<-|[<-|[<-|[<-|[<-|[]]]]]]; reflexivity). rewrite Q, Z.mul_1_l. ring. }
  rewrite R. unfold luma_max. rewrite <- S. clear S R E N.
  assert (Cs : (b = 4 /\ t = 4) \/ (b = 8 /\ (t = 4 \/ t = 8)) \/ (8 < b /\ b mod 8 = 0 /\ b mod t = 0 /\ pos mod 8 = 0)).
  { clear - B T L A. cbn in B, T. destruct B as [<-|[<-|[<-|[<-|[<-|[]]]]]], T as [<-|[<-|[<-|[<-|[<-|[]]]]]]; try lia; right; right; (split; [lia|]; split; [reflexivity|]; split; [reflexivity|]; dlia). }
  destruct Cs as [[-> ->]|[[-> T8]|(B8 & M1 & M2 & M3)]].
  - cbn [Z.ltb Z.compare Pos.compare Pos.compare_cont]. replace (Z.min (f - pos) 4) with 4 by (clear - P A F; dlia). change (4 * ((4 + 4 - 1) / 4)) with 4. repeat split; lia.
  - cbn [Z.ltb Z.compare Pos.compare Pos.compare_cont]. replace (Z.min (f - pos) 8) with 8 by (clear - P A F; dlia). destruct T8 as [-> | ->]; [change (4 * ((8 + 4 - 1) / 4)) with 8|change (8 * ((8 + 8 - 1) / 8)) with 8]; repeat split; lia.
  - replace (8 <? b) with true by lia. split; [reflexivity|].
    assert (c8 : Z.min (f - pos) b mod 8 = 0) by (destruct (Z.min_spec (f - pos) b) as [[_ ->]|[_ ->]]; [clear - F M3; dlia|exact M1]).
    assert (cge : 8 <= Z.min (f - pos) b) by (clear - F M3 P B8; dlia). pose proof (size_range t T).
    set (c := Z.min (f - pos) b) in *. assert (cb : c <= b) by lia. clearbody c.
    assert (Tc : t = 4 \/ (exists k, t = 8 * k /\ 0 < k)) by (clear - T; cbn in T; destruct T as [<-|[<-|[<-|[<-|[<-|[]]]]]]; [auto|right; exists 1; lia|right; exists 2; lia|right; exists 4; lia|right; exists 8; lia]).
    split; [|split; [lia|]].
    + assert ((c + t - 1) / t <= b / t).
      { rewrite (Z.div_mod b t) in cb by lia. rewrite M2 in cb. assert ((c + t - 1) / t < b / t + 1) by (apply Z.div_lt_upper_bound; nia). lia. }
      pose proof (Z.div_mod b t ltac:(lia)). nia.
    + intros _. split.
      * pose proof (Z.mul_succ_div_gt (c + t - 1) t ltac:(lia)). nia.
      * destruct Tc as [->|(k & -> & Hk)]; [|apply Z.mod_divide; [lia|]; exists (k * ((c + 8 * k - 1) / (8 * k))); ring].
        clear - c8. dlia.
Qed.
Lemma luma_dim dec f pos b t : dim dec f pos b t -> let P := chroma_size dec b in let S := chroma_start dec pos in
  let M := Z.shiftl (P - luma_pad dec f pos b t * 4) dec in
  luma_start dec pos b = Z.shiftl S dec /\ M = pos + blocks_in f pos t (b / t) * t - Z.shiftl S dec /\ (8 <= M \/ (P = 4 /\ dec = 0 /\ M = 4)).
Proof.
  intros HD. cbv zeta. destruct (luma_max_eq dec f pos b t HD) as (E & Le & E4 & E8). destruct HD as [D B T L F P A C]. unfold luma_pad, luma_start, chroma_size, chroma_start.
  rewrite <- E. set (m := luma_max b (Z.min (f - pos) b) t) in *. clearbody m. clear E. rewrite !Z.shiftl_mul_pow2, !Z.shiftr_div_pow2 by lia.
  assert (A4 : pos mod 4 = 0) by (clear - A B; cbn in B; destruct B as [<-|[<-|[<-|[<-|[<-|[]]]]]]; dlia).
  assert (Bc : b = 4 \/ (8 <= b /\ b mod 8 = 0 /\ pos mod 8 = 0)) by (clear - A B; cbn in B; destruct B as [<-|[<-|[<-|[<-|[<-|[]]]]]]; [auto|right..]; (split; [lia|]; split; [reflexivity|]; dlia)).
  destruct D as [-> | ->]; cbn [Z.eqb andb Pos.eqb]; [change (2 ^ 0) with 1; change (2 ^ (2 + 0)) with 4|change (2 ^ 1) with 2; change (2 ^ (2 + 1)) with 8];
  (destruct Bc as [-> | (B8 & B0 & P0)]; [specialize (E4 eq_refl); cbn [Z.eqb andb Pos.eqb]|specialize (E8 ltac:(lia)); replace (b =? 4) with false by lia; cbn [andb]]).
  - subst m. change (Z.max 4 (4 / 1)) with 4. change ((4 - 4) / 4) with 0. clear - A4. split; [dlia|]. split; [dlia|]. right. auto.
  - destruct E8 as [E8 E8']. clear - A4 E8 E8' B8 B0 P0 Le. split; [dlia|]. split; [dlia|]. left. dlia.
  - subst m. specialize (C eq_refl eq_refl). change (Z.max 4 (4 / 2)) with 4. change ((4 - 4) / 8) with 0. clear - C A4. split; [dlia|]. split; [dlia|]. left. lia.
  - destruct E8 as [E8 E8']. clear - A4 E8 E8' B8 B0 P0 Le. split; [dlia|]. split; [dlia|]. left. dlia.
Qed.

(** ** Chroma from luma *)
Lemma sample_math xdec ydec (F : Z -> Z -> Z) X Y : (xdec = 0 /\ ydec = 0) \/ (xdec = 1 /\ ydec = 0) \/ (xdec = 1 /\ ydec = 1) ->
  0 <= F Y X <= 4095 -> 0 <= F Y (X + 1) <= 4095 -> 0 <= F (Y + 1) X <= 4095 -> 0 <= F (Y + 1) (X + 1) <= 4095 ->
  let s := i16 (F Y X) in
  let s := if negb (xdec =? 0) then i16 (s + i16 (F Y (X + 1))) else s in
  let s := if negb (ydec =? 0) then i16 (s + i16 (i16 (F (Y + 1) X) + i16 (F (Y + 1) (X + 1)))) else s in
  let r := Z.shiftl (Intra_spec.sum (fun dy => Intra_spec.sum (fun dx => F (Y + dy) (X + dx)) (Z.to_nat (xdec + 1))) (Z.to_nat (ydec + 1))) (3 - xdec - ydec) in
  i16 (Z.shiftl s (3 - xdec - ydec)) = r /\ 0 <= r <= 32760.
Proof.
  intros D R1 R2 R3 R4. cbv zeta.
  destruct D as [[-> ->]|[[-> ->]|[-> ->]]].
  - change (negb (0 =? 0)) with false. cbv iota. change (3 - 0 - 0) with 3. change (0 + 1) with 1.
    change (Intra_spec.sum (fun dy => Intra_spec.sum (fun dx => F (Y + dy) (X + dx)) (Z.to_nat 1)) (Z.to_nat 1)) with (0 + (0 + F (Y + 0) (X + 0))).
    rewrite !Z.add_0_r, !Z.add_0_l. rewrite !Z.shiftl_mul_pow2 by lia. change (2 ^ 3) with 8. rewrite (i16_id (F Y X)) by lia. rewrite i16_id by lia. lia.
  - change (negb (0 =? 0)) with false. change (negb (1 =? 0)) with true. cbv iota. change (3 - 1 - 0) with 2. change (0 + 1) with 1. change (1 + 1) with 2.
    change (Intra_spec.sum (fun dy => Intra_spec.sum (fun dx => F (Y + dy) (X + dx)) (Z.to_nat 2)) (Z.to_nat 1)) with (0 + (0 + F (Y + 0) (X + 0) + F (Y + 0) (X + 1))).
    rewrite !Z.add_0_r, !Z.add_0_l. rewrite !Z.shiftl_mul_pow2 by lia. change (2 ^ 2) with 4. rewrite (i16_id (F Y X)), (i16_id (F Y (X + 1))) by lia. rewrite (i16_id (_ + _)) by lia. rewrite i16_id by lia. lia.
  - change (negb (1 =? 0)) with true. cbv iota. change (3 - 1 - 1) with 1. change (1 + 1) with 2.
    change (Intra_spec.sum (fun dy => Intra_spec.sum (fun dx => F (Y + dy) (X + dx)) (Z.to_nat 2)) (Z.to_nat 2)) with (0 + (0 + F (Y + 0) (X + 0) + F (Y + 0) (X + 1)) + (0 + F (Y + 1) (X + 0) + F (Y + 1) (X + 1))).
    rewrite !Z.add_0_r, !Z.add_0_l. rewrite !Z.shiftl_mul_pow2 by lia. change (2 ^ 1) with 2. rewrite (i16_id (F Y X)), (i16_id (F Y (X + 1))), (i16_id (F (Y + 1) X)), (i16_id (F (Y + 1) (X + 1))) by lia.
    rewrite (i16_id (F Y X + F Y (X + 1))), (i16_id (F (Y + 1) X + F (Y + 1) (X + 1))) by lia. rewrite (i16_id (_ + _ + _)) by lia. rewrite i16_id by lia. lia.
Qed.
Section Cfl.
Variables (tb bd xdec ydec fw fh x y bw bh tw th : Z) (Luma : Z -> Z -> Z).
Hypotheses (Hbd : 8 <= bd <= 12) (Htb : bd <= tb) (Hsub : xdec = 0 -> ydec = 0).
Hypotheses (DX : dim xdec fw x bw tw) (DY : dim ydec fh y bh th).
Hypothesis HL : forall r c, inr bd (Luma r c).
Let pw := chroma_size xdec bw.
Let ph := chroma_size ydec bh.
Let sx := chroma_start xdec x.
Let sy := chroma_start ydec y.
Let luma (r c : Z) : Z := Luma (luma_start ydec y bh + r) (luma_start xdec x bw + c).
Let w_pad := luma_pad xdec fw x bw tw.
Let h_pad := luma_pad ydec fh y bh th.
Let ML := Intra_spec.MaxLuma fw fh x y bw bh tw th.
Let L := Intra_spec.cfl_L xdec ydec sx sy (fst ML) (snd ML) Luma.

Lemma chroma_sizes dec b : dec = 0 \/ dec = 1 -> In b sizes -> In (chroma_size dec b) sizes.
Proof. intros D B. cbn in B. destruct D as [-> | ->], B as [<-|[<-|[<-|[<-|[<-|[]]]]]]; vm_compute; auto 10. Qed.
Lemma pow12 : 2 ^ bd <= 4096.
Proof. change 4096 with (2 ^ 12). apply Z.pow_le_mono_r; lia. Qed.
Lemma ML_eq : fst ML = x + blocks_in fw x tw (bw / tw) * tw /\ snd ML = y + blocks_in fh y th (bh / th) * th.
Proof.
  unfold ML. destruct DX as [D B T Le F P A C], DY as [D' B' T' Le' F' P' A' C']. pose proof (size_range tw T). pose proof (size_range th T').
  rewrite max_luma_eq; [auto|clear - H; lia|clear - H0; lia|apply P|apply P'|apply size_div; auto|apply size_div; auto].
Qed.
Lemma sample_eq i j : 0 <= i < ph -> 0 <= j < pw -> cfl_sample xdec ydec pw ph w_pad h_pad luma i j = L i j /\ 0 <= L i j <= 32760.
Proof.
  intros Hi Hj. destruct (luma_dim _ _ _ _ _ DX) as (X1 & X2 & X3). destruct (luma_dim _ _ _ _ _ DY) as (Y1 & Y2 & Y3). destruct ML_eq as [M1 M2].
  fold pw sx w_pad in X1, X2, X3. fold ph sy h_pad in Y1, Y2, Y3. rewrite <- M1 in X2. rewrite <- M2 in Y2.
  unfold cfl_sample, cfl_max_x, cfl_max_y, L, Intra_spec.cfl_L, luma. cbv zeta. rewrite X1, Y1.
  set (mw := Z.shiftl (pw - w_pad * 4) xdec) in *. set (mh := Z.shiftl (ph - h_pad * 4) ydec) in *. clearbody mw mh.
  assert (EX : Z.shiftl sx xdec + Z.min (Z.shiftl j xdec) (Z.max mw 8 - Z.shiftl 1 xdec) = Z.min (Z.shiftl (sx + j) xdec) (fst ML - Z.shiftl 1 xdec)).
  { clear - X2 X3 DX Hj. destruct DX as [[-> | ->] _ _ _ _ _ _ _]; rewrite !Z.shiftl_mul_pow2 in * by lia; [change (2 ^ 0) with 1 in *|change (2 ^ 1) with 2 in *]; lia. }
  assert (EY : Z.shiftl sy ydec + Z.min (Z.shiftl i ydec) (Z.max mh 8 - Z.shiftl 1 ydec) = Z.min (Z.shiftl (sy + i) ydec) (snd ML - Z.shiftl 1 ydec)).
  { clear - Y2 Y3 DY Hi. destruct DY as [[-> | ->] _ _ _ _ _ _ _]; rewrite !Z.shiftl_mul_pow2 in * by lia; [change (2 ^ 0) with 1 in *|change (2 ^ 1) with 2 in *]; lia. }
  rewrite !Z.add_assoc, EX, EY. set (X := Z.min (Z.shiftl (sx + j) xdec) (fst ML - Z.shiftl 1 xdec)) in *. set (Y := Z.min (Z.shiftl (sy + i) ydec) (snd ML - Z.shiftl 1 ydec)) in *.
  pose proof pow12 as P12. pose proof (HL Y X) as L00. pose proof (HL Y (X + 1)) as L01. pose proof (HL (Y + 1) X) as L10. pose proof (HL (Y + 1) (X + 1)) as L11. unfold inr in *.
  assert (D : (xdec = 0 /\ ydec = 0) \/ (xdec = 1 /\ ydec = 0) \/ (xdec = 1 /\ ydec = 1)).
  { clear - DX DY Hsub. pose proof (d_dec _ _ _ _ _ DX). pose proof (d_dec _ _ _ _ _ DY). lia. }
  clearbody X Y. clear - P12 L00 L01 L10 L11 D. apply sample_math; auto; lia.
Qed.
Lemma pw_size : In pw sizes. Proof. apply chroma_sizes; [apply DX|apply DX]. Qed.
Lemma ph_size : In ph sizes. Proof. apply chroma_sizes; [apply DY|apply DY]. Qed.
Lemma average_eq : cfl_average xdec ydec pw ph w_pad h_pad luma = Intra_spec.cfl_avg pw ph xdec ydec sx sy (fst ML) (snd ML) Luma /\
  0 <= Intra_spec.cfl_avg pw ph xdec ydec sx sy (fst ML) (snd ML) Luma <= 32760.
Proof.
  pose proof pw_size as Pw. pose proof ph_size as Ph. pose proof (size_range pw Pw) as Rw. pose proof (size_range ph Ph) as Rh.
  assert (E : cfl_sum xdec ydec pw ph w_pad h_pad luma = Intra_spec.sum (fun i => Intra_spec.sum (fun j => L i j) (Z.to_nat pw)) (Z.to_nat ph)).
  { unfold cfl_sum. rewrite fold_plus. rewrite <- sum_rows by lia. replace (Z.to_nat (pw * ph)) with (Z.to_nat ph * Z.to_nat pw)%nat by (rewrite Z.mul_comm; symmetry; apply Z2Nat.inj_mul; lia).
    apply sum_ext. intros k Hk. rewrite !Z2Nat.id by lia. rewrite Nat2Z.inj_mul, !Z2Nat.id in Hk by lia.
    apply sample_eq; [split; [apply Z.div_pos; lia|apply Z.div_lt_upper_bound; lia]|apply Z.mod_pos_bound; lia]. }
  assert (R : 0 <= Intra_spec.sum (fun i => Intra_spec.sum (fun j => L i j) (Z.to_nat pw)) (Z.to_nat ph) <= (pw * ph) * 32760).
  { pose proof (sum_bounds (fun i => Intra_spec.sum (fun j => L i j) (Z.to_nat pw)) (Z.to_nat ph) (pw * 32760)) as K. rewrite Z2Nat.id in K by lia.
    replace (pw * ph * 32760) with (ph * (pw * 32760)) by ring. apply K. intros k Hk. pose proof (sum_bounds (fun j => L k j) (Z.to_nat pw) 32760) as K'. rewrite Z2Nat.id in K' by lia. apply K'. intros j Hj. apply sample_eq; lia. }
  unfold cfl_average, Intra_spec.cfl_avg, Intra_spec.Round2. cbv zeta. rewrite E. fold L.
  assert (LG : 2 <= Z.log2 pw /\ 2 <= Z.log2 ph /\ 2 ^ (Z.log2 pw + Z.log2 ph) = pw * ph).
  { assert (G : forall n, In n sizes -> 2 <= Z.log2 n /\ 2 ^ Z.log2 n = n) by (intros n N; cbn in N; destruct N as [<-|[<-|[<-|[<-|[<-|[]]]]]]; vm_compute; (split; [discriminate|reflexivity])).
    destruct (G pw Pw) as [G1 G2], (G ph Ph) as [G3 G4]. rewrite Z.pow_add_r, G2, G4 by lia. auto. }
  destruct LG as (G1 & G2 & G3). replace (Z.log2 pw + Z.log2 ph =? 0) with false by lia.
  destruct (shr_range (Intra_spec.sum (fun i => Intra_spec.sum (fun j => L i j) (Z.to_nat pw)) (Z.to_nat ph)) (Z.log2 pw + Z.log2 ph) 32761) as [Q|Q]; [lia|lia|rewrite G3; exact R| |lia].
  change (Intra_spec.cfl_L xdec ydec sx sy (fst ML) (snd ML) Luma) with L. rewrite i16_id by lia. split; [reflexivity|lia].
Qed.
(* the rounding of the scaled value *)
Lemma scaled_eq a v : get_scaled_luma_q0 a v = Intra_spec.Round2Signed (a * v) 6.
Proof.
  unfold get_scaled_luma_q0, Intra_spec.Round2Signed, Intra_spec.Round2. cbn [Z.eqb]. change (Z.shiftl 1 (6 - 1)) with 32.
  destruct (Z.ltb_spec (a * v) 0); [rewrite Z.abs_neq by lia|rewrite Z.abs_eq by lia]; reflexivity.
Qed.
Theorem cfl_sound alpha dc i j : alpha <> 0 -> 0 <= i < ph -> 0 <= j < pw ->
  pred_cfl_inner tb bd pw dc alpha (pred_cfl_ac xdec ydec pw ph w_pad h_pad luma) i j =
    Some (Intra_spec.predict_chroma_from_luma bd pw ph xdec ydec sx sy (fst ML) (snd ML) Luma alpha dc i j).
Proof.
  intros Ha Hi Hj. unfold pred_cfl_inner. replace (alpha =? 0) with false by lia. pose proof (size_range pw pw_size) as Rw.
  assert (I : 0 <= i * pw + j < pw * ph). { split; [apply Z.add_nonneg_nonneg; [apply Z.mul_nonneg_nonneg|]; lia|]. assert (i * pw <= (ph - 1) * pw) by (apply Z.mul_le_mono_nonneg_r; lia). lia. }
  rewrite rd_some by exact I. cbn [obind pred_cfl_ac s_at].
  rewrite (Z.add_comm _ j), Z.div_add, Z.mod_add by lia. rewrite Z.div_small, Z.mod_small, Z.add_0_l by lia.
  destruct (sample_eq i j Hi Hj) as [E1 R1]. destruct average_eq as [E2 R2]. rewrite E1, E2, i16_id by lia. unfold Intra_spec.predict_chroma_from_luma. fold L. rewrite scaled_eq. f_equal.
  set (v := dc + Intra_spec.Round2Signed (alpha * (L i j - Intra_spec.cfl_avg pw ph xdec ydec sx sy (fst ML) (snd ML) Luma)) 6).
  unfold clamp, sample_max, Intra_spec.Clip1, Intra_spec.Clip3. pose proof (Z.pow_pos_nonneg 2 bd).
  rewrite (cast_id tb bd) by lia. destruct (Z.ltb_spec v 0), (Z.ltb_spec (2 ^ bd - 1) v); lia.
Qed.
End Cfl.

(** ** The choice of the edge filter *)
Lemma land1_odd v : (Z.land v 1 =? 1) = Z.odd v /\ (Z.land v 1 =? 0) = Z.even v.
Proof. change 1 with (Z.ones 1) at 1 3. rewrite Z.land_ones by lia. change (2 ^ 1) with 2. rewrite Zmod_odd, <- Z.negb_odd. destruct (Z.odd v); auto. Qed.

Section Filter.
Variables (coded : Z -> Z -> block_info) (YMode UVMode : Z -> Z -> Intra_spec.mode) (Inter : Z -> Z -> bool) (RowStart ColStart : Z).
Definition agrees (m : option pmode) (s : Intra_spec.mode) : Prop :=
  match m with Some p => s = tmode p | None => Intra_spec.smooth_mode s = false end.
Hypothesis HY : forall r c, agrees (luma_mode (coded r c)) (YMode (RowStart + r) (ColStart + c)).
Hypothesis HU : forall r c, agrees (chroma_mode (coded r c)) (UVMode (RowStart + r) (ColStart + c)).
Hypothesis HI : forall r c, Inter (RowStart + r) (ColStart + c) = negb (ref0_intra (coded r c)).
Lemma agrees_smooth m s : agrees m s -> smooth_pmode m = Intra_spec.smooth_mode s.
Proof. destruct m as [p|]; cbn; [intros ->; destruct p; reflexivity|congruence]. Qed.
Lemma side_eq plane r c : side_smooth plane (Some (coded r c)) = Intra_spec.is_smooth YMode UVMode Inter plane (RowStart + r) (ColStart + c).
Proof.
  unfold side_smooth, Intra_spec.is_smooth. rewrite HI, <- (agrees_smooth _ _ (HY r c)), <- (agrees_smooth _ _ (HU r c)).
  destruct (plane =? 0); cbn [orb]; [apply andb_true_r|]. destruct (ref0_intra (coded r c)); cbn [negb]; [apply andb_true_r|apply andb_false_r].
Qed.
Theorem filter_type_sound plane sx sy MiRow MiCol bh4 bw4 : 0 <= plane ->
  (sx = 0 \/ sx = 1) -> (sy = 0 \/ sy = 1) -> RowStart mod 2 = 0 -> ColStart mod 2 = 0 -> RowStart <= MiRow -> ColStart <= MiCol ->
  (0 < plane -> sy = 1 -> (Z.odd MiRow = true <-> bh4 = 1)) -> (0 < plane -> sx = 1 -> (Z.odd MiCol = true <-> bw4 = 1)) ->
  smooth_filter coded plane sx sy (MiRow - RowStart) (MiCol - ColStart) =
    Intra_spec.get_filter_type YMode UVMode Inter plane sx sy MiRow MiCol
      (if (0 <? plane) && (sy =? 1) && (bh4 =? 1) then RowStart <=? MiRow - 2 else RowStart <=? MiRow - 1)
      (if (0 <? plane) && (sx =? 1) && (bw4 =? 1) then ColStart <=? MiCol - 2 else ColStart <=? MiCol - 1).
Proof.
  intros Hp Hx Hy R2 C2 Rr Cc Ob Ow. unfold smooth_filter, Intra_spec.get_filter_type.
  assert (Or : Z.odd (MiRow - RowStart) = Z.odd MiRow) by (rewrite Z.odd_sub, (Zmod_odd RowStart) in *; destruct (Z.odd RowStart), (Z.odd MiRow); [discriminate|discriminate|reflexivity|reflexivity]).
  assert (Oc : Z.odd (MiCol - ColStart) = Z.odd MiCol) by (rewrite Z.odd_sub, (Zmod_odd ColStart) in *; destruct (Z.odd ColStart), (Z.odd MiCol); [discriminate|discriminate|reflexivity|reflexivity]).
  assert (Rb : RowStart mod 2 = 0 -> Z.odd MiRow = true -> RowStart <= MiRow - 1).
  { intros _ O. destruct (Z.eq_dec RowStart MiRow) as [E|]; [|lia]. rewrite Zmod_odd, E, O in R2. discriminate. }
  assert (Cb : Z.odd MiCol = true -> ColStart <= MiCol - 1).
  { intros O. destruct (Z.eq_dec ColStart MiCol) as [E|]; [|lia]. rewrite Zmod_odd, E, O in C2. discriminate. }
  specialize (Rb R2).
  assert (GA : forall dx dy (r c : Z) av, (dx = 0 \/ dx = 1) -> (dy = 0 \/ dy = 1) -> r = (if (dy =? 1) && Z.odd MiRow then MiRow - 2 else MiRow - 1) ->
    c = (if (dx =? 1) && Z.even MiCol then MiCol + 1 else MiCol) -> av = (RowStart <=? r) ->
    side_smooth plane (above_block_info coded dx dy (MiRow - RowStart) (MiCol - ColStart)) = if av then Intra_spec.is_smooth YMode UVMode Inter plane r c else false).
  { intros dx dy r c av Dx Dy -> -> ->. unfold above_block_info. cbv zeta. destruct (land1_odd (MiRow - RowStart)) as [-> _]. destruct (land1_odd (MiCol - ColStart)) as [_ ->].
    rewrite <- (Z.negb_odd (MiCol - ColStart)), <- (Z.negb_odd MiCol), Or, Oc.
    set (q := if Z.odd MiRow then MiRow - RowStart - dy else MiRow - RowStart). set (c := if negb (Z.odd MiCol) then MiCol - ColStart + dx else MiCol - ColStart).
    set (r := if (dy =? 1) && Z.odd MiRow then MiRow - 2 else MiRow - 1). 
    assert (E1 : r = RowStart + (q - 1)) by (unfold r, q; destruct Dy as [-> | ->], (Z.odd MiRow); cbn [Z.eqb Pos.eqb andb]; clear; lia).
    assert (E2 : (if (dx =? 1) && negb (Z.odd MiCol) then MiCol + 1 else MiCol) = ColStart + c) by (unfold c; destruct Dx as [-> | ->], (Z.odd MiCol); cbn [Z.eqb Pos.eqb andb negb]; clear; lia).
    assert (E3 : 0 <= q) by (unfold q; destruct Dy as [-> | ->], (Z.odd MiRow); try specialize (Rb eq_refl); clear - Rr Rb; lia).
    rewrite E1, E2, <- side_eq. clearbody q c. destruct (Z.eqb_spec q 0) as [->|]; [replace (RowStart <=? RowStart + (0 - 1)) with false by lia; reflexivity|].
    replace (RowStart <=? RowStart + (q - 1)) with true by lia. reflexivity. }
  assert (GL : forall dx dy (r c : Z) av, (dx = 0 \/ dx = 1) -> (dy = 0 \/ dy = 1) -> r = (if (dy =? 1) && Z.even MiRow then MiRow + 1 else MiRow) ->
    c = (if (dx =? 1) && Z.odd MiCol then MiCol - 2 else MiCol - 1) -> av = (ColStart <=? c) ->
    side_smooth plane (left_block_info coded dx dy (MiRow - RowStart) (MiCol - ColStart)) = if av then Intra_spec.is_smooth YMode UVMode Inter plane r c else false).
  { intros dx dy r c av Dx Dy -> -> ->. unfold left_block_info. cbv zeta. destruct (land1_odd (MiRow - RowStart)) as [_ ->]. destruct (land1_odd (MiCol - ColStart)) as [-> _].
    rewrite <- (Z.negb_odd (MiRow - RowStart)), <- (Z.negb_odd MiRow), Or, Oc.
    set (q := if Z.odd MiCol then MiCol - ColStart - dx else MiCol - ColStart). set (c := if negb (Z.odd MiRow) then MiRow - RowStart + dy else MiRow - RowStart).
    set (r := if (dx =? 1) && Z.odd MiCol then MiCol - 2 else MiCol - 1). 
    assert (E1 : r = ColStart + (q - 1)) by (unfold r, q; destruct Dx as [-> | ->], (Z.odd MiCol); cbn [Z.eqb Pos.eqb andb]; clear; lia).
    assert (E2 : (if (dy =? 1) && negb (Z.odd MiRow) then MiRow + 1 else MiRow) = RowStart + c) by (unfold c; destruct Dy as [-> | ->], (Z.odd MiRow); cbn [Z.eqb Pos.eqb andb negb]; clear; lia).
    assert (E3 : 0 <= q) by (unfold q; destruct Dx as [-> | ->], (Z.odd MiCol); try specialize (Cb eq_refl); clear - Cc Cb; lia).
    rewrite E1, E2, <- side_eq. clearbody q c. destruct (Z.eqb_spec q 0) as [->|]; [replace (ColStart <=? ColStart + (0 - 1)) with false by lia; reflexivity|].
    replace (ColStart <=? ColStart + (q - 1)) with true by lia. reflexivity. }
  destruct (Z.eqb_spec plane 0) as [P0|P0].
  - subst plane. cbn [Z.ltb Z.compare andb]. unfold use_smooth_filter. f_equal; [eapply GA|eapply GL]; auto.
  - replace (0 <? plane) with true by lia. cbn [andb]. unfold use_smooth_filter. f_equal; [eapply GA|eapply GL]; auto.
    + destruct Hy as [-> | ->]; cbn [Z.eqb Pos.eqb andb]; [reflexivity|]. specialize (Ob ltac:(lia) eq_refl). destruct (Z.eqb_spec bh4 1), (Z.odd MiRow); auto; exfalso; [assert (false = true) by tauto; discriminate|tauto].
    + destruct Hx as [-> | ->]; cbn [Z.eqb Pos.eqb andb]; [reflexivity|]. specialize (Ow ltac:(lia) eq_refl). destruct (Z.eqb_spec bw4 1), (Z.odd MiCol); auto; exfalso; [assert (false = true) by tauto; discriminate|tauto].
Qed.
End Filter.
