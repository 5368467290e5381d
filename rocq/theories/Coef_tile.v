(** All the blocks of a tile: the contexts kept by the encoder and by the decoder. *)
From Verif Require Import Coef_model Coef_spec Quant_scan Coef_proof Coef_levels Coef_loops Coef_block.
Open Scope Z_scope.
Open Scope list_scope.

(** ** Blocks that can occur *)
(** a transform block inside a tile: it starts inside the frame, does not leave its
    superblock downwards, and chroma blocks start at even positions in the
    subsampled directions *)
Definition legal_tx (W H xd yd s : Z) (reduced : bool) (b : tblock) : Prop :=
  legal_coeffs reduced b /\ tb_plane b <= 2 /\ 0 <= tb_x b < W /\ 0 <= tb_y b < H /\ tb_y b / 16 = s /\
  (tb_plane b <> 0 -> xd = 1 -> tb_x b mod 2 = 0) /\ (tb_plane b <> 0 -> yd = 1 -> tb_y b mod 2 = 0) /\
  y_in_sb (tb_y b) / 2 ^ dec_of yd (tb_plane b) + 2 ^ (snd (dims_of b) - 2) <= 16 / 2 ^ dec_of yd (tb_plane b).
(** a block without coefficients; where chroma is subsampled it is either one unit
    wide or aligned *)
Definition legal_sk (xd yd s : Z) (b : skblock) : Prop :=
  0 <= sk_x b /\ 1 <= sk_w b /\ 1 <= sk_h b /\ 0 <= sk_y b /\ sk_y b / 16 = s /\ y_in_sb (sk_y b) + sk_h b <= 16 /\
  (sk_chroma b = true -> xd = 1 -> sk_w b = 1 \/ (sk_x b mod 2 = 0 /\ sk_w b mod 2 = 0)) /\
  (sk_chroma b = true -> yd = 1 -> sk_h b = 1 \/ (sk_y b mod 2 = 0 /\ sk_h b mod 2 = 0)).
Definition legal_item (W H xd yd s : Z) (reduced : bool) (i : titem) : Prop :=
  match i with TTx b => legal_tx W H xd yd s reduced b | TSkip b => legal_sk xd yd s b end.
Fixpoint legal_rows (W H xd yd s : Z) (reduced : bool) (rows : list (list titem)) : Prop :=
  match rows with
  | [] => True
  | r :: rows => Forall (legal_item W H xd yd s reduced) r /\ legal_rows W H xd yd (s + 1) reduced rows
  end.
(** what the decoder knows beforehand, and what it should find *)
Definition skgeom_of (b : skblock) : skgeom :=
  {| k_x := sk_x b; k_y := sk_y b; k_w := sk_w b; k_h := sk_h b; k_chroma := sk_chroma b |}.
Definition gitem_of (i : titem) : gitem := match i with TTx b => GTx (geom_of b) | TSkip b => GSkip (skgeom_of b) end.
Definition found_in (l : list titem) : list found :=
  flat_map (fun i => match i with TTx b => [expected b] | TSkip _ => [] end) l.

(** ** The contexts *)
Definition agree_above (c : cctx) (d : dctx) : Prop :=
  forall p j, 0 <= p -> cc_above c p j = enc (dc_above d p j) /\ okctx (dc_above d p j).
Definition agree_left (yd s : Z) (c : cctx) (d : dctx) : Prop :=
  forall p j, 0 <= p -> 0 <= j < 16 / 2 ^ dec_of yd p ->
    cc_left c p j = enc (dc_left d p (16 * s / 2 ^ dec_of yd p + j)) /\ okctx (dc_left d p (16 * s / 2 ^ dec_of yd p + j)).

Lemma sub_dec d p : 0 <= p -> sub d p = dec_of d p.
Proof. intros H. unfold sub, dec_of. destruct (0 <? p) eqn:Q, (p =? 0) eqn:Q'; try reflexivity; lia. Qed.
Lemma dec_01 d p : d = 0 \/ d = 1 -> dec_of d p = 0 \/ (dec_of d p = 1 /\ p <> 0 /\ d = 1).
Proof. intros [->| ->]; unfold dec_of; destruct (p =? 0) eqn:Q; try (left; reflexivity). right. lia. Qed.
Lemma shr_div x e : 0 <= e -> Z.shiftr x e = x / 2 ^ e.
Proof. intros H. apply Z.shiftr_div_pow2, H. Qed.

Lemma inside_map a p x4 n m : x4 < m -> 0 <= n ->
  inside a p x4 n m = map (fun k => a p (x4 + k)) (upto (Z.min n (m - x4))).
Proof.
  intros Hm Hn. unfold inside, upto. rewrite flat_map_concat_map, !map_map.
  assert (G : forall k s, Z.of_nat s + Z.of_nat k = n ->
    concat (map (fun x => if x4 + Z.of_nat x <? m then [a p (x4 + Z.of_nat x)] else []) (seq s k))
    = map (fun x => a p (x4 + Z.of_nat x)) (seq s (Z.to_nat (Z.min n (m - x4) - Z.of_nat s)))).
  { induction k as [|k IH]; intros s Hs; cbn [seq map concat].
    - replace (Z.to_nat (Z.min n (m - x4) - Z.of_nat s)) with O by lia. reflexivity.
    - rewrite IH by lia. destruct (x4 + Z.of_nat s <? m) eqn:Q.
      + replace (Z.to_nat (Z.min n (m - x4) - Z.of_nat s)) with (S (Z.to_nat (Z.min n (m - x4) - Z.of_nat (S s)))) by lia.
        reflexivity.
      + replace (Z.to_nat (Z.min n (m - x4) - Z.of_nat (S s))) with O by lia.
        replace (Z.to_nat (Z.min n (m - x4) - Z.of_nat s)) with O by lia. reflexivity. }
  specialize (G (Z.to_nat n) O ltac:(lia)). rewrite Z.sub_0_r in G. rewrite G. reflexivity.
Qed.
Lemma len_upto {A} (f : Z -> A) n m : n <= 16 -> zlen (map f (upto (Z.min n m))) <= 16.
Proof. intros H. unfold zlen, upto. rewrite !map_length, seq_length. lia. Qed.
Lemma slice_map a p i n : slice a p i n = map (fun k => a p (i + k)) (upto n).
Proof. unfold slice, upto. rewrite map_map. reflexivity. Qed.

(** units of 4 inside the frame *)
Lemma clip_units W x e wl : e = 0 \/ (e = 1 /\ W mod 2 = 0 /\ x mod 2 = 0) -> 0 <= x < W -> 2 <= wl ->
  Z.min ((W - x) * 4 / 2 ^ e) (2 ^ wl) / 4 = Z.min (2 ^ (wl - 2)) (Z.shiftr (W + e) e - Z.shiftr x e) /\
  Z.shiftr x e < Z.shiftr (W + e) e /\ 2 ^ wl / 4 = 2 ^ (wl - 2).
Proof.
  intros He Hx Hw. rewrite !shr_div by lia.
  assert (E : 2 ^ wl = 4 * 2 ^ (wl - 2)).
  { replace wl with (2 + (wl - 2)) at 1 by lia. rewrite Z.pow_add_r by lia. reflexivity. }
  rewrite E. set (p := 2 ^ (wl - 2)). clearbody p. clear E.
  destruct He as [->|[-> [H1 H2]]].
  - change (2 ^ 0) with 1. rewrite !Z.div_1_r. repeat split; dlia.
  - change (2 ^ 1) with 2. repeat split; dlia.
Qed.
Lemma sb_units y s e : e = 0 \/ e = 1 -> y / 16 = s -> Z.shiftr y e = 16 * s / 2 ^ e + y_in_sb y / 2 ^ e /\ 0 <= y_in_sb y / 2 ^ e.
Proof.
  intros He Hy. rewrite shr_div by lia. unfold y_in_sb.
  destruct He as [->| ->]; [change (2 ^ 0) with 1; rewrite !Z.div_1_r|change (2 ^ 1) with 2]; split; dlia.
Qed.

Lemma fill_above c d p x4 n v cx : agree_above c d -> v = enc cx -> okctx cx ->
  agree_above {| cc_above := fill (cc_above c) p x4 n v; cc_left := cc_left c |}
              {| dc_above := set_range (dc_above d) p x4 (x4 + n) cx; dc_left := dc_left d |}.
Proof.
  intros A -> O p' j Hp. cbn [cc_above dc_above]. unfold fill, set_range.
  destruct ((p' =? p) && (x4 <=? j) && (j <? x4 + n)); [split; [reflexivity|exact O]|]. apply A, Hp.
Qed.

Section Tile.
Variables W H xd yd : Z.
Variable reduced : bool.
Hypothesis Hxd : xd = 0 \/ xd = 1.
Hypothesis Hyd : yd = 0 \/ yd = 1.
Hypothesis HW : xd = 1 -> W mod 2 = 0.
Hypothesis HH : yd = 1 -> H mod 2 = 0.

Lemma fill_left s c d p a n cx k :
  agree_left yd s c d -> okctx cx -> 0 <= p ->
  k = 16 * s / 2 ^ dec_of yd p + a ->
  forall ca da, agree_left yd s {| cc_above := ca; cc_left := fill (cc_left c) p a n (enc cx) |}
    {| dc_above := da; dc_left := set_range (dc_left d) p k (k + n) cx |}.
Proof.
  intros A O Hp -> ca da p' j Hp' Hj. cbn [cc_left dc_left]. unfold fill, set_range.
  destruct (A p' j Hp' Hj) as [A1 A2].
  destruct (p' =? p) eqn:E; cbn [andb]; [|split; assumption].
  apply Z.eqb_eq in E. subst p'.
  set (b := 16 * s / 2 ^ dec_of yd p) in *.
  replace (b + a <=? b + j) with (a <=? j) by lia. replace (b + j <? b + a + n) with (j <? a + n) by lia.
  destruct ((a <=? j) && (j <? a + n)); split; assumption || reflexivity.
Qed.

Lemma tx_block_read s c d b : legal_tx W H xd yd s reduced b -> agree_above c d -> agree_left yd s c d ->
  exists e c' d', tx_block W H xd yd reduced c b = Some (e, c') /\ agree_above c' d' /\ agree_left yd s c' d' /\
    forall rest, read_tx_block W H xd yd reduced d (geom_of b) (e ++ rest) = Some ((expected b, d'), rest).
Proof.
  intros (LC & Hp2 & Hx & Hy & Hs & Ex & Ey & Hfit) AA AL.
  pose proof LC as (G & _ & Hty & Hp & _).
  assert (Ht : 0 <= tb_t b < 19) by (unfold good_size in G; lia).
  set (wl := fst (dims_of b)) in *. set (hl := snd (dims_of b)) in *.
  assert (Ed : nth_error tx_dims (Z.to_nat (tb_t b)) = Some (wl, hl)).
  { unfold wl, hl, dims_of. rewrite <- surjective_pairing. apply nth_error_nth'. change (length tx_dims) with 19%nat. lia. }
  destruct (dim_facts _ _ _ Ht Ed) as (Hwl & Hhl & E1 & _).
  set (p := tb_plane b) in *.
  assert (Cx : dec_of xd p = 0 \/ (dec_of xd p = 1 /\ W mod 2 = 0 /\ tb_x b mod 2 = 0)).
  { destruct (dec_01 xd p Hxd) as [E|[E [N D]]]; [left; exact E|right]. split; [exact E|split; [apply HW, D|apply Ex; assumption]]. }
  assert (Cy : dec_of yd p = 0 \/ (dec_of yd p = 1 /\ H mod 2 = 0 /\ tb_y b mod 2 = 0)).
  { destruct (dec_01 yd p Hyd) as [E|[E [N D]]]; [left; exact E|right]. split; [exact E|split; [apply HH, D|apply Ey; assumption]]. }
  assert (Cy' : dec_of yd p = 0 \/ dec_of yd p = 1) by (destruct Cy as [?|[? _]]; auto).
  assert (Px : 0 <= dec_of xd p) by (destruct Cx as [->|[-> _]]; discriminate).
  assert (Py : 0 <= dec_of yd p) by (destruct Cy' as [->| ->]; discriminate).
  destruct (clip_units W (tb_x b) _ wl Cx Hx (proj1 Hwl)) as (U1 & U2 & U3).
  destruct (clip_units H (tb_y b) _ hl Cy Hy (proj1 Hhl)) as (V1 & V2 & V3).
  destruct (sb_units (tb_y b) s _ Cy' Hs) as [S1 S2].
  clear Cx Cy Cy' Hxd Hyd HW HH Ex Ey.
  assert (Pw : 1 <= 2 ^ (wl - 2) <= 16).
  { split; [change 1 with (2 ^ 0)|change 16 with (2 ^ 4)]; apply Z.pow_le_mono_r; lia. }
  assert (Ph : 1 <= 2 ^ (hl - 2) <= 16).
  { split; [change 1 with (2 ^ 0)|change 16 with (2 ^ 4)]; apply Z.pow_le_mono_r; lia. }
  set (A := inside (dc_above d) p (Z.shiftr (tb_x b) (dec_of xd p)) (2 ^ (wl - 2)) (Z.shiftr (W + dec_of xd p) (dec_of xd p))).
  set (L := inside (dc_left d) p (Z.shiftr (tb_y b) (dec_of yd p)) (2 ^ (hl - 2)) (Z.shiftr (H + dec_of yd p) (dec_of yd p))).
  assert (EA : A = map (fun k => dc_above d p (Z.shiftr (tb_x b) (dec_of xd p) + k)) (upto (Z.min (2 ^ (wl - 2)) (Z.shiftr (W + dec_of xd p) (dec_of xd p) - Z.shiftr (tb_x b) (dec_of xd p)))))
    by (apply inside_map; [assumption|clear - Pw Ph; lia]).
  assert (EL : L = map (fun k => dc_left d p (Z.shiftr (tb_y b) (dec_of yd p) + k)) (upto (Z.min (2 ^ (hl - 2)) (Z.shiftr (H + dec_of yd p) (dec_of yd p) - Z.shiftr (tb_y b) (dec_of yd p)))))
    by (apply inside_map; [assumption|clear - Pw Ph; lia]).
  assert (LA : zlen A <= 16) by (rewrite EA; apply len_upto, Pw).
  assert (LL : zlen L <= 16) by (rewrite EL; apply len_upto, Ph).
  assert (FA : Forall okctx A).
  { rewrite EA. apply Forall_forall. intros x I. apply in_map_iff in I. destruct I as [k [<- I]]. apply AA, Hp. }
  assert (FL : Forall okctx L).
  { rewrite EL. apply Forall_forall. intros x I. apply in_map_iff in I. destruct I as [k [<- I]]. apply in_upto in I.
    rewrite S1. rewrite <- Z.add_assoc. apply AL; [exact Hp|].
    clear - Hfit S2 I. lia. }
  destruct (block_read reduced b A L LC LA LL FA FL) as (e & cx & We & Ocx & Re).
  unfold tx_block. fold p. rewrite E1. cbn [fst snd].
  rewrite U1, V1, !slice_map, U3, V3.
  assert (MA : map (fun k => cc_above c p (tb_x b / 2 ^ dec_of xd p + k)) (upto (Z.min (2 ^ (wl - 2)) (Z.shiftr (W + dec_of xd p) (dec_of xd p) - Z.shiftr (tb_x b) (dec_of xd p)))) = map enc A).
  { rewrite EA, map_map. apply map_ext. intros k. rewrite <- shr_div by exact Px. apply AA, Hp. }
  assert (ML : map (fun k => cc_left c p (y_in_sb (tb_y b) / 2 ^ dec_of yd p + k)) (upto (Z.min (2 ^ (hl - 2)) (Z.shiftr (H + dec_of yd p) (dec_of yd p) - Z.shiftr (tb_y b) (dec_of yd p)))) = map enc L).
  { rewrite EL, map_map. apply map_ext_in. intros k I. apply in_upto in I.
    assert (J : 0 <= y_in_sb (tb_y b) / 2 ^ dec_of yd p + k < 16 / 2 ^ dec_of yd p) by (clear - Hfit S2 I; lia).
    rewrite S1, <- Z.add_assoc. apply AL; [exact Hp|exact J]. }
  rewrite MA, ML, We. cbn [fst snd].
  exists e. eexists. exists {| dc_above := set_range (dc_above d) p (Z.shiftr (tb_x b) (dec_of xd p)) (Z.shiftr (tb_x b) (dec_of xd p) + 2 ^ (wl - 2)) cx;
     dc_left := set_range (dc_left d) p (Z.shiftr (tb_y b) (dec_of yd p)) (Z.shiftr (tb_y b) (dec_of yd p) + 2 ^ (hl - 2)) cx |}.
  split; [reflexivity|]. split; [|split].
  - rewrite <- (shr_div (tb_x b)) by exact Px.
    intros p' j Hp'. apply (fill_above c d p (Z.shiftr (tb_x b) (dec_of xd p)) (2 ^ (wl - 2)) (enc cx) cx AA eq_refl Ocx p' j Hp').
  - apply fill_left; assumption.
  - intros rest. unfold read_tx_block. cbn [geom_of g_plane g_x g_y g_wl g_hl]. fold p wl hl.
    rewrite !sub_dec by exact Hp. fold A L. unfold bind. fold (geom_of b).
    change (geom_of b) with (geom_of b) in Re. unfold geom_of in Re. fold p wl hl in Re. rewrite Re. reflexivity.
Qed.

Lemma reset_agree s b ps : legal_sk xd yd s b -> (forall p, In p ps -> 0 <= p /\ (p <> 0 -> sk_chroma b = true)) ->
  forall c d, agree_above c d -> agree_left yd s c d ->
  agree_above (fold_left (reset_plane xd yd b) ps c) (fold_left (reset_one xd yd (skgeom_of b)) ps d) /\
  agree_left yd s (fold_left (reset_plane xd yd b) ps c) (fold_left (reset_one xd yd (skgeom_of b)) ps d).
Proof.
  intros (Hx & Hw & Hh & Hy & Hs & Hfit & Cx & Cy). induction ps as [|p ps IH]; intros Hps c d AA AL; cbn [fold_left].
  { split; assumption. }
  destruct (Hps p (or_introl eq_refl)) as [Hp Hc].
  assert (O0 : okctx (0, 0)) by (split; cbn; lia).
  assert (Ux : Z.shiftr (sk_x b + sk_w b - 1) (dec_of xd p) + 1 = Z.shiftr (sk_x b) (dec_of xd p) + sub_units (sk_w b) (dec_of xd p) /\ 0 <= dec_of xd p).
  { unfold sub_units. destruct (dec_01 xd p Hxd) as [E|[E [N D]]]; rewrite E; rewrite !shr_div by lia.
    - change (2 ^ 0) with 1. rewrite !Z.div_1_r. split; lia.
    - change (2 ^ 1) with 2. destruct (Cx (Hc N) D) as [E1|[E1 E2]]; [rewrite E1|]; split; try lia; dlia. }
  assert (Uy : Z.shiftr (sk_y b + sk_h b - 1) (dec_of yd p) + 1 = Z.shiftr (sk_y b) (dec_of yd p) + sub_units (sk_h b) (dec_of yd p)).
  { unfold sub_units. destruct (dec_01 yd p Hyd) as [E|[E [N D]]]; rewrite E; rewrite !shr_div by lia.
    - change (2 ^ 0) with 1. rewrite !Z.div_1_r. lia.
    - change (2 ^ 1) with 2. destruct (Cy (Hc N) D) as [E1|[E1 E2]]; [rewrite E1|]; dlia. }
  destruct Ux as [Ux Px].
  assert (Cy' : dec_of yd p = 0 \/ dec_of yd p = 1) by (destruct (dec_01 yd p Hyd) as [?|[? _]]; auto).
  destruct (sb_units (sk_y b) s _ Cy' Hs) as [S1 S2].
  apply IH; [intros q I; apply Hps; right; exact I| |].
  - unfold reset_plane, reset_one, skgeom_of. cbn [k_x k_y k_w k_h]. rewrite !sub_dec by exact Hp. rewrite Ux, Uy.
    rewrite <- (shr_div (sk_x b)) by exact Px.
    intros p' j Hp'. apply (fill_above c d p _ _ 0 (0, 0) AA eq_refl O0 p' j Hp').
  - unfold reset_plane, reset_one, skgeom_of. cbn [k_x k_y k_w k_h]. rewrite !sub_dec by exact Hp. rewrite Ux, Uy.
    exact (fill_left s c d p _ _ (0, 0) _ AL O0 Hp S1 _ _).
Qed.

Lemma items_read s l : Forall (legal_item W H xd yd s reduced) l -> forall c d, agree_above c d -> agree_left yd s c d ->
  exists e c' d', encode_items W H xd yd reduced c l = Some (e, c') /\ agree_above c' d' /\
    forall rest, read_items W H xd yd reduced d (map gitem_of l) (e ++ rest) = Some ((found_in l, d'), rest).
Proof.
  induction 1 as [|i l Hi _ IH]; intros c d AA AL.
  - exists [], c, d. split; [reflexivity|]. split; [exact AA|]. reflexivity.
  - destruct i as [b|b]; cbn [legal_item] in Hi; cbn [encode_items map gitem_of read_items].
    + destruct (tx_block_read s c d b Hi AA AL) as (e & c1 & d1 & Ee & A1 & L1 & R1). rewrite Ee. cbn [fst snd].
      destruct (IH c1 d1 A1 L1) as (e2 & c2 & d2 & Ee2 & A2 & R2). rewrite Ee2. cbn [fst snd].
      exists (e ++ e2), c2, d2. split; [reflexivity|]. split; [exact A2|]. intros rest.
      rewrite <- app_assoc. unfold bind. rewrite R1. cbn [fst snd]. rewrite R2. reflexivity.
    + destruct (reset_agree s b (if sk_chroma b then [0; 1; 2] else [0]) Hi) with (c := c) (d := d) as [A1 L1]; try assumption.
      { intros p I. destruct (sk_chroma b); cbn [In] in I; [|destruct I as [<-|[]]; split; [lia|intros C; lia]].
        split; [|reflexivity]. destruct I as [<-|[<-|[<-|[]]]]; lia. }
      destruct (IH _ _ A1 L1) as (e2 & c2 & d2 & Ee2 & A2 & R2).
      exists e2, c2, d2. split; [exact Ee2|]. split; [exact A2|]. exact R2.
Qed.

Lemma rows_read rows : forall s c d, legal_rows W H xd yd s reduced rows -> agree_above c d ->
  reads (read_rows W H xd yd reduced d (map (map gitem_of) rows)) (encode_rows W H xd yd reduced c rows) (map found_in rows).
Proof.
  induction rows as [|r rows IH]; intros s c d L AA; cbn [legal_rows encode_rows map read_rows] in *.
  - apply reads_ret.
  - destruct L as [L1 L2].
    destruct (items_read s r L1 {| cc_above := cc_above c; cc_left := fun _ _ => 0 |} {| dc_above := dc_above d; dc_left := fun _ _ => (0, 0) |})
      as (e & c' & d' & Ee & A & R).
    { exact AA. }
    { intros p j _ _. split; [reflexivity|]. split; cbn; lia. }
    rewrite Ee. unfold wbind. cbn [fst snd].
    apply reads_bind with (a := (found_in r, d')); [exists e; split; [reflexivity|exact R]|]. cbv beta. cbn [fst snd].
    eapply reads_last with (f := fun y => found_in r :: y). apply (IH (s + 1)); assumption.
Qed.

Lemma tile_read rows : legal_rows W H xd yd 0 reduced rows ->
  reads (read_tile W H xd yd reduced (map (map gitem_of) rows)) (encode_tile W H xd yd reduced rows) (map found_in rows).
Proof.
  intros L. apply (rows_read rows 0); [exact L|]. intros p j _. split; [reflexivity|]. split; cbn; lia.
Qed.
End Tile.
