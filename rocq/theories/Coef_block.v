(** A transform block, with the contexts from its neighbours. *)
From Coq Require Import Sorted.
From Verif Require Import Coef_model Coef_spec Quant_scan Coef_proof Coef_levels Coef_loops.
Open Scope string_scope.
Open Scope Z_scope.
Open Scope list_scope.

(** ** Contexts from the neighbours *)
Definition enc (x : Z * Z) : Z := fst x + 64 * snd x.
Definition okctx (x : Z * Z) : Prop := 0 <= fst x <= 63 /\ 0 <= snd x <= 2.

Lemma sum_signs_same l : Forall okctx l -> sum_signs (map enc l) = Some (dc_sign_of l).
Proof.
  induction 1 as [|[a d] l [Ha Hd] _ IH]; [reflexivity|]. cbn [map sum_signs]. rewrite IH.
  unfold enc at 1. cbn [fst snd] in *.
  replace ((a + 64 * d) / 64) with d by dlia.
  unfold dc_sign_of. cbn [map fold_right snd].
  assert (d = 0 \/ d = 1 \/ d = 2) as [->|[->| ->]] by lia; reflexivity.
Qed.
Lemma dc_sign_bound l : - zlen l <= dc_sign_of l <= zlen l.
Proof.
  induction l as [|[a d] l IH]; [unfold zlen; cbn; lia|].
  unfold dc_sign_of in *. cbn [map fold_right snd]. rewrite zlen_cons.
  destruct (d =? 1); [lia|]. destruct (d =? 2); lia.
Qed.
Lemma dc_table s : -32 <= s <= 32 ->
  at_ dc_sign_contexts (s + 32) = Some (if s <? 0 then 1 else if 0 <? s then 2 else 0).
Proof.
  intros H. assert (exists k, (k <= 64)%nat /\ s + 32 = Z.of_nat k) as [k [Hk E]] by (exists (Z.to_nat (s + 32)); lia).
  rewrite E. replace s with (Z.of_nat k - 32) by lia. clear E H.
  do 65 (destruct k as [|k]; [reflexivity|]). lia.
Qed.
Lemma fold_lor_zero (f : Z -> Z) l : (forall a b, f (Z.lor a b) = Z.lor (f a) (f b)) ->
  forall a, f (fold_left Z.lor l a) = 0 <-> f a = 0 /\ forall x, In x l -> f x = 0.
Proof.
  intros Hf. induction l as [|y l IH]; intros a; cbn [fold_left].
  - split; [intros H; split; [exact H|intros x []]|tauto].
  - rewrite IH, Hf, Z.lor_eq_0_iff. cbn [In]. split.
    + intros [[H1 H2] H3]. split; [exact H1|]. intros x [<-|I]; auto.
    + intros [H1 H2]. split; [split; [exact H1|apply H2; left; reflexivity]|]. intros x I. apply H2. right. exact I.
Qed.
Lemma enc_low x : okctx x -> Z.land (enc x) 63 = fst x.
Proof.
  intros [H1 H2]. unfold enc. change 63 with (Z.ones 6). rewrite Z.land_ones by lia. change (2 ^ 6) with 64. dlia.
Qed.
Lemma max_level_le l k : 0 <= k -> max_level l <= k <-> forall x, In x l -> fst x <= k.
Proof.
  intros Hk. unfold max_level. induction l as [|y l IH]; cbn [map fold_right].
  - split; [intros _ x []|lia].
  - rewrite Z.max_lub_iff, IH. cbn [In]. split; [intros [A B] x [<-|I]; auto|intros A; split; auto].
Qed.
Lemma max_level_nonneg l : 0 <= max_level l.
Proof. unfold max_level. induction l as [|y l IH]; cbn [map fold_right]; lia. Qed.
Lemma shiftr2_zero x : 0 <= x -> Z.shiftr x 2 = 0 <-> x <= 3.
Proof. intros H. rewrite Z.shiftr_div_pow2 by lia. change (2 ^ 2) with 4. split; intros; dlia. Qed.

Lemma or_levels l : Forall okctx l -> let o := Z.land (orall (map enc l)) 63 in
  0 <= o /\ (o = 0 <-> max_level l = 0) /\ (o <= 3 <-> max_level l <= 3).
Proof.
  intros F o. rewrite Forall_forall in F.
  assert (O0 : 0 <= o) by (apply Z.land_nonneg; right; lia). split; [exact O0|].
  pose proof (max_level_nonneg l) as M0. split.
  - assert (E : o = 0 <-> forall x, In x (map enc l) -> Z.land x 63 = 0).
    { unfold o, orall. rewrite (fold_lor_zero (fun x => Z.land x 63)).
      - rewrite Z.land_0_l. tauto.
      - intros a b. apply Z.land_lor_distr_l. }
    rewrite E. transitivity (max_level l <= 0); [|lia]. rewrite max_level_le by lia. split.
    + intros H x I. specialize (H (enc x) (in_map enc _ _ I)). rewrite enc_low in H by (apply F, I). lia.
    + intros H y I. apply in_map_iff in I. destruct I as [x [<- I]]. rewrite enc_low by (apply F, I).
      specialize (H x I). destruct (F x I). lia.
  - rewrite <- (shiftr2_zero o O0).
    assert (E : Z.shiftr o 2 = 0 <-> forall x, In x (map enc l) -> Z.shiftr (Z.land x 63) 2 = 0).
    { unfold o, orall. rewrite (fold_lor_zero (fun x => Z.shiftr (Z.land x 63) 2)).
      - rewrite Z.land_0_l. cbn. tauto.
      - intros a b. rewrite Z.land_lor_distr_l. apply Z.shiftr_lor. }
    rewrite E, max_level_le by lia. split.
    + intros H x I. specialize (H (enc x) (in_map enc _ _ I)). rewrite enc_low in H by (apply F, I).
      destruct (F x I). apply shiftr2_zero in H; lia.
    + intros H y I. apply in_map_iff in I. destruct I as [x [<- I]]. rewrite enc_low by (apply F, I).
      destruct (F x I). apply shiftr2_zero; [lia|]. apply H, I.
Qed.
Lemma or_any l : Forall okctx l -> (orall (map enc l) =? 0) = negb (any_nonzero l).
Proof.
  intros F. rewrite Forall_forall in F. apply eq_true_iff_eq. rewrite Z.eqb_eq, negb_true_iff.
  unfold orall. rewrite (fold_lor_zero (fun x => x)) by reflexivity.
  unfold any_nonzero. rewrite <- not_true_iff_false, existsb_exists. split.
  - intros [_ H] [x [I Hx]]. specialize (H (enc x) (in_map enc _ _ I)). destruct (F x I). unfold enc in H. lia.
  - intros H. split; [reflexivity|]. intros y I. apply in_map_iff in I. destruct I as [x [<- I]].
    destruct (F x I). unfold enc.
    destruct (Z.eq_dec (fst x) 0) as [E1|E1]; [destruct (Z.eq_dec (snd x) 0) as [E2|E2]; [lia|]|];
      exfalso; apply H; exists x; (split; [exact I|lia]).
Qed.

Lemma skip_table mn mx : 0 <= mn <= 4 -> 0 <= mx <= 4 ->
  (do row <- at_ skip_contexts mn; at_ row mx) =
  Some (if mx =? 0 then 1 else if mn =? 0 then if mx <? 4 then 2 else 3
        else if mx <? 4 then 4 else if mn <? 4 then 5 else 6).
Proof.
  intros H1 H2.
  assert (mn = 0 \/ mn = 1 \/ mn = 2 \/ mn = 3 \/ mn = 4) as [->|[->|[->|[->| ->]]]] by lia;
  assert (mx = 0 \/ mx = 1 \/ mx = 2 \/ mx = 3 \/ mx = 4) as [->|[->|[->|[->| ->]]]] by lia; reflexivity.
Qed.

Lemma txb_ctx_same g above left_ : zlen above <= 16 -> zlen left_ <= 16 ->
  Forall okctx above -> Forall okctx left_ ->
  0 <= g_wl g -> 0 <= g_hl g -> 0 <= g_pwl g -> 0 <= g_phl g ->
  get_txb_ctx (g_pwl g) (g_phl g) (g_wl g) (g_hl g) (g_plane g) (map enc above) (map enc left_)
  = Some (all_zero_ctx g above left_, dc_sign_ctx above left_).
Proof.
  intros La Ll Fa Fl P1 P2 P3 P4. unfold get_txb_ctx.
  rewrite (sum_signs_same _ Fa), (sum_signs_same _ Fl).
  pose proof (dc_sign_bound above) as B1. pose proof (dc_sign_bound left_) as B2.
  rewrite dc_table by lia. fold (dc_sign_ctx above left_).
  unfold all_zero_ctx. destruct (g_plane g =? 0).
  - destruct ((g_pwl g =? g_wl g) && (g_phl g =? g_hl g)); [reflexivity|]. cbv zeta.
    destruct (or_levels above Fa) as [A0 [A1 A2]]. destruct (or_levels left_ Fl) as [L0 [L1 L2]].
    set (top := Z.land (orall (map enc above)) 63) in *. set (lft := Z.land (orall (map enc left_)) 63) in *.
    set (a := max_level above) in *. set (b := max_level left_) in *.
    pose proof (max_level_nonneg above) as M1. pose proof (max_level_nonneg left_) as M2. fold a in M1. fold b in M2.
    assert (O1 : Z.lor top lft = 0 <-> top = 0 /\ lft = 0) by apply Z.lor_eq_0_iff.
    assert (O0 : 0 <= Z.lor top lft) by (apply Z.lor_nonneg; split; assumption).
    assert (O2 : Z.lor top lft <= 3 <-> top <= 3 /\ lft <= 3).
    { rewrite <- !shiftr2_zero by assumption. rewrite Z.shiftr_lor. apply Z.lor_eq_0_iff. }
    set (o := Z.lor top lft) in *. clearbody top lft o a b. clear Fa Fl B1 B2.
    rewrite skip_table by lia. do 2 f_equal.
    destruct (Z.eq_dec a 0), (Z.eq_dec b 0);
      [replace ((a =? 0) && (b =? 0)) with true by lia
      |replace ((a =? 0) && (b =? 0)) with false by lia; replace ((a =? 0) || (b =? 0)) with true by lia
      |replace ((a =? 0) && (b =? 0)) with false by lia; replace ((a =? 0) || (b =? 0)) with true by lia
      |replace ((a =? 0) && (b =? 0)) with false by lia; replace ((a =? 0) || (b =? 0)) with false by lia].
    + replace (Z.min o 4 =? 0) with true by lia. reflexivity.
    + replace (Z.min o 4 =? 0) with false by lia. replace (Z.min (Z.min top lft) 4 =? 0) with true by lia.
      destruct (3 <? Z.max a b) eqn:Q; [replace (Z.min o 4 <? 4) with false by lia|replace (Z.min o 4 <? 4) with true by lia]; reflexivity.
    + replace (Z.min o 4 =? 0) with false by lia. replace (Z.min (Z.min top lft) 4 =? 0) with true by lia.
      destruct (3 <? Z.max a b) eqn:Q; [replace (Z.min o 4 <? 4) with false by lia|replace (Z.min o 4 <? 4) with true by lia]; reflexivity.
    + replace (Z.min o 4 =? 0) with false by lia. replace (Z.min (Z.min top lft) 4 =? 0) with false by lia.
      destruct (Z.max a b <=? 3) eqn:Q; [replace (Z.min o 4 <? 4) with true by lia; reflexivity|].
      replace (Z.min o 4 <? 4) with false by lia.
      destruct (Z.min a b <=? 3) eqn:Q2; [replace (Z.min (Z.min top lft) 4 <? 4) with true by lia|replace (Z.min (Z.min top lft) 4 <? 4) with false by lia]; reflexivity.
  - cbv zeta. rewrite (or_any _ Fa), (or_any _ Fl). do 2 f_equal.
    rewrite <- !Z.pow_add_r by lia.
    assert (E : (2 ^ (g_wl g + g_hl g) <? 2 ^ (g_pwl g + g_phl g)) = (g_wl g + g_hl g <? g_pwl g + g_phl g)).
    { apply eq_true_iff_eq. rewrite !Z.ltb_lt. symmetry. apply Z.pow_lt_mono_r_iff; lia. }
    rewrite E. destruct (any_nonzero above), (any_nonzero left_), (g_wl g + g_hl g <? g_pwl g + g_phl g); reflexivity.
Qed.

(** ** Facts about the scan *)
Lemma spec_scan_of wl hl ty : 0 <= ty < 16 ->
  spec_scan wl hl ty = map (fun p => fst p * coded_dim hl + snd p) (scan_of wl hl ty).
Proof.
  intros H. unfold spec_scan, scan_of. cbv zeta. f_equal.
  assert (exists k, (k < 16)%nat /\ ty = Z.of_nat k) as [k [Hk ->]] by (exists (Z.to_nat ty); lia).
  do 16 (destruct k as [|k]; [reflexivity|]). lia.
Qed.
Lemma perms_nodup n s i : inverse_perms n s i -> NoDup s.
Proof.
  intros [_ [_ [H _]]]. rewrite (NoDup_nth s 0). intros a b Ha Hb E.
  destruct (H a Ha) as [_ Ea]. destruct (H b Hb) as [_ Eb]. rewrite E in Ea. lia.
Qed.
Lemma scan_head wl hl ty : 2 <= wl <= 6 -> 2 <= hl <= 6 -> NoDup (scan_of wl hl ty) ->
  exists rest, scan_of wl hl ty = (0, 0) :: rest.
Proof.
  intros Hw Hh N. pose proof (dim_bounds wl Hw). pose proof (dim_bounds hl Hh).
  assert (I : In (0, 0) (scan_of wl hl ty)) by (apply scan_complete; lia).
  apply in_split in I. destruct I as [pre [tl E]]. destruct pre as [|[c r] pre]; [exists tl; exact E|].
  exfalso. pose proof (scan_sorted wl hl ty) as Ss. rewrite E in Ss, N.
  assert (R : 0 <= c /\ 0 <= r).
  { assert (I : In (c, r) (scan_of wl hl ty)) by (rewrite E; left; reflexivity). apply scan_range in I. lia. }
  cbn [app] in *. inversion Ss as [|? ? _ F]; subst. rewrite Forall_forall in F.
  specialize (F (0, 0) ltac:(apply in_app_iff; right; left; reflexivity)).
  assert (c = 0 /\ r = 0) as [-> ->].
  { destruct (class_cases ty) as [->|[->| ->]] in F; cbn [before fst snd] in F; lia. }
  inversion N as [|? ? N1 _]; subst. apply N1. apply in_app_iff. right. left. reflexivity.
Qed.

Lemma dim_facts t wl hl : 0 <= t < 19 -> nth_error tx_dims (Z.to_nat t) = Some (wl, hl) ->
  2 <= wl <= 6 /\ 2 <= hl <= 6 /\
  at_ tx_dims t = Some (wl, hl) /\ at_ tx_dims (coded_tx t) = Some (Z.min wl 5, Z.min hl 5) /\
  at_ tx_sqr t = Some (sqr_of wl hl) /\ at_ tx_sqr_up t = Some (sqr_up_of wl hl).
Proof.
  intros Ht E. pose proof (at_dims_cases t wl hl Ht E) as C. clear Ht E.
  cbn [combine map seq tx_dims In] in C.
  repeat destruct C as [C|C]; try contradiction;
    (assert (t = fst (t, (wl, hl))) as Et by reflexivity; assert (wl = fst (snd (t, (wl, hl)))) as Ew by reflexivity;
     assert (hl = snd (snd (t, (wl, hl)))) as Eh by reflexivity;
     rewrite <- C in Et, Ew, Eh; cbn in Et, Ew, Eh; clear C; subst t wl hl);
    (split; [lia|split; [lia|repeat split]]).
Qed.

(** ** The block *)
Definition dims_of (b : tblock) : Z * Z := nth (Z.to_nat (tb_t b)) tx_dims (0, 0).
Definition geom_of (b : tblock) : geom :=
  {| g_plane := tb_plane b; g_x := tb_x b; g_y := tb_y b;
     g_wl := fst (dims_of b); g_hl := snd (dims_of b);
     g_inter := tb_inter b; g_mode := tb_mode b; g_pwl := tb_pwl b; g_phl := tb_phl b;
     g_ty := if tb_plane b =? 0 then 0 else tb_ty b |}.
(** coefficient at (column, row): the encoder stores the coded part by columns *)
Definition coef_at (b : tblock) (p : Z * Z) : Z :=
  nth (Z.to_nat (fst p * coded_dim (snd (dims_of b)) + snd p)) (tb_coeffs b) 0.
Definition scan_pos (b : tblock) : list (Z * Z) := scan_of (fst (dims_of b)) (snd (dims_of b)) (tb_ty b).

(** a call that can occur: size and type that exist and can be signalled, the
    coefficients of the coded part, of which [tb_eob] says where the last nonzero
    one is in scan order *)
Definition legal_content (reduced : bool) (b : tblock) : Prop :=
  0 <= tb_t b < 19 /\ 0 <= tb_ty b < 16 /\ 0 <= tb_plane b /\ 0 <= tb_pwl b /\ 0 <= tb_phl b /\
  (tb_plane b = 0 -> type_allowed (fst (dims_of b)) (snd (dims_of b)) (tb_inter b) reduced (tb_ty b)) /\
  zlen (tb_coeffs b) = coded_dim (fst (dims_of b)) * coded_dim (snd (dims_of b)) /\
  Forall (fun v => Z.abs v < 2 ^ 20) (tb_coeffs b) /\
  0 <= tb_eob b <= zlen (tb_coeffs b) /\
  (forall k, tb_eob b <= Z.of_nat k -> coef_at b (nth k (scan_pos b) (0, 0)) = 0 \/ zlen (scan_pos b) <= Z.of_nat k) /\
  (0 < tb_eob b -> coef_at b (nth (Z.to_nat (tb_eob b - 1)) (scan_pos b) (0, 0)) <> 0).

(** the sizes 16x64 and 64x16 (numbers 17 and 18), which the encoder never chooses,
    are excluded by [good_size] *)
Definition legal_coeffs (reduced : bool) (b : tblock) : Prop := good_size (tb_t b) /\ legal_content reduced b.

Definition expected (b : tblock) : found :=
  (if tb_eob b =? 0 then 0 else tb_ty b, tb_eob b,
   raster (fst (dims_of b)) (snd (dims_of b)) (coef_at b)).

Lemma raster_ext wl hl q q' :
  (forall c r, 0 <= c < coded_dim wl -> 0 <= r < coded_dim hl -> q (c, r) = q' (c, r)) ->
  raster wl hl q = raster wl hl q'.
Proof.
  intros H. unfold raster. rewrite !flat_map_concat_map. f_equal. apply map_ext_in. intros r Hr.
  apply map_ext_in. intros c Hc. apply in_upto in Hr, Hc. apply H; assumption.
Qed.

Lemma combine_map {A B C} (f : A -> B) (g : A -> C) l : combine (map f l) (map g l) = map (fun x => (f x, g x)) l.
Proof. induction l as [|x l IH]; cbn; [reflexivity|]. now rewrite IH. Qed.

Lemma fold_abs_nonneg l : 0 <= fold_right Z.add 0 (map Z.abs l).
Proof. induction l as [|x l IH]; cbn [map fold_right]; lia. Qed.

Lemma lor_64 x : 0 <= x <= 63 -> Z.lor x 64 = x + 64.
Proof.
  intros H. assert (exists k, (k <= 63)%nat /\ x = Z.of_nat k) as [k [Hk ->]] by (exists (Z.to_nat x); lia).
  clear H. do 64 (destruct k as [|k]; [reflexivity|]). lia.
Qed.
Lemma dc_cat_rest hl coeffs l : (forall p, In p l -> p <> (0, 0)) -> forall d, dc_cat hl coeffs l d = d.
Proof.
  unfold dc_cat. induction l as [|p l IH]; intros H d; cbn [fold_left]; [reflexivity|].
  rewrite IH by (intros x Hx; apply H; right; exact Hx).
  specialize (H p (or_introl eq_refl)).
  replace ((fst p =? 0) && (snd p =? 0)) with false; [reflexivity|].
  symmetry. apply not_true_iff_false. intros C. apply H. destruct p; cbn [fst snd] in C. f_equal; lia.
Qed.

Lemma block_read reduced b above left_ :
  legal_coeffs reduced b -> zlen above <= 16 -> zlen left_ <= 16 -> Forall okctx above -> Forall okctx left_ ->
  exists e cx, write_coeffs reduced b (map enc above) (map enc left_) = Some (e, enc cx) /\ okctx cx /\
    forall rest, read_coeffs reduced (geom_of b) above left_ (e ++ rest) = Some ((expected b, cx), rest).
Proof.
  intros (G & _ & Hty & Hp & Hpw & Hph & HT & Hlen & HB & He & Hz & Hnz) La Ll Fa Fl.
  assert (Ht : 0 <= tb_t b < 19) by (unfold good_size in G; lia).
  set (wl := fst (dims_of b)) in *. set (hl := snd (dims_of b)) in *.
  assert (Ed : nth_error tx_dims (Z.to_nat (tb_t b)) = Some (wl, hl)).
  { unfold wl, hl, dims_of. rewrite <- surjective_pairing. apply nth_error_nth'. change (length tx_dims) with 19%nat. lia. }
  destruct (dim_facts _ _ _ Ht Ed) as (Hwl & Hhl & E1 & E2 & E3 & E4).
  destruct (scan_facts (tb_t b) (tb_ty b) wl hl Ht Hty Ed) as [s [i [Es [Ess Pi]]]].
  pose proof (perms_nodup _ _ _ Pi) as Nd. rewrite Ess, spec_scan_of in Nd by exact Hty.
  apply NoDup_map_inv in Nd. destruct Pi as [Ls _].
  rewrite Ess, spec_scan_of in Ls by exact Hty. unfold zlen in Ls at 1. rewrite map_length in Ls.
  fold (zlen (scan_of wl hl (tb_ty b))) in Ls.
  change (scan_of wl hl (tb_ty b)) with (scan_pos b) in *.
  pose proof (dim_bounds wl Hwl) as Bw. pose proof (dim_bounds hl Hhl) as Bh.
  set (l := firstn (Z.to_nat (tb_eob b)) (scan_pos b)).
  set (tl := skipn (Z.to_nat (tb_eob b)) (scan_pos b)).
  assert (Elt : scan_pos b = l ++ tl) by (symmetry; apply firstn_skipn).
  assert (Ll' : zlen l = tb_eob b).
  { unfold l, zlen in *. rewrite firstn_length. lia. }
  unfold write_coeffs. rewrite E1, E2, Es. cbn [fst snd].
  rewrite Ess, (spec_scan_of wl hl) by exact Hty.
  change (scan_of wl hl (tb_ty b)) with (scan_pos b) in *.
  assert (Q1 : (zlen (map (fun p => fst p * coded_dim hl + snd p) (scan_pos b)) <? tb_eob b) = false).
  { unfold zlen in *. rewrite map_length. lia. }
  rewrite Q1, firstn_map. fold l.
  assert (Q2 : existsb (fun p => zlen (tb_coeffs b) <=? p) (map (fun p => fst p * coded_dim hl + snd p) l) = false).
  { apply not_true_iff_false. rewrite existsb_exists. intros [x [I Hx]]. apply in_map_iff in I.
    destruct I as [[c r] [<- I]]. cbn [fst snd] in Hx.
    assert (I' : In (c, r) (scan_of wl hl (tb_ty b))) by (change (In (c, r) (scan_pos b)); rewrite Elt; apply in_app_iff; left; exact I).
    apply scan_range in I'. rewrite Hlen in Hx. nia. }
  rewrite Q2, E3, E4. rewrite map_map.
  fold (txSzCtx wl hl).
  assert (TC : get_txb_ctx (tb_pwl b) (tb_phl b) wl hl (tb_plane b) (map enc above) (map enc left_)
    = Some (all_zero_ctx (geom_of b) above left_, dc_sign_ctx above left_)).
  { apply (txb_ctx_same (geom_of b)); cbn [geom_of g_wl g_hl g_pwl g_phl]; fold wl hl; try assumption; lia. }
  rewrite TC. cbn [fst snd]. clear TC.
  set (azc := all_zero_ctx (geom_of b) above left_). set (dcx := dc_sign_ctx above left_).
  assert (CF : forall p, coef_at b p = cf hl (tb_coeffs b) p) by reflexivity.
  destruct (tb_eob b =? 0) eqn:E0.
  - (* nothing coded *)
    apply Z.eqb_eq in E0. cbn [wsym].
    exists [ESym "txb_skip_cdf" [txSzCtx wl hl; azc] 2 1], (0, 0). split; [reflexivity|].
    split; [split; cbn; lia|]. intros rest. unfold read_coeffs. cbn [geom_of g_wl g_hl]. fold wl hl. unfold bind.
    cbn [app]. fold azc. rewrite rsym_ok by lia. cbn [Z.eqb Pos.eqb]. unfold ret. do 3 f_equal.
    unfold expected. fold wl hl. rewrite E0. cbn [Z.eqb]. f_equal. apply raster_ext. intros c r Hc Hr.
    pose proof (scan_complete wl hl (tb_ty b) c r Hc Hr) as I. change (In (c, r) (scan_pos b)) in I.
    apply (In_nth _ _ (0, 0)) in I. destruct I as [k [Hk Ek]].
    destruct (Hz k ltac:(lia)) as [H|H]; [|unfold zlen in H; lia]. rewrite Ek in H. symmetry. exact H.
  - apply Z.eqb_neq in E0.
    rewrite class_table by exact Hty.
    set (ptype := if tb_plane b =? 0 then 0 else 1).
    assert (Eab : 2 ^ Z.min hl 5 = coded_dim hl) by reflexivity.
    assert (Ear : 2 ^ (Z.min wl 5 + Z.min hl 5) = coded_dim wl * coded_dim hl)
      by (unfold coded_dim; rewrite Z.pow_add_r by lia; reflexivity).
    rewrite Eab, Ear, combine_map.
    change (map (fun p => nth (Z.to_nat (fst p * coded_dim hl + snd p)) (tb_coeffs b) 0) l) with (map (cf hl (tb_coeffs b)) l).
    change (map (fun x => (fst x * coded_dim hl + snd x, nth (Z.to_nat (fst x * coded_dim hl + snd x)) (tb_coeffs b) 0)) l)
      with (map (fun p => (fst p * coded_dim hl + snd p, cf hl (tb_coeffs b) p)) l).
    assert (Hscan : scan_of wl hl (tb_ty b) = l ++ tl) by exact Elt.
    (* levels *)
    destruct (levels_read (tb_t b) wl hl (tb_ty b) ptype (tb_eob b) (tb_coeffs b) l tl Ht Ed Hwl Hhl Hlen Hscan Ll' l [] (fun _ => 0) eq_refl)
      as [q1 [R1 K1]].
    { intros p I. apply (In_nth _ _ (0, 0)) in I. destruct I as [k [Hk Ek]].
      assert (Ek' : nth (Z.to_nat (tb_eob b) + k) (scan_pos b) (0, 0) = p).
      { rewrite Elt, app_nth2 by (unfold zlen in Ll'; lia).
        replace (Z.to_nat (tb_eob b) + k - length l)%nat with k by (unfold zlen in Ll'; lia). exact Ek. }
      destruct (Hz (Z.to_nat (tb_eob b) + k)%nat ltac:(lia)) as [H|H].
      - rewrite Ek', CF in H. rewrite H. reflexivity.
      - exfalso. rewrite Elt in H. unfold zlen in H, Ll'. rewrite app_length in H. lia. }
    { intros p l' E. specialize (Hnz ltac:(lia)). rewrite Elt, E, <- app_assoc in Hnz.
      assert (Ll2 : length l' = Z.to_nat (tb_eob b - 1)).
      { rewrite E in Ll'. unfold zlen in Ll'. rewrite app_length in Ll'. cbn [length] in Ll'. lia. }
      rewrite app_nth2 in Hnz by lia. rewrite Ll2, Nat.sub_diag in Hnz. exact Hnz. }
    change (zlen (@nil (Z * Z))) with 0 in R1.
    (* signs *)
    assert (Nl : NoDup l).
    { rewrite Elt in Nd. clear - Nd. induction l as [|x l IH]; [constructor|].
      cbn [app] in Nd. inversion Nd as [|? ? N1 N2]; subst. constructor; [|apply IH, N2].
      intros I. apply N1. apply in_app_iff. left. exact I. }
    destruct (signs_read (tb_t b) wl hl ptype (tb_coeffs b) Ht Hwl Hhl dcx l 0 q1 0 0 Nl) as [q2 [R2 [Q3 Q4]]].
    { intros p _. unfold cf. rewrite Forall_forall in HB.
      destruct (nth_in_or_default (Z.to_nat (fst p * coded_dim hl + snd p)) (tb_coeffs b) 0) as [I|D];
        [apply HB, I|rewrite D; reflexivity]. }
    { intros p I. apply K1. apply in_app_iff. left. exact I. }
    (* first coefficient *)
    destruct (scan_head wl hl (tb_ty b) Hwl Hhl Nd) as [rest0 Eh].
    assert (Hl : exists l', l = (0, 0) :: l').
    { destruct l as [|p l'] eqn:El; [unfold zlen in Ll'; cbn in Ll'; lia|].
      rewrite Hscan in Eh. cbn [app] in Eh. exists l'. congruence. }
    destruct Hl as [l' El].
    set (v0 := cf hl (tb_coeffs b) (0, 0)).
    set (tot := fold_right Z.add 0 (map Z.abs (map (cf hl (tb_coeffs b)) l))) in *.
    pose proof (fold_abs_nonneg (map (cf hl (tb_coeffs b)) l)) as Ptot. fold tot in Ptot.
    set (dcv := if v0 <? 0 then 1 else if 0 <? v0 then 2 else 0).
    assert (Edc : dc_cat hl (tb_coeffs b) l 0 = dcv).
    { rewrite El. unfold dc_cat. cbn [fold_left fst snd Z.eqb andb]. fold v0.
      fold (dc_cat hl (tb_coeffs b) l').
      change (dc_cat hl (tb_coeffs b) l' (if negb (v0 =? 0) then if v0 <? 0 then 1 else 2 else 0) = dcv).
      rewrite dc_cat_rest.
      - unfold dcv. destruct (v0 =? 0) eqn:Q; cbn [negb]; destruct (v0 <? 0) eqn:Q', (0 <? v0) eqn:Q''; lia.
      - intros p I ->. rewrite El in Nl. inversion Nl; contradiction. }
    rewrite Edc in R2. rewrite Z.add_0_l in R2.
    assert (Ecul : new_cul_level (map (cf hl (tb_coeffs b)) l) = Some (enc (Z.min 63 tot, dcv))).
    { unfold new_cul_level. fold tot. rewrite El. cbn [map]. unfold at_. change (0 <=? 0) with true. cbv iota.
      change (Z.to_nat 0) with 0%nat. cbn [nth_error]. fold v0. f_equal. unfold enc, dcv. cbn [fst snd].
      destruct (v0 <? 0).
      - assert (E : Z.lor (Z.min 63 tot) 64 = Z.min 63 tot + 64).
        { apply lor_64; lia. }
        rewrite E. rewrite u8_id by lia. lia.
      - destruct (0 <? v0); rewrite u8_id by lia; lia. }
    assert (Hzero : forall p, In p tl -> cf hl (tb_coeffs b) p = 0).
    { intros p I. apply (In_nth _ _ (0, 0)) in I. destruct I as [k [Hk Ek]].
      assert (Ek' : nth (Z.to_nat (tb_eob b) + k) (scan_pos b) (0, 0) = p).
      { rewrite Elt, app_nth2 by (unfold zlen in Ll'; lia).
        replace (Z.to_nat (tb_eob b) + k - length l)%nat with k by (unfold zlen in Ll'; lia). exact Ek. }
      destruct (Hz (Z.to_nat (tb_eob b) + k)%nat ltac:(lia)) as [H|H].
      - rewrite Ek', CF in H. exact H.
      - exfalso. rewrite Elt in H. unfold zlen in H, Ll'. rewrite app_length in H. lia. }
    assert (R : reads (read_coeffs reduced (geom_of b) above left_)
      (wsym "txb_skip_cdf" [txSzCtx wl hl; azc] 2 0 +++
       wif (tb_plane b =? 0) (write_tx_type (tb_t b) (tb_ty b) (tb_mode b) (tb_inter b) reduced) +++
       encode_eob (tb_eob b) wl hl (class_of (tb_ty b)) (txSzCtx wl hl) ptype +++
       encode_coeffs (encode_coeff (level_at (coded_dim hl) (tb_coeffs b)) (Z.min hl 5) (coded_dim wl * coded_dim hl)
          (tb_eob b) (tb_t b) (class_of (tb_ty b)) (txSzCtx wl hl) ptype) 0
          (map (fun p => (fst p * coded_dim hl + snd p, cf hl (tb_coeffs b) p)) l) +++
       encode_coeff_signs ptype dcx 0 (map (cf hl (tb_coeffs b)) l))
      (expected b, (Z.min 63 tot, dcv))).
    { unfold read_coeffs. cbn [geom_of g_wl g_hl g_plane g_mode g_inter g_ty]. fold wl hl. cbv zeta. fold azc dcx.
      replace (if 0 <? tb_plane b then 1 else 0) with ptype
        by (unfold ptype; destruct (tb_plane b =? 0) eqn:Q, (0 <? tb_plane b) eqn:Q'; try reflexivity; lia).
      eapply reads_bind; [apply reads_sym; lia|]. cbv beta. change (0 =? 1) with false. cbv iota.
      eapply reads_bind with (a := tb_ty b).
      { destruct (tb_plane b =? 0) eqn:Q; cbn [wif].
        - apply tx_type_read; try assumption. apply HT. lia.
        - apply reads_ret. }
      cbv beta zeta.
      eapply reads_bind; [apply (eob_read (tb_t b) wl hl (tb_eob b)); try assumption; lia|].
      cbv beta. change (scan_of wl hl (tb_ty b)) with (scan_pos b). fold l.
      eapply reads_bind; [exact R1|]. cbv beta.
      eapply reads_val; [eapply reads_last; exact R2|]. cbv beta. cbn [fst snd].
      unfold expected. fold wl hl. replace (tb_eob b =? 0) with false by lia.
      f_equal. f_equal. apply raster_ext. intros c r Hc Hr. rewrite CF.
      assert (I : In (c, r) (l ++ tl)) by (rewrite <- Hscan; apply scan_complete; assumption).
      destruct (in_dec (fun x y : Z * Z => ltac:(decide equality; apply Z.eq_dec)) (c, r) l) as [Il|Il].
      - apply Q3, Il.
      - rewrite Q4 by exact Il. rewrite K1 by exact I. apply in_app_iff in I. destruct I as [I|I]; [contradiction|].
        rewrite Hzero by exact I. reflexivity. }
    destruct R as [e [We Re]]. rewrite We, Ecul.
    exists e, (Z.min 63 tot, dcv). split; [reflexivity|]. split; [|exact Re].
    split; cbn [fst snd]; [lia|]. unfold dcv. destruct (v0 <? 0); [lia|]. destruct (0 <? v0); lia.
Qed.
