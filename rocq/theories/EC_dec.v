(** The specification's decoder inverts the encoder. *)
From Verif Require Import Base EC_model EC_spec EC_proof.

(** ** The decoder *)

(** The first [n] bits of a bit string continued with zeros, as a number. *)
Definition xval (bits : list bool) (n : Z) : Z :=
  bits_val (firstn (Z.to_nat n) bits) * 2 ^ (n - Z.min n (zlen bits)).

Lemma xval_0 bits : xval bits 0 = 0.
Proof. unfold xval. cbn [Z.to_nat firstn]. rewrite bits_val_nil. lia. Qed.

Lemma xval_short bits n : zlen bits <= n -> xval bits n = bits_val bits * 2 ^ (n - zlen bits).
Proof.
  intros H. unfold xval. rewrite firstn_all2 by (unfold zlen in H; lia).
  rewrite Z.min_r by lia. reflexivity.
Qed.

Lemma firstn_firstn_skipn {A} (a b : nat) (l : list A) :
  firstn (a + b) l = firstn a l ++ firstn b (skipn a l).
Proof.
  revert l; induction a as [|a IH]; intros l; [reflexivity|].
  destruct l as [|x l]; [now destruct b|]. cbn. now rewrite IH.
Qed.

Lemma xval_step bits n d : 0 <= n -> 0 <= d ->
  let numBits := Z.min d (Z.max 0 (zlen bits - n)) in
  xval bits (n + d) =
  xval bits n * 2 ^ d
  + bits_val (firstn (Z.to_nat numBits) (skipn (Z.to_nat n) bits)) * 2 ^ (d - numBits).
Proof.
  intros Hn Hd nb. unfold xval.
  rewrite Z2Nat.inj_add by lia. rewrite firstn_firstn_skipn, bits_val_app.
  assert (E : firstn (Z.to_nat d) (skipn (Z.to_nat n) bits)
            = firstn (Z.to_nat nb) (skipn (Z.to_nat n) bits)).
  { destruct (Z.le_gt_cases d (Z.max 0 (zlen bits - n))) as [H|H].
    - unfold nb. rewrite Z.min_l by lia. reflexivity.
    - unfold nb. rewrite Z.min_r by lia.
      rewrite !firstn_all2; [reflexivity| |]; rewrite skipn_length; unfold zlen in *; lia. }
  rewrite E.
  assert (Lz : zlen (firstn (Z.to_nat nb) (skipn (Z.to_nat n) bits)) = nb).
  { unfold zlen. rewrite firstn_length, skipn_length. unfold nb, zlen. lia. }
  rewrite Lz.
  destruct (Z.le_gt_cases n (zlen bits)) as [Hle|Hgt].
  - rewrite (Z.min_l n) by lia. rewrite Z.sub_diag, Z.pow_0_r, Z.mul_1_r.
    replace (n + d - Z.min (n + d) (zlen bits)) with (d - nb) by (unfold nb; lia).
    replace (2 ^ d) with (2 ^ nb * 2 ^ (d - nb)); [ring|].
    rewrite <- Z.pow_add_r by (unfold nb; lia). f_equal. lia.
  - assert (nb = 0) by (unfold nb; lia). rewrite H.
    cbn [Z.to_nat firstn]. rewrite bits_val_nil.
    rewrite !Z.min_r by lia.
    replace (n + d - zlen bits) with (n - zlen bits + d) by lia.
    rewrite Z.pow_add_r by lia. change (2 ^ 0) with 1. ring.
Qed.

Lemma xval_bound bits n d : 0 <= n -> 0 <= d ->
  xval bits n * 2 ^ d <= xval bits (n + d) < (xval bits n + 1) * 2 ^ d.
Proof.
  intros Hn Hd. rewrite xval_step by lia. cbn zeta.
  set (nb := Z.min d (Z.max 0 (zlen bits - n))).
  assert (Hnb : 0 <= nb <= d) by (unfold nb; lia).
  set (l := firstn _ _).
  assert (B := bits_val_bound l).
  assert (Lz : zlen l <= nb).
  { unfold l, zlen. rewrite firstn_length. lia. }
  assert (2 ^ zlen l <= 2 ^ nb) by (apply Z.pow_le_mono_r; lia).
  assert (0 < 2 ^ (d - nb)) by (apply Z.pow_pos_nonneg; lia).
  assert (2 ^ d = 2 ^ nb * 2 ^ (d - nb)) by (rewrite <- Z.pow_add_r by lia; f_equal; lia).
  nia.
Qed.

(** Containment propagates backwards. *)
Definition inside (bits : list bool) (x : exact) : Prop :=
  x_low x <= xval bits (15 + x_shift x) < x_low x + x_rng x.

Lemma inside_back bits x t : x_ok x -> valid_token t ->
  inside bits (x_step x t) ->
  x_rng x - tok_u (x_rng x) t <= xval bits (15 + x_shift x) - x_low x
    < x_rng x - tok_v (x_rng x) t.
Proof.
  intros Hx Hv. pose proof (x_d_range x t Hx Hv) as Hd.
  destruct Hx as (Hr & Hl & Hs & Ht).
  unfold inside, x_step; cbn [x_low x_shift x_rng].
  fold (x_d x t) in *. unfold x_d in *.
  set (d := lz16 _) in *. set (u := tok_u _ _) in *. set (v := tok_v _ _) in *.
  replace (15 + (x_shift x + d)) with (15 + x_shift x + d) by lia.
  pose proof (xval_bound bits (15 + x_shift x) d ltac:(lia) ltac:(lia)) as B.
  set (X := xval bits (15 + x_shift x)) in *.
  assert (P : 0 < 2 ^ d) by (apply Z.pow_pos_nonneg; lia).
  intros [I1 I2]. nia.
Qed.

Lemma inside_step bits x t : x_ok x -> valid_token t ->
  inside bits (x_step x t) -> inside bits x.
Proof.
  intros Hx Hv H. pose proof (inside_back bits x t Hx Hv H) as B.
  destruct Hx as (Hr & _). pose proof (tok_bounds _ _ Hr Hv).
  unfold inside. lia.
Qed.

Lemma inside_all bits ts x : x_ok x -> Forall valid_token ts ->
  inside bits (x_encode x ts) -> inside bits x.
Proof.
  revert x; induction ts as [|t ts IH]; intros x Hx Hv H; [exact H|].
  inversion Hv; subst. cbn in H. apply (inside_step bits x t); [assumption..|].
  apply IH; [apply x_step_ok| |]; assumption.
Qed.

(** Decoder state matching an exact encoder state. *)
Definition dec_rel (bits : list bool) (x : exact) (st : sd) : Prop :=
  sd_rng st = x_rng x /\
  sd_val st = x_low x + x_rng x - xval bits (15 + x_shift x) - 1 /\
  sd_bits st = skipn (Z.to_nat (15 + x_shift x)) bits /\
  sd_max st = zlen bits - 15 - x_shift x.

Lemma lxor_ones a n : 0 <= n -> 0 <= a < 2 ^ n -> Z.lxor (2 ^ n - 1) a = 2 ^ n - 1 - a.
Proof.
  intros Hn Ha.
  assert (E : 2 ^ n - 1 = Z.ones n) by (rewrite Z.ones_equiv; lia).
  rewrite E.
  assert (D : Z.land (Z.lxor (Z.ones n) a) a = 0).
  { apply Z.bits_inj'. intros k Hk. rewrite Z.land_spec, Z.lxor_spec, Z.bits_0.
    destruct (Z.lt_ge_cases k n).
    - rewrite Z.ones_spec_low by lia. now destruct (Z.testbit a k).
    - destruct (Z.eq_dec a 0) as [->|]; [now rewrite Z.bits_0, andb_false_r|].
      rewrite (Z.bits_above_log2 a); [apply andb_false_r|lia|].
      assert (Z.log2 a < n) by (apply Z.log2_lt_pow2; lia). lia. }
  assert (S : Z.lxor (Z.ones n) a + a = Z.ones n).
  { rewrite Z.add_nocarry_lxor by exact D. rewrite Z.lxor_assoc, Z.lxor_nilpotent, Z.lxor_0_r. reflexivity. }
  lia.
Qed.

Lemma lxor_high a b n : 0 <= n -> 0 <= a < 2 ^ n ->
  Z.lxor a ((b + 1) * 2 ^ n - 1) = (b + 1) * 2 ^ n - 1 - a.
Proof.
  intros Hn Ha.
  replace ((b + 1) * 2 ^ n - 1) with (b * 2 ^ n + (2 ^ n - 1)) by lia.
  assert (E : 2 ^ n - 1 = Z.ones n) by (rewrite Z.ones_equiv; lia).
  assert (Add : b * 2 ^ n + (2 ^ n - 1) = Z.lxor (b * 2 ^ n) (2 ^ n - 1)).
  { apply Z.add_nocarry_lxor. rewrite E, Z.land_ones by lia. apply Z.mod_mul. lia. }
  rewrite Add. rewrite (Z.lxor_comm a), Z.lxor_assoc. rewrite lxor_ones by assumption.
  rewrite <- Z.add_nocarry_lxor; [lia|].
  apply Z.bits_inj'. intros k Hk. rewrite Z.land_spec, Z.bits_0.
  destruct (Z.lt_ge_cases k n).
  - rewrite Z.mul_pow2_bits_low by lia. reflexivity.
  - destruct (Z.eq_dec (2 ^ n - 1 - a) 0) as [->|]; [now rewrite Z.bits_0, andb_false_r|].
    rewrite (Z.bits_above_log2 (2 ^ n - 1 - a)); [apply andb_false_r|lia|].
    assert (Z.log2 (2 ^ n - 1 - a) < n) by (apply Z.log2_lt_pow2; lia). lia.
Qed.

Lemma init_rel data : bytes data -> dec_rel (bytes_bits data) x_new (init_symbol data).
Proof.
  intros Hb. unfold init_symbol, read. set (bits := bytes_bits data).
  assert (Zl : zlen bits = 8 * zlen data) by apply zlen_bytes_bits.
  assert (Hn := zlen_nonneg _ data).
  unfold dec_rel, x_new; cbn [sd_rng sd_val sd_bits sd_max x_rng x_low x_shift].
  replace (zlen data * 8) with (zlen bits) by lia.
  set (n := Z.min (zlen bits) 15).
  assert (E1 : firstn (Z.to_nat n) bits = firstn (Z.to_nat 15) bits).
  { destruct (Z.le_gt_cases 15 (zlen bits)).
    - unfold n. rewrite Z.min_r by lia. reflexivity.
    - unfold n. rewrite Z.min_l by lia. rewrite !firstn_all2; [reflexivity| |]; unfold zlen in *; lia. }
  assert (EV : bits_val (firstn (Z.to_nat n) bits) * 2 ^ (15 - n) = xval bits 15).
  { rewrite E1. unfold xval. f_equal. f_equal. unfold n. lia. }
  rewrite EV.
  assert (XB : 0 <= xval bits 15 < 2 ^ 15).
  { pose proof (xval_bound bits 0 15 ltac:(lia) ltac:(lia)) as B.
    change (0 + 15) with 15 in B. rewrite xval_0 in B. lia. }
  split; [reflexivity|]. split.
  - rewrite lxor_ones by lia. change (15 + 0) with 15. change (2 ^ 15) with 32768. lia.
  - split; [|lia]. change (15 + 0) with 15.
    destruct (Z.le_gt_cases 15 (zlen bits)).
    + unfold n. rewrite Z.min_r by lia. reflexivity.
    + unfold n. rewrite Z.min_l by lia. rewrite !skipn_all2; [reflexivity| |]; unfold zlen in *; lia.
Qed.

(** ** Tables and the search loop *)
Lemma nth_last {A} (l : list A) d : nth (length l - 1) l d = last l d.
Proof.
  induction l as [|a [|b l] IH]; [reflexivity..|].
  cbn [length last nth] in *. replace (S (S (length l)) - 1)%nat with (S (length l)) by lia.
  replace (S (length l) - 1)%nat with (length l) in IH by lia. exact IH.
Qed.

Lemma removelast_length {A} (l : list A) : length (removelast l) = (length l - 1)%nat.
Proof. induction l as [|a [|b l] IH]; [reflexivity..|]. cbn [removelast length] in *. lia. Qed.

Lemma nth_removelast {A} (l : list A) i d : (i < length l - 1)%nat -> nth i (removelast l) d = nth i l d.
Proof.
  revert i; induction l as [|a l IH]; intros i Hi; [cbn in Hi; lia|].
  destruct l as [|b l]; [cbn in Hi; lia|].
  change (removelast (a :: b :: l)) with (a :: removelast (b :: l)).
  destruct i; [reflexivity|]. cbn [nth]. apply IH. cbn [length] in *. lia.
Qed.

Lemma non_increasing_nth l i j : non_increasing l -> (i <= j < length l)%nat -> nth j l 0 <= nth i l 0.
Proof.
  revert i j; induction l as [|x l IH]; intros i j H Hij; [cbn in Hij; lia|].
  destruct H as [H1 H2]. destruct i, j; cbn [nth length] in *; try lia.
  - rewrite Forall_forall in H1. apply H1. apply nth_In. lia.
  - apply IH; [assumption|lia].
Qed.

(** Entry [i] of a table with the counter bits dropped. *)
Definition prob (icdf : list Z) (i : nat) : Z := nth i icdf 0 / 64.

Lemma valid_prob_last icdf : valid_icdf icdf -> prob icdf (length icdf - 1) = 0.
Proof. intros (_ & _ & _ & H). unfold prob. rewrite nth_last. dlia. Qed.

Lemma valid_entry icdf i : valid_icdf icdf -> (i < length icdf)%nat -> 0 <= nth i icdf 0 < 32768.
Proof.
  intros (Hl & Hf & _ & Hc) Hi.
  destruct (Nat.eq_dec i (length icdf - 1)) as [->|]; [rewrite nth_last; lia|].
  rewrite <- nth_removelast by lia. rewrite Forall_forall in Hf. apply Hf, nth_In.
  rewrite removelast_length. lia.
Qed.

Lemma valid_prob_mono icdf i j : valid_icdf icdf -> (i <= j < length icdf)%nat ->
  prob icdf j <= prob icdf i.
Proof.
  intros Hv Hij. pose proof Hv as (Hl & Hf & Hm & Hc).
  destruct (Nat.eq_dec j (length icdf - 1)) as [->|].
  - rewrite valid_prob_last by assumption. unfold prob.
    pose proof (valid_entry icdf i Hv ltac:(lia)). dlia.
  - unfold prob. apply Z.div_le_mono; [lia|].
    rewrite <- (nth_removelast icdf j), <- (nth_removelast icdf i) by lia.
    apply non_increasing_nth; [assumption|]. rewrite removelast_length. lia.
Qed.

Lemma symbol_token_valid icdf s : valid_icdf icdf -> (s < length icdf)%nat ->
  valid_token (symbol_token s icdf).
Proof.
  intros Hv Hs. pose proof Hv as (Hl & _).
  unfold valid_token, symbol_token; cbn [t_fl t_fh t_nms]. unfold zlen.
  pose proof (valid_entry icdf s Hv Hs) as E.
  destruct (Nat.ltb_spec 0 s).
  - pose proof (valid_entry icdf (s - 1) Hv ltac:(lia)).
    pose proof (valid_prob_mono icdf (s - 1) s Hv ltac:(lia)) as M. unfold prob in M.
    repeat split; try lia.
  - assert (nth s icdf 0 / 64 <= 511) by dlia. change (32768 / 64) with 512. repeat split; lia.
Qed.

(** The decoder's boundary below symbol [i]. *)
Definition bound (r : Z) (icdf : list Z) (i : nat) : Z :=
  ((r / 256) * prob icdf i) / 2 + 4 * (zlen icdf - Z.of_nat i - 1).

Lemma tok_v_bound r icdf s : tok_v r (symbol_token s icdf) = bound r icdf s.
Proof. unfold tok_v, bound, prob, symbol_token; cbn [t_fh t_nms]. lia. Qed.

Lemma tok_u_bound r icdf s : valid_icdf icdf -> (s < length icdf)%nat ->
  tok_u r (symbol_token s icdf) = match s with O => r | S p => bound r icdf p end.
Proof.
  intros Hv Hs. unfold tok_u, bound, prob, symbol_token; cbn [t_fl t_nms].
  destruct s as [|p]; [reflexivity|].
  replace (0 <? S p)%nat with true by reflexivity.
  replace (S p - 1)%nat with p by lia.
  pose proof (valid_entry icdf p Hv ltac:(lia)).
  destruct (Z.leb_spec 32768 (nth p icdf 0)); [lia|].
  f_equal. lia.
Qed.

Lemma bound_anti r icdf i j : rng_ok r -> valid_icdf icdf -> (i <= j < length icdf)%nat ->
  bound r icdf j <= bound r icdf i.
Proof.
  intros Hr Hv Hij. unfold bound.
  pose proof (valid_prob_mono icdf i j Hv Hij) as M.
  assert (0 <= r / 256) by (unfold rng_ok in Hr; dlia).
  assert ((r / 256) * prob icdf j <= (r / 256) * prob icdf i) by nia.
  assert (((r / 256) * prob icdf j) / 2 <= ((r / 256) * prob icdf i) / 2) by (apply Z.div_le_mono; lia).
  lia.
Qed.

(** Spec-side entries. *)
Definition spec_probs (icdf : list Z) : list Z :=
  map (fun x => 2 ^ 15 - x) (removelast icdf) ++ [2 ^ 15].

Lemma spec_cdf_probs icdf : spec_cdf icdf = spec_probs icdf ++ [last icdf 0].
Proof. unfold spec_cdf, spec_probs. rewrite <- app_assoc. reflexivity. Qed.

Lemma spec_probs_length icdf : (1 <= length icdf)%nat -> length (spec_probs icdf) = length icdf.
Proof. intros. unfold spec_probs. rewrite app_length, map_length, removelast_length. cbn. lia. Qed.

Lemma spec_probs_nth icdf i : valid_icdf icdf -> (i < length icdf)%nat ->
  (2 ^ 15 - nth i (spec_probs icdf) 0) / 2 ^ 6 = prob icdf i.
Proof.
  intros Hv Hi. pose proof Hv as (Hl & _). unfold spec_probs.
  change (2 ^ 6) with 64.
  destruct (Nat.eq_dec i (length icdf - 1)) as [->|].
  - rewrite valid_prob_last by assumption.
    rewrite app_nth2; rewrite map_length, removelast_length; [|lia].
    rewrite Nat.sub_diag. reflexivity.
  - rewrite app_nth1 by (rewrite map_length, removelast_length; lia).
    rewrite (nth_indep _ 0 ((fun x => 2 ^ 15 - x) 0)) by (rewrite map_length, removelast_length; lia).
    rewrite (map_nth (fun x => 2 ^ 15 - x)). rewrite nth_removelast by lia.
    unfold prob. f_equal. lia.
Qed.

Lemma search_skip l N sym rng val cur s :
  (s < length l)%nat ->
  (forall i, (i < s)%nat ->
     val < ((rng / 2 ^ 8) * ((2 ^ 15 - nth i l 0) / 2 ^ 6)) / 2 ^ 1 + 4 * (N - (sym + Z.of_nat i) - 1)) ->
  let B i := ((rng / 2 ^ 8) * ((2 ^ 15 - nth i l 0) / 2 ^ 6)) / 2 ^ 1 + 4 * (N - (sym + Z.of_nat i) - 1) in
  B s <= val ->
  search l N sym rng val cur =
    Some (sym + Z.of_nat s, match s with O => cur | S p => B p end, B s).
Proof.
  revert sym cur s; induction l as [|x l IH]; intros sym cur s Hs Hlt B HB; [cbn in Hs; lia|].
  cbn [search]. destruct s as [|s].
  - unfold B in *. cbn [nth] in *. rewrite Z.add_0_r in *.
    destruct (Z.ltb_spec val ((rng / 2 ^ 8 * ((2 ^ 15 - x) / 2 ^ 6)) / 2 ^ 1 + 4 * (N - sym - 1))); [lia|].
    reflexivity.
  - pose proof (Hlt 0%nat ltac:(lia)) as H0. cbn [nth] in H0. rewrite Z.add_0_r in H0.
    destruct (Z.ltb_spec val ((rng / 2 ^ 8 * ((2 ^ 15 - x) / 2 ^ 6)) / 2 ^ 1 + 4 * (N - sym - 1))); [|lia].
    rewrite (IH (sym + 1) _ s).
    + unfold B. cbn [nth]. f_equal. f_equal; [f_equal; [lia|]|].
      * destruct s as [|p]; cbn [nth]; f_equal; lia.
      * f_equal. lia.
    + cbn in Hs; lia.
    + intros i Hi. pose proof (Hlt (S i) ltac:(lia)) as Hq. cbn [nth] in Hq.
      replace (sym + 1 + Z.of_nat i) with (sym + Z.of_nat (S i)) by lia. exact Hq.
    + unfold B in HB. cbn [nth] in HB.
      replace (sym + 1 + Z.of_nat s) with (sym + Z.of_nat (S s)) by lia. exact HB.
Qed.

(** One symbol. *)
Lemma decode_symbol_ok bits x st icdf s :
  x_ok x -> valid_icdf icdf -> (s < length icdf)%nat -> dec_rel bits x st ->
  inside bits (x_step x (symbol_token s icdf)) ->
  exists st', decode_symbol st (spec_cdf icdf) = Some (Z.of_nat s, st') /\
              dec_rel bits (x_step x (symbol_token s icdf)) st'.
Proof.
  intros Hx Hv Hs (Drng & Dval & Dbits & Dmax) Hin.
  set (t := symbol_token s icdf) in *.
  assert (Ht : valid_token t) by (apply symbol_token_valid; assumption).
  pose proof (inside_back bits x t Hx Ht Hin) as HB.
  pose proof Hx as (Hr & HxL & HxS & HxT).
  pose proof (tok_bounds _ _ Hr Ht) as (T1 & T2 & T3).
  unfold decode_symbol.
  assert (Hl2 : (2 <= length icdf <= 16)%nat) by apply Hv.
  assert (HN : zlen (spec_cdf icdf) - 1 = zlen icdf).
  { rewrite spec_cdf_probs, zlen_app, zlen_cons, zlen_nil. unfold zlen.
    rewrite spec_probs_length by lia. lia. }
  rewrite HN.
  assert (HR : removelast (spec_cdf icdf) = spec_probs icdf).
  { rewrite spec_cdf_probs. apply removelast_last. }
  rewrite HR, Drng.
  set (r := x_rng x) in *.
  assert (Bnd : forall i, (i < length icdf)%nat ->
     ((r / 2 ^ 8) * ((2 ^ 15 - nth i (spec_probs icdf) 0) / 2 ^ 6)) / 2 ^ 1
       + 4 * (zlen icdf - (0 + Z.of_nat i) - 1) = bound r icdf i).
  { intros i Hi. rewrite spec_probs_nth by assumption. unfold bound.
    change (2 ^ 8) with 256. change (2 ^ 1) with 2. f_equal. }
  rewrite (search_skip (spec_probs icdf) (zlen icdf) 0 r (sd_val st) r s).
  2:{ rewrite spec_probs_length; lia. }
  2:{ intros i Hi. rewrite Bnd by lia. rewrite Dval.
      assert (Hu : tok_u r t = match s with O => r | S p => bound r icdf p end)
        by (apply tok_u_bound; assumption).
      destruct s as [|p]; [lia|].
      assert (bound r icdf p <= bound r icdf i) by (apply bound_anti; try assumption; lia).
      lia. }
  2:{ rewrite Bnd by assumption. rewrite <- tok_v_bound. fold t. lia. }
  rewrite (Bnd s Hs).
  assert (Prev : match s with
     | O => r
     | S p => ((r / 2 ^ 8) * ((2 ^ 15 - nth p (spec_probs icdf) 0) / 2 ^ 6)) / 2 ^ 1
              + 4 * (zlen icdf - (0 + Z.of_nat p) - 1)
     end = tok_u r t).
  { unfold t. rewrite tok_u_bound by assumption. destruct s as [|p]; [reflexivity|]. apply Bnd. lia. }
  rewrite Prev, <- tok_v_bound. fold t. rewrite Z.add_0_l.
  set (u := tok_u r t) in *. set (v := tok_v r t) in *.
  unfold read.
  eexists; split; [reflexivity|].
  assert (Hd := x_d_range x t Hx Ht). unfold x_d in Hd. fold r u v in Hd.
  unfold dec_rel, x_step; cbn [sd_rng sd_val sd_bits sd_max x_rng x_low x_shift]. fold r u v.
  change (15 - Z.log2 (u - v)) with (lz16 (u - v)).
  set (d := lz16 (u - v)) in *.
  replace (15 + (x_shift x + d)) with (15 + x_shift x + d) by lia.
  set (n := 15 + x_shift x) in *.
  set (nb := Z.min d (Z.max 0 (sd_max st))).
  assert (Enb : nb = Z.min d (Z.max 0 (zlen bits - n))).
  { unfold nb. rewrite Dmax. f_equal. unfold n. lia. }
  assert (Hn : 0 <= n) by (unfold n; lia).
  assert (Hnb : 0 <= nb <= d) by (unfold nb; lia).
  split; [reflexivity|].
  pose proof (xval_step bits n d Hn ltac:(lia)) as XS. cbn zeta in XS. rewrite <- Enb in XS.
  rewrite Dbits. fold n.
  set (new := bits_val (firstn (Z.to_nat nb) (skipn (Z.to_nat n) bits)) * 2 ^ (d - nb)) in *.
  assert (Bnew : 0 <= new < 2 ^ d).
  { pose proof (xval_bound bits n d Hn ltac:(lia)). lia. }
  split.
  { rewrite lxor_high by lia. rewrite XS, Dval. fold n. ring. }
  split; [|unfold n; lia].
  rewrite skipn_skipn.
  destruct (Z.le_gt_cases d (Z.max 0 (zlen bits - n))).
  - f_equal. lia.
  - rewrite !skipn_all2; [reflexivity| |]; unfold zlen in *; lia.
Qed.

(** ** Whole streams *)
Lemma done_inside w x data : x_ok x -> enc_rel w x -> enc_done w = Some data ->
  inside (bytes_bits data) x.
Proof.
  intros Hx Hw Hd. destruct (enc_done_spec w x Hx Hw) as (out & k & E & B & Zl & K & K0 & I & _).
  rewrite E in Hd. injection Hd as <-.
  unfold inside. destruct Hw as (_ & Hc & Hsh & _).
  rewrite xval_short; rewrite zlen_bytes_bits; [|lia].
  rewrite bits_val_bytes_bits by exact B.
  replace (15 + x_shift x - 8 * zlen out) with (24 + e_cnt w - 8 * k) by lia. exact I.
Qed.

Lemma bits_val_zero l : bits_val l = 0 -> Forall (fun b => b = false) l.
Proof.
  induction l as [|b l IH]; intros H; [constructor|].
  rewrite bits_val_cons in H.
  pose proof (bits_val_bound l). assert (0 < 2 ^ zlen l) by (apply Z.pow_pos_nonneg; [lia|apply zlen_nonneg]).
  destruct b; cbn [b2z] in H; [lia|]. constructor; [reflexivity|]. apply IH. lia.
Qed.

Lemma bits_val_pow2 b l : bits_val (b :: l) = 2 ^ zlen l -> b = true /\ Forall (fun b => b = false) l.
Proof.
  rewrite bits_val_cons. intros H. pose proof (bits_val_bound l).
  destruct b; cbn [b2z] in H; [|lia]. split; [reflexivity|]. apply bits_val_zero. lia.
Qed.

Lemma skipn_nth {A} n (l : list A) d : (n < length l)%nat -> skipn n l = nth n l d :: skipn (S n) l.
Proof.
  revert l; induction n as [|n IH]; intros [|x l] H; cbn in H; try lia; [reflexivity|].
  cbn [skipn nth]. apply IH. lia.
Qed.

Lemma done_trailing w x data st : x_ok x -> enc_rel w x -> enc_done w = Some data ->
  dec_rel (bytes_bits data) x st -> trailing_ok data st.
Proof.
  intros Hx Hw Hd (_ & _ & Dbits & Dmax).
  destruct (enc_done_spec w x Hx Hw) as (out & k & E & B & Zl & K & K0 & _ & M).
  rewrite E in Hd. injection Hd as <-.
  destruct Hw as (_ & Hc & Hsh & _). destruct Hx as (_ & _ & HxS & _).
  set (bits := bytes_bits out) in *.
  assert (Lb : zlen bits = 8 * zlen out) by apply zlen_bytes_bits.
  assert (Hk : 10 + e_cnt w <= 8 * k <= 17 + e_cnt w) by dlia.
  set (D := x_shift x) in *.
  assert (HD : D < zlen bits <= 15 + D) by lia.
  unfold trailing_ok. fold bits.
  assert (Pos : zlen bits - zlen (sd_bits st) - Z.min 15 (sd_max st + 15) = D).
  { rewrite Dbits, Dmax. rewrite skipn_all2 by (unfold zlen in *; lia). rewrite zlen_nil. lia. }
  rewrite Pos. split; [lia|].
  assert (V : bits_val (skipn (Z.to_nat D) bits) = 2 ^ (zlen bits - D - 1)).
  { assert (V1 : bits_val bits = bits_val (firstn (Z.to_nat D) bits) * 2 ^ (zlen bits - D)
                                 + bits_val (skipn (Z.to_nat D) bits)).
    { rewrite <- (firstn_skipn (Z.to_nat D) bits) at 1. rewrite bits_val_app. f_equal. f_equal. f_equal.
      unfold zlen. rewrite skipn_length. unfold zlen in *. lia. }
    unfold bits in V1 at 1. rewrite bits_val_bytes_bits in V1 by exact B.
    rewrite V1 in M. 
    set (s := 24 + e_cnt w - 8 * k) in *. assert (Es : s = 15 + D - zlen bits) by lia.
    set (a := bits_val (firstn (Z.to_nat D) bits)) in *.
    set (b := bits_val (skipn (Z.to_nat D) bits)) in *.
    assert (Bb : 0 <= b < 2 ^ (zlen bits - D)).
    { unfold b. replace (zlen bits - D) with (zlen (skipn (Z.to_nat D) bits)); [apply bits_val_bound|].
      unfold zlen. rewrite skipn_length. unfold zlen in *. lia. }
    replace ((a * 2 ^ (zlen bits - D) + b) * 2 ^ s) with (b * 2 ^ s + a * 2 ^ 15) in M.
    2:{ replace (2 ^ 15) with (2 ^ (zlen bits - D) * 2 ^ s); [ring|].
        rewrite <- Z.pow_add_r by lia. f_equal. lia. }
    rewrite Z.mod_add in M by lia.
    assert (E15 : 2 ^ 15 = 2 ^ (zlen bits - D) * 2 ^ s) by (rewrite <- Z.pow_add_r by lia; f_equal; lia).
    assert (E14 : 2 ^ 14 = 2 ^ (zlen bits - D - 1) * 2 ^ s) by (rewrite <- Z.pow_add_r by lia; f_equal; lia).
    assert (Ps : 0 < 2 ^ s) by (apply Z.pow_pos_nonneg; lia).
    rewrite Z.mod_small in M by (rewrite E15; nia).
    rewrite E14 in M. apply Z.mul_reg_r in M; lia. }
  rewrite (skipn_nth _ _ false) in V by (unfold zlen in *; lia).
  replace (zlen bits - D - 1) with (zlen (skipn (S (Z.to_nat D)) bits)) in V.
  2:{ unfold zlen. rewrite skipn_length. unfold zlen in *. lia. }
  apply bits_val_pow2 in V. destruct V as [V1 V2].
  split; [exact V1|]. replace (Z.to_nat (D + 1)) with (S (Z.to_nat D)) by lia. exact V2.
Qed.

(** ** Adaptation *)
Lemma update_loop_length i val rate l : length (update_loop i val rate l) = length l.
Proof. revert i; induction l as [|v l IH]; intros i; cbn; auto. Qed.

Lemma update_loop_nth i val rate l k d : (k < length l)%nat -> (i + k < 15)%nat ->
  nth k (update_loop i val rate l) d =
  (let v := nth k l d in
   if (val <=? i + k)%nat then v - v / 2 ^ rate else v + (32768 - v) / 2 ^ rate).
Proof.
  revert i k; induction l as [|v l IH]; intros i k Hk Hi; [cbn in Hk; lia|].
  destruct k as [|k].
  - cbn [update_loop nth]. replace (i + 0)%nat with i by lia.
    destruct (Nat.ltb_spec i 15); [reflexivity|lia].
  - cbn [update_loop nth]. rewrite IH by (cbn in Hk; lia).
    replace (S i + k)%nat with (i + S k)%nat by lia. reflexivity.
Qed.

Lemma non_increasing_of_nth l :
  (forall i j, (i <= j < length l)%nat -> nth j l 0 <= nth i l 0) -> non_increasing l.
Proof.
  induction l as [|x l IH]; intros H; cbn; [exact I|]. split.
  - apply Forall_forall. intros y Hy. apply (In_nth _ _ 0) in Hy. destruct Hy as (n & Hn & <-).
    apply (H 0%nat (S n)). cbn; lia.
  - apply IH. intros i j Hij. apply (H (S i) (S j)). cbn; lia.
Qed.

Lemma shrink_mono a b p : 0 < p -> a <= b -> a - a / p <= b - b / p.
Proof.
  intros Hp Hab.
  pose proof (Z.div_mod a p ltac:(lia)). pose proof (Z.div_mod b p ltac:(lia)).
  pose proof (Z.mod_pos_bound a p Hp). pose proof (Z.mod_pos_bound b p Hp).
  set (qa := a / p) in *. set (qb := b / p) in *.
  assert (qa <= qb) by (apply Z.div_le_mono; lia).
  nia.
Qed.

Lemma update_cdf_valid icdf s : valid_icdf icdf -> valid_icdf (update_cdf icdf s).
Proof.
  intros (Hl & Hf & Hm & Hc). unfold valid_icdf, update_cdf.
  set (rate := 3 + Z.min (zlen icdf / 2) 2 + last icdf 0 / 16).
  assert (Hrate : 3 <= rate).
  { unfold rate. assert (0 <= zlen icdf / 2) by (apply Z.div_pos; [apply zlen_nonneg|lia]).
    assert (0 <= last icdf 0 / 16) by (apply Z.div_pos; lia). lia. }
  assert (P : 8 <= 2 ^ rate) by (change 8 with (2 ^ 3); apply Z.pow_le_mono_r; lia).
  set (l := removelast icdf) in *.
  assert (Ll : (length l <= 15)%nat) by (unfold l; rewrite removelast_length; lia).
  rewrite removelast_last, last_last, app_length, update_loop_length.
  unfold l at 1 2. rewrite removelast_length. cbn [length].
  assert (Ent : forall k, (k < length l)%nat -> 0 <= nth k l 0 < 32768).
  { intros k Hk. rewrite Forall_forall in Hf. apply Hf, nth_In. exact Hk. }
  split; [lia|]. split; [|split].
  - apply Forall_forall. intros y Hy. apply (In_nth _ _ 0) in Hy. destruct Hy as (n & Hn & <-).
    rewrite update_loop_length in Hn. rewrite update_loop_nth by lia. cbn zeta.
    pose proof (Ent n Hn). set (v := nth n l 0) in *.
    destruct (s <=? 0 + n)%nat.
    + assert (0 <= v / 2 ^ rate <= v) by (split; [apply Z.div_pos; lia|apply Z.div_le_upper_bound; nia]). lia.
    + assert (0 <= (32768 - v) / 2 ^ rate < 32768 - v).
      { split; [apply Z.div_pos; lia|apply Z.div_lt; lia]. } lia.
  - apply non_increasing_of_nth. intros i j Hij. rewrite update_loop_length in Hij.
    rewrite !update_loop_nth by lia. cbn zeta.
    pose proof (Ent i ltac:(lia)). pose proof (Ent j ltac:(lia)).
    pose proof (non_increasing_nth l i j Hm Hij) as Hle.
    set (a := nth i l 0) in *. set (b := nth j l 0) in *.
    assert (0 <= b / 2 ^ rate) by (apply Z.div_pos; lia).
    assert (0 <= (32768 - a) / 2 ^ rate) by (apply Z.div_pos; lia).
    destruct (Nat.leb_spec s (0 + i)), (Nat.leb_spec s (0 + j)); try lia.
    + apply shrink_mono; lia.
    + pose proof (shrink_mono (32768 - a) (32768 - b) (2 ^ rate)). lia.
  - dlia.
Qed.

Lemma adapt_loop_after i s rate l : s <= i -> Forall (fun x => 0 <= x <= 32768) l ->
  forall tmp, (i = s \/ tmp = 2 ^ 15) ->
  adapt_loop i s tmp rate l = map (fun x => x + (2 ^ 15 - x) / 2 ^ rate) l.
Proof.
  intros Hi Hl; revert i Hi; induction Hl as [|x l Hx Hl IH]; intros i Hi tmp Htmp; [reflexivity|].
  cbn [adapt_loop map].
  assert (Et : (if i =? s then 2 ^ 15 else tmp) = 2 ^ 15).
  { destruct (Z.eqb_spec i s); [reflexivity|]. lia. }
  rewrite Et. destruct (Z.ltb_spec (2 ^ 15) x); [lia|].
  f_equal. apply IH; lia.
Qed.

Lemma adapt_update_loop rate l : 0 <= rate -> Forall (fun x => 0 <= x < 32768) l ->
  forall (i s : nat), (i + length l <= 15)%nat ->
  adapt_loop (Z.of_nat i) (Z.of_nat s) (if (s <? i)%nat then 2 ^ 15 else 0) rate
    (map (fun x => 2 ^ 15 - x) l)
  = map (fun x => 2 ^ 15 - x) (update_loop i s rate l).
Proof.
  intros Hrate Hl; induction Hl as [|v l Hv Hl IH]; intros i s Hi; [reflexivity|].
  assert (Pr : 0 < 2 ^ rate) by (apply Z.pow_pos_nonneg; lia).
  cbn [map adapt_loop update_loop].
  set (tmp := if Z.of_nat i =? Z.of_nat s then _ else _).
  assert (Et : tmp = if (s <? S i)%nat then 2 ^ 15 else 0).
  { unfold tmp. destruct (Z.eqb_spec (Z.of_nat i) (Z.of_nat s)), (Nat.ltb_spec s i), (Nat.ltb_spec s (S i)); lia. }
  cbn [length] in Hi.
  destruct (Nat.ltb_spec i 15); [|lia].
  f_equal.
  - rewrite Et. destruct (Nat.ltb_spec s (S i)), (Nat.leb_spec s i); try lia.
    + destruct (Z.ltb_spec (2 ^ 15) (2 ^ 15 - v)); [lia|].
      replace (2 ^ 15 - (2 ^ 15 - v)) with v by lia. lia.
    + destruct (Z.ltb_spec 0 (2 ^ 15 - v)); [|lia].
      change (2 ^ 15) with 32768. rewrite Z.sub_0_r. lia.
  - rewrite Et. replace (Z.of_nat i + 1) with (Z.of_nat (S i)) by lia. apply IH. lia.
Qed.

Lemma adapt_ok icdf s : valid_icdf icdf ->
  adapt (spec_cdf icdf) (Z.of_nat s) = spec_cdf (update_cdf icdf s).
Proof.
  intros Hv. pose proof Hv as (Hl & Hf & Hm & Hc).
  unfold adapt, update_cdf.
  assert (L1 : last (spec_cdf icdf) 0 = last icdf 0) by (unfold spec_cdf; rewrite spec_cdf_probs || idtac; change ([2 ^ 15; last icdf 0]) with ([2 ^ 15] ++ [last icdf 0]); rewrite app_assoc; apply last_last).
  assert (L2 : removelast (removelast (spec_cdf icdf)) = map (fun x => 2 ^ 15 - x) (removelast icdf)).
  { rewrite spec_cdf_probs, removelast_last. unfold spec_probs. apply removelast_last. }
  assert (L3 : zlen (spec_cdf icdf) - 1 = zlen icdf).
  { rewrite spec_cdf_probs, zlen_app, zlen_cons, zlen_nil. unfold zlen.
    rewrite spec_probs_length by lia. lia. }
  rewrite L1, L2, L3.
  set (count := last icdf 0) in *.
  assert (Erate : 3 + b2z (15 <? count) + b2z (31 <? count) + Z.min (Z.log2 (zlen icdf)) 2
                = 3 + Z.min (zlen icdf / 2) 2 + count / 16).
  { assert (Elog : Z.min (Z.log2 (zlen icdf)) 2 = Z.min (zlen icdf / 2) 2).
    { destruct (Z.le_gt_cases 4 (zlen icdf)).
      - assert (2 <= Z.log2 (zlen icdf)) by (apply Z.log2_le_pow2; lia).
        assert (2 <= zlen icdf / 2) by dlia. lia.
      - assert (Hz : zlen icdf = 2 \/ zlen icdf = 3) by (unfold zlen in *; lia).
        destruct Hz as [-> | ->]; reflexivity. }
    rewrite Elog. destruct (Z.ltb_spec 15 count), (Z.ltb_spec 31 count); cbn [b2z]; dlia. }
  rewrite Erate. set (rate := 3 + Z.min (zlen icdf / 2) 2 + count / 16).
  assert (Hrate : 0 <= rate).
  { unfold rate. assert (0 <= zlen icdf / 2) by (apply Z.div_pos; [apply zlen_nonneg|lia]).
    assert (0 <= count / 16) by (apply Z.div_pos; lia). lia. }
  unfold spec_cdf. rewrite removelast_last, last_last.
  pose proof (adapt_update_loop rate (removelast icdf) Hrate Hf 0 s) as A.
  rewrite removelast_length in A. replace (s <? 0)%nat with false in A by reflexivity.
  change (Z.of_nat 0) with 0 in A. rewrite A by lia.
  f_equal. f_equal. f_equal.
  destruct (Z.ltb_spec count 32); cbn [b2z]; dlia.
Qed.

(** ** Sessions *)
Definition spec_ctx (ctx : list Z -> source) (hist : list Z) : spec_source :=
  match ctx hist with Fixed c => SFixed (spec_cdf c) | Adaptive i => SAdaptive i end.

(** Every symbol fits its table, every table reference exists. *)
Fixpoint session_ok (ctx : list Z -> source) (hist : list Z) (tables : list (list Z))
  (syms : list nat) : Prop :=
  match syms with
  | [] => True
  | s :: rest =>
      let src := ctx hist in
      match src with
      | Fixed c => valid_icdf c /\ (s < length c)%nat
      | Adaptive i => (i < length tables)%nat /\ (s < length (nth i tables []))%nat
      end /\
      session_ok ctx (hist ++ [Z.of_nat s]) (source_update tables src s) rest
  end.

Fixpoint session_tokens (ctx : list Z -> source) (hist : list Z) (tables : list (list Z))
  (syms : list nat) : list token :=
  match syms with
  | [] => []
  | s :: rest =>
      let src := ctx hist in
      symbol_token s (source_table tables src)
        :: session_tokens ctx (hist ++ [Z.of_nat s]) (source_update tables src s) rest
  end.
Fixpoint session_tables (ctx : list Z -> source) (hist : list Z) (tables : list (list Z))
  (syms : list nat) : list (list Z) :=
  match syms with
  | [] => tables
  | s :: rest =>
      session_tables ctx (hist ++ [Z.of_nat s]) (source_update tables (ctx hist) s) rest
  end.

Lemma encode_session_eq ctx hist tables w syms :
  encode_session ctx hist tables w syms =
  (enc_all w (session_tokens ctx hist tables syms), session_tables ctx hist tables syms).
Proof.
  revert hist tables w; induction syms as [|s syms IH]; intros; [reflexivity|].
  cbn [encode_session session_tokens session_tables]. rewrite IH. reflexivity.
Qed.

Lemma source_update_valid (ctx : list Z -> source) hist tables s :
  Forall valid_icdf tables ->
  match ctx hist with
  | Fixed c => valid_icdf c /\ (s < length c)%nat
  | Adaptive i => (i < length tables)%nat /\ (s < length (nth i tables []))%nat
  end ->
  Forall valid_icdf (source_update tables (ctx hist) s).
Proof.
  intros Hv H. destruct (ctx hist) as [c|i]; cbn; [assumption|].
  apply Forall_set_nth; [assumption|]. apply update_cdf_valid.
  rewrite Forall_forall in Hv. apply Hv, nth_In, H.
Qed.

Lemma session_valid ctx hist tables syms :
  Forall valid_icdf tables -> session_ok ctx hist tables syms ->
  Forall valid_token (session_tokens ctx hist tables syms) /\
  Forall valid_icdf (session_tables ctx hist tables syms).
Proof.
  revert hist tables; induction syms as [|s syms IH]; intros hist tables Hv Hok.
  - split; [constructor|assumption].
  - cbn [session_ok session_tokens session_tables] in *. destruct Hok as [H1 H2].
    pose proof (source_update_valid ctx hist tables s Hv H1) as Hu.
    destruct (IH _ _ Hu H2) as [I1 I2]. split; [|assumption].
    constructor; [|assumption].
    destruct (ctx hist) as [c|i]; cbn [source_table].
    + apply symbol_token_valid; apply H1.
    + apply symbol_token_valid; [|apply H1]. rewrite Forall_forall in Hv. apply Hv, nth_In, H1.
Qed.

Lemma decode_session_ok bits ctx syms : forall hist tables x st,
  x_ok x -> dec_rel bits x st -> Forall valid_icdf tables -> session_ok ctx hist tables syms ->
  inside bits (x_encode x (session_tokens ctx hist tables syms)) ->
  exists st',
    decode_session (length syms) (spec_ctx ctx) hist (map spec_cdf tables) st
    = Some (hist ++ map Z.of_nat syms, map spec_cdf (session_tables ctx hist tables syms), st') /\
    dec_rel bits (x_encode x (session_tokens ctx hist tables syms)) st'.
Proof.
  induction syms as [|s syms IH]; intros hist tables x st Hx Hd Hv Hok Hin.
  - exists st. cbn. rewrite app_nil_r. split; [reflexivity|assumption].
  - destruct (session_valid ctx hist tables (s :: syms) Hv Hok) as [Htok _].
    cbn [session_ok session_tokens session_tables length decode_session map] in *.
    destruct Hok as [H1 H2].
    pose proof (source_update_valid ctx hist tables s Hv H1) as Hu.
    inversion Htok as [|? ? Ht Hts]; subst.
    cbn [x_encode fold_left] in Hin. fold (x_encode (x_step x (symbol_token s (source_table tables (ctx hist))))
       (session_tokens ctx (hist ++ [Z.of_nat s]) (source_update tables (ctx hist) s) syms)) in Hin.
    set (t := symbol_token s (source_table tables (ctx hist))) in *.
    assert (Hx' : x_ok (x_step x t)) by (apply x_step_ok; assumption).
    pose proof (inside_all bits _ _ Hx' Hts Hin) as Hin1.
    assert (Htab : valid_icdf (source_table tables (ctx hist)) /\ (s < length (source_table tables (ctx hist)))%nat).
    { destruct (ctx hist) as [c|i]; cbn [source_table]; [exact H1|].
      split; [|apply H1]. rewrite Forall_forall in Hv. apply Hv, nth_In, H1. }
    destruct Htab as [Hvt Hs].
    destruct (decode_symbol_ok bits x st _ s Hx Hvt Hs Hd Hin1) as (st1 & E1 & D1).
    assert (Ecdf : match spec_ctx ctx hist with SFixed c => c | SAdaptive i => nth i (map spec_cdf tables) [] end
                 = spec_cdf (source_table tables (ctx hist))).
    { unfold spec_ctx. destruct (ctx hist) as [c|i]; cbn [source_table]; [reflexivity|].
      rewrite (nth_indep _ [] (spec_cdf [])) by (rewrite map_length; apply H1).
      apply map_nth. }
    rewrite Ecdf, E1.
    assert (Etab : match spec_ctx ctx hist with
                   | SFixed _ => map spec_cdf tables
                   | SAdaptive i => set_nth i (adapt (spec_cdf (source_table tables (ctx hist))) (Z.of_nat s)) (map spec_cdf tables)
                   end = map spec_cdf (source_update tables (ctx hist) s)).
    { unfold spec_ctx. destruct (ctx hist) as [c|i]; cbn [source_table source_update] in *; [reflexivity|].
      rewrite map_set_nth. f_equal. apply adapt_ok. assumption. }
    rewrite Etab.
    destruct (IH (hist ++ [Z.of_nat s]) (source_update tables (ctx hist) s) (x_step x t) st1) as (st' & E' & D');
      try assumption.
    exists st'. rewrite E'. rewrite <- app_assoc. split; [reflexivity|exact D'].
Qed.

(** The main theorem. *)
Lemma session_roundtrip ctx tables syms :
  Forall valid_icdf tables -> session_ok ctx [] tables syms ->
  exists data st,
    enc_done (fst (encode_session ctx [] tables enc_new syms)) = Some data /\ bytes data /\
    decode_session (length syms) (spec_ctx ctx) [] (map spec_cdf tables) (init_symbol data)
    = Some (map Z.of_nat syms,
            map spec_cdf (snd (encode_session ctx [] tables enc_new syms)), st) /\
    Forall valid_icdf (snd (encode_session ctx [] tables enc_new syms)) /\
    trailing_ok data st.
Proof.
  intros Hv Hok. rewrite encode_session_eq; cbn [fst snd].
  destruct (session_valid ctx [] tables syms Hv Hok) as [Htok Htab].
  set (ts := session_tokens ctx [] tables syms) in *.
  pose proof (enc_all_rel ts enc_new x_new x_new_ok enc_new_rel Htok) as Hrel.
  pose proof (x_encode_ok ts x_new x_new_ok Htok) as Hxok.
  destruct (enc_done_spec _ _ Hxok Hrel) as (data & k & E & B & _).
  pose proof (done_inside _ _ data Hxok Hrel E) as Hin.
  destruct (decode_session_ok (bytes_bits data) ctx syms [] tables x_new (init_symbol data)) as (st & Ed & Dd);
    try assumption; [apply x_new_ok|apply init_rel; assumption|].
  exists data, st. split; [exact E|]. split; [exact B|]. split; [exact Ed|]. split; [exact Htab|].
  eapply done_trailing; eassumption.
Qed.

(** ** Static tables *)
Definition static_tokens (syms : list (list Z * nat)) : list token :=
  map (fun cs => symbol_token (snd cs) (fst cs)) syms.

Lemma decode_static_ok bits syms : forall x st,
  x_ok x -> dec_rel bits x st ->
  Forall (fun cs => valid_icdf (fst cs) /\ (snd cs < length (fst cs))%nat) syms ->
  inside bits (x_encode x (static_tokens syms)) ->
  exists st', decode_static (map (fun cs => spec_cdf (fst cs)) syms) st
              = Some (map (fun cs => Z.of_nat (snd cs)) syms, st') /\
              dec_rel bits (x_encode x (static_tokens syms)) st'.
Proof.
  induction syms as [|[c s] syms IH]; intros x st Hx Hd Hv Hin.
  - exists st. split; [reflexivity|exact Hd].
  - inversion Hv as [|? ? [Hc Hs] Hv']; subst. cbn [fst snd] in *.
    assert (Ht : valid_token (symbol_token s c)) by (apply symbol_token_valid; assumption).
    assert (Hts : Forall valid_token (static_tokens syms)).
    { unfold static_tokens. rewrite Forall_map. eapply Forall_impl; [|exact Hv'].
      intros [c' s'] [A B]. apply symbol_token_valid; assumption. }
    assert (Hx' : x_ok (x_step x (symbol_token s c))) by (apply x_step_ok; assumption).
    unfold x_encode, static_tokens in Hin |- *. cbn [map fold_left fst snd] in Hin |- *.
    pose proof (inside_all bits _ _ Hx' Hts Hin) as Hin1.
    destruct (decode_symbol_ok bits x st c s Hx Hc Hs Hd Hin1) as (st1 & E1 & D1).
    cbn [decode_static]. rewrite E1.
    destruct (IH _ st1 Hx' D1 Hv' Hin) as (st' & E' & D'). rewrite E'.
    exists st'. split; [reflexivity|exact D'].
Qed.

Lemma static_roundtrip (syms : list (list Z * nat)) :
  Forall (fun cs => valid_icdf (fst cs) /\ (snd cs < length (fst cs))%nat) syms ->
  exists data st,
    enc_done (fold_left (fun w cs => enc_store w (symbol_token (snd cs) (fst cs))) syms enc_new) = Some data /\
    bytes data /\
    decode_static (map (fun cs => spec_cdf (fst cs)) syms) (init_symbol data)
    = Some (map (fun cs => Z.of_nat (snd cs)) syms, st) /\ trailing_ok data st.
Proof.
  intros Hv.
  assert (Ef : fold_left (fun w cs => enc_store w (symbol_token (snd cs) (fst cs))) syms enc_new
               = enc_all enc_new (static_tokens syms)).
  { unfold enc_all, static_tokens. generalize enc_new. clear Hv.
    induction syms as [|cs syms IH]; intros w; [reflexivity|]. cbn. apply IH. }
  rewrite Ef.
  assert (Hts : Forall valid_token (static_tokens syms)).
  { unfold static_tokens. rewrite Forall_map. eapply Forall_impl; [|exact Hv].
    intros [c' s'] [A B]. apply symbol_token_valid; assumption. }
  pose proof (enc_all_rel _ enc_new x_new x_new_ok enc_new_rel Hts) as Hrel.
  pose proof (x_encode_ok _ x_new x_new_ok Hts) as Hxok.
  destruct (enc_done_spec _ _ Hxok Hrel) as (data & k & E & B & _).
  pose proof (done_inside _ _ data Hxok Hrel E) as Hin.
  destruct (decode_static_ok (bytes_bits data) syms x_new (init_symbol data)) as (st & Ed & Dd);
    try assumption; [apply x_new_ok|apply init_rel; assumption|].
  exists data, st. split; [exact E|]. split; [exact B|]. split; [exact Ed|].
  eapply done_trailing; eassumption.
Qed.

(** A boolean test for [valid_icdf], for concrete tables. *)
Fixpoint non_increasingb (l : list Z) : bool :=
  match l with
  | [] => true
  | x :: r => forallb (fun y => y <=? x) r && non_increasingb r
  end.
Definition valid_icdfb (icdf : list Z) : bool :=
  (2 <=? length icdf)%nat && (length icdf <=? 16)%nat &&
  forallb (fun x => (0 <=? x) && (x <? 32768)) (removelast icdf) &&
  non_increasingb (removelast icdf) && (0 <=? last icdf 0) && (last icdf 0 <=? 32).
Lemma valid_icdfb_ok icdf : valid_icdfb icdf = true -> valid_icdf icdf.
Proof.
  unfold valid_icdfb, valid_icdf. rewrite !andb_true_iff. intros (((((H1 & H2) & H3) & H4) & H5) & H6).
  split; [lia|]. split.
  { rewrite forallb_forall in H3. apply Forall_forall. intros x Hx. specialize (H3 x Hx). lia. }
  split; [|lia].
  revert H4. generalize (removelast icdf). intros l. induction l as [|x l IH]; cbn; [auto|].
  rewrite andb_true_iff. intros [A B]. split; [|auto].
  rewrite forallb_forall in A. apply Forall_forall. intros y Hy. specialize (A y Hy). lia.
Qed.
