(** Serialization of two-pass data. *)
From Verif Require Import Base LogExp_model Quant_model Quant_proof Quant_sel Quant_run Obu_proof Rate_model Rate_spec.

Definition byte (b : Z) : Prop := 0 <= b < 256.
Fixpoint le_val (l : list Z) : Z := match l with [] => 0 | b :: l => b + 256 * le_val l end.

Lemma le_val_range l : Forall byte l -> 0 <= le_val l < 256 ^ zlen l.
Proof.
  induction 1 as [|b l B H IH]; cbn [le_val]; [cbn; lia|]. unfold byte in B.
  rewrite zlen_cons, Z.pow_add_r by (pose proof (zlen_nonneg _ l); lia). change (256 ^ 1) with 256. lia.
Qed.
Lemma le_length n v : length (le n v) = n.
Proof. revert v. induction n as [|n IH]; intros v; cbn [le length]; [reflexivity|]. rewrite IH. reflexivity. Qed.
Lemma le_bytes n v : Forall byte (le n v).
Proof.
  revert v. induction n as [|n IH]; intros v; cbn [le]; constructor; [|apply IH].
  apply Z.mod_pos_bound. lia.
Qed.
Lemma le_val_le n v : le_val (le n v) = v mod 256 ^ Z.of_nat n.
Proof.
  revert v. induction n as [|n IH]; intros v; cbn [le le_val].
  - cbn. symmetry. apply Z.mod_1_r.
  - rewrite IH, Nat2Z.inj_succ, Z.pow_succ_r by lia.
    rewrite Z.rem_mul_r by (try apply Z.pow_pos_nonneg; lia). reflexivity.
Qed.
Lemma le_of_val l v : Forall byte l -> v mod 256 ^ zlen l = le_val l -> le (length l) v = l.
Proof.
  intros H. revert v. induction H as [|b l B H IH]; intros v E; cbn [le length]; [reflexivity|].
  cbn [le_val] in E. rewrite zlen_cons, Z.add_comm, Z.pow_add_r in E by (pose proof (zlen_nonneg _ l); lia).
  change (256 ^ 1) with 256 in E.
  rewrite Z.rem_mul_r in E by (try apply Z.pow_pos_nonneg; pose proof (zlen_nonneg _ l); lia).
  unfold byte in B. pose proof (Z.mod_pos_bound v 256 ltac:(lia)) as M.
  assert (E1 : v mod 256 = b) by lia. rewrite E1. f_equal. apply IH. lia.
Qed.

(** the encoder's writer is the format *)
Lemma buffer_val_le n v : buffer_val v n = le n v.
Proof.
  revert v. induction n as [|n IH]; intros v; cbn [buffer_val le]; [reflexivity|].
  rewrite IH, Z.shiftr_div_pow2 by lia. reflexivity.
Qed.

(** reading *)
Lemma unbuffer_loop_ok x : forall n pre post fill shift ret, Forall byte x -> length x = n -> n <> 0%nat ->
  0 <= shift -> shift + 8 * Z.of_nat n <= 64 -> 0 <= ret < 2 ^ shift ->
  unbuffer_loop n (Des (zlen pre) fill (pre ++ x ++ post)) shift ret =
    Some (Des (zlen pre + Z.of_nat n) fill (pre ++ x ++ post), sw 64 (ret + le_val x * 2 ^ shift)).
Proof.
  induction x as [|b x IH]; intros n pre post fill shift ret Hx Ln Nn Hs Hb Hr; cbn [length] in Ln; [lia|].
  destruct n as [|n]; [lia|]. injection Ln as Ln. pose proof (Forall_inv Hx) as B. pose proof (Forall_inv_tail Hx) as Hx'. unfold byte in B.
  cbn [unbuffer_loop d_pos d_buf d_fill].
  assert (A : at_ (pre ++ (b :: x) ++ post) (zlen pre) = Some b).
  { unfold at_. pose proof (zlen_nonneg _ pre). destruct (Z.leb_spec 0 (zlen pre)); [|lia].
    unfold zlen. rewrite Nat2Z.id, nth_error_app2, Nat.sub_diag by lia. reflexivity. }
  rewrite A.
  replace (pre ++ (b :: x) ++ post) with ((pre ++ [b]) ++ x ++ post) by (rewrite <- app_assoc; reflexivity).
  assert (P : 0 < 2 ^ shift) by (apply Z.pow_pos_nonneg; lia).
  assert (P8 : 2 ^ (shift + 8) = 256 * 2 ^ shift) by (rewrite Z.pow_add_r by lia; change (2 ^ 8) with 256; lia).
  (* the shifted byte is a multiple of 2 ^ shift *)
  assert (K : exists k, sw 64 (b * 2 ^ shift) = k * 2 ^ shift /\
     (sw 64 (ret + k * 2 ^ shift) = ret + k * 2 ^ shift)).
  { unfold sw. exists ((b * 2 ^ shift + 2 ^ (64 - 1)) mod 2 ^ 64 / 2 ^ shift - 2 ^ (63 - shift)).
    assert (E63 : 2 ^ (64 - 1) = 2 ^ (63 - shift) * 2 ^ shift) by (rewrite <- Z.pow_add_r by lia; f_equal; lia).
    assert (E64 : 2 ^ 64 = 2 ^ (64 - shift) * 2 ^ shift) by (rewrite <- Z.pow_add_r by lia; f_equal; lia).
    set (u := (b * 2 ^ shift + 2 ^ (64 - 1)) mod 2 ^ 64).
    assert (U : u = u / 2 ^ shift * 2 ^ shift).
    { unfold u. rewrite E63, <- Z.mul_add_distr_r, E64, Z.mul_mod_distr_r by (try apply Z.pow_nonzero; lia).
      rewrite Z.div_mul by lia. reflexivity. }
    assert (Ru : 0 <= u < 2 ^ 64) by (apply Z.mod_pos_bound; reflexivity).
    split; [rewrite Z.mul_sub_distr_r, <- U, <- E63; reflexivity|].
    rewrite Z.mul_sub_distr_r, <- E63, <- U.
    replace (ret + (u - 2 ^ (64 - 1)) + 2 ^ (64 - 1)) with (ret + u) by ring.
    rewrite Z.mod_small; [ring|].
    assert (u / 2 ^ shift < 2 ^ (64 - shift)) by (apply Z.div_lt_upper_bound; lia).
    rewrite E64, U. nia. }
  destruct K as [k [K1 K2]]. rewrite K1, lor_add by lia.
  destruct n as [|n].
  - destruct x; [|discriminate Ln]. cbn [unbuffer_loop le_val].
    rewrite <- K2. f_equal. f_equal.
    assert (S64 : forall a c, sw 64 (a + sw 64 c) = sw 64 (a + c)).
    { intros a c. unfold sw. f_equal.
      replace (a + ((c + 2 ^ (64 - 1)) mod 2 ^ 64 - 2 ^ (64 - 1)) + 2 ^ (64 - 1)) with (a + (c + 2 ^ (64 - 1)) mod 2 ^ 64) by ring.
      rewrite Z.add_mod_idemp_r by lia. f_equal. ring. }
    rewrite <- K1, S64. f_equal. ring.
  - assert (W : sw 64 (b * 2 ^ shift) = b * 2 ^ shift).
    { apply sw_id; [lia|]. assert (256 * 2 ^ shift <= 2 ^ 63). { rewrite <- P8. apply Z.pow_le_mono_r; lia. }
      change (2 ^ (64 - 1)) with (2 ^ 63). nia. }
    rewrite W in K1. rewrite <- K1.
    replace (zlen pre + 1) with (zlen (pre ++ [b])) by (rewrite zlen_app; reflexivity).
    rewrite IH; [|assumption|assumption|lia|lia|lia|rewrite P8; nia].
    rewrite zlen_app. f_equal. f_equal; [f_equal; cbn; lia|].
    cbn [le_val]. rewrite P8. f_equal. ring.
Qed.

Lemma unbuffer_ok n x pre post fill : Forall byte x -> length x = n -> (0 < n <= 8)%nat ->
  unbuffer_val n (Des (zlen pre) fill (pre ++ x ++ post)) =
    Some (Des (zlen pre + Z.of_nat n) fill (pre ++ x ++ post), sw 64 (le_val x)).
Proof.
  intros Hx Hl Hn. unfold unbuffer_val. rewrite unbuffer_loop_ok; try assumption; [|lia..].
  change (2 ^ 0) with 1. rewrite Z.mul_1_r, Z.add_0_l. reflexivity.
Qed.
Lemma unbuffer_small n x pre post fill : Forall byte x -> length x = n -> (0 < n <= 7)%nat ->
  unbuffer_val n (Des (zlen pre) fill (pre ++ x ++ post)) =
    Some (Des (zlen pre + Z.of_nat n) fill (pre ++ x ++ post), le_val x) /\ 0 <= le_val x < 256 ^ Z.of_nat n.
Proof.
  intros Hx Hl Hn. rewrite (unbuffer_ok n) by (assumption || lia).
  pose proof (le_val_range x Hx) as R. unfold zlen in R. rewrite Hl in R. split; [|exact R].
  assert (256 ^ Z.of_nat n <= 256 ^ 7) by (apply Z.pow_le_mono_r; lia). change (256 ^ 7) with (2 ^ 56) in *.
  rewrite sw_id by lia. reflexivity.
Qed.

(** splitting off the first bytes *)
Lemma split_bytes n (l : list Z) : (n <= length l)%nat -> Forall byte l ->
  exists x y, l = x ++ y /\ length x = n /\ length y = (length l - n)%nat /\ Forall byte x /\ Forall byte y.
Proof.
  intros H F. exists (firstn n l), (skipn n l). rewrite (firstn_skipn n l). rewrite firstn_length, skipn_length.
  rewrite <- (firstn_skipn n l) in F. apply Forall_app in F. repeat split; try tauto; lia.
Qed.

(** ** Metrics *)
Lemma sw32_le x : length x = 4%nat -> Forall byte x ->
  - 2 ^ 31 <= sw 32 (le_val x) < 2 ^ 31 /\ le 4 (sw 32 (le_val x)) = x.
Proof.
  intros L F. pose proof (le_val_range x F) as R. unfold zlen in R. rewrite L in R. change (256 ^ Z.of_nat 4) with (2 ^ 32) in R.
  unfold sw. change (2 ^ (32 - 1)) with (2 ^ 31). pose proof (Z.mod_pos_bound (le_val x + 2 ^ 31) (2 ^ 32) ltac:(lia)) as M.
  split; [lia|]. rewrite <- L at 1. apply le_of_val; [exact F|]. unfold zlen. rewrite L. change (256 ^ Z.of_nat 4) with (2 ^ 32).
  rewrite Zminus_mod_idemp_l. replace (le_val x + 2 ^ 31 - 2 ^ 31) with (le_val x) by ring. apply Z.mod_small, R.
Qed.
Lemma sw_le_back v : - 2 ^ 31 <= v < 2 ^ 31 -> sw 32 (le_val (le 4 v)) = v.
Proof.
  intros H. rewrite le_val_le. change (256 ^ Z.of_nat 4) with (2 ^ 32). unfold sw. change (2 ^ (32 - 1)) with (2 ^ 31).
  rewrite Zplus_mod_idemp_l. rewrite Z.mod_small by lia. lia.
Qed.

Lemma parse_metrics_ok bs rest fill : Forall byte bs -> length bs = 8%nat -> 8 <= fill ->
  exists d r, parse_metrics (Des 0 fill (bs ++ rest)) = Some (d, r) /\ d_fill d = fill /\ d_buf d = bs ++ rest /\
    match r with
    | inr m => valid_metrics m /\ packet_bytes m = bs
    | inl _ => forall m, valid_metrics m -> packet_bytes m <> bs
    end.
Proof.
  intros F L Hf. destruct (split_bytes 4 bs ltac:(lia) F) as (x & y & -> & Lx & Ly & Fx & Fy).
  rewrite app_length in L, Ly.
  unfold parse_metrics. cbn [d_fill]. destruct (Z.ltb_spec fill 8); [lia|].
  destruct (unbuffer_small 4 x [] (y ++ rest) fill Fx Lx ltac:(lia)) as [U1 R1]. cbn [app] in U1.
  change (Z.of_nat 4) with 4 in U1. rewrite zlen_nil in U1. rewrite <- app_assoc. rewrite U1. cbn [snd fst].
  change (256 ^ Z.of_nat 4) with (2 ^ 32) in R1.
  destruct (unbuffer_small 4 y x rest fill Fy ltac:(lia) ltac:(lia)) as [U2 R2].
  replace (zlen x) with (0 + 4) in U2 by (unfold zlen; lia).
  (* the two parts of the first word *)
  assert (E31 : Z.land (le_val x) 0x7FFFFFFF = le_val x mod 2 ^ 31) by (change 0x7FFFFFFF with (Z.ones 31); apply Z.land_ones; lia).
  rewrite E31. rewrite Z.shiftr_div_pow2 by lia.
  set (t := le_val x mod 2 ^ 31). pose proof (Z.mod_pos_bound (le_val x) (2 ^ 31) ltac:(lia)) as Tr. fold t in Tr.
  pose proof (Z.div_mod (le_val x) (2 ^ 31) ltac:(lia)) as D. fold t in D.
  assert (Q : le_val x / 2 ^ 31 = 0 \/ le_val x / 2 ^ 31 = 1).
  { assert (0 <= le_val x / 2 ^ 31 < 2) by (split; [apply Z.div_pos; lia|apply Z.div_lt_upper_bound; lia]). lia. }
  assert (X : x = le 4 (t + (if negb (le_val x / 2 ^ 31 =? 0) then 2 ^ 31 else 0))).
  { symmetry. rewrite <- Lx at 1. apply le_of_val; [exact Fx|]. unfold zlen. rewrite Lx.
    change (256 ^ Z.of_nat 4) with (2 ^ 32). destruct Q as [Q|Q]; rewrite Q in *; cbn [Z.eqb negb]; rewrite Z.mod_small; lia. }
  destruct (Z.ltb_spec 4 t) as [Bad|Good].
  - eexists _, _. split; [reflexivity|]. cbn [d_fill d_buf]. split; [reflexivity|]. split; [reflexivity|].
    intros m [Vt _] E. unfold packet_bytes in E. apply app_eq_app in E.
    assert (Ex : le 4 (m_fti m + (if m_show m then 2 ^ 31 else 0)) = x).
    { destruct E as [l [[E1 E2]|[E1 E2]]].
      - assert (length l = 0%nat) as Z0. { apply (f_equal (@length Z)) in E1. rewrite app_length, le_length in E1. lia. }
        destruct l; [|discriminate]. rewrite app_nil_r in E1. exact E1.
      - assert (length l = 0%nat) as Z0. { apply (f_equal (@length Z)) in E1. rewrite app_length, le_length in E1. lia. }
        destruct l; [|discriminate]. rewrite app_nil_r in E1. congruence. }
    apply (f_equal le_val) in Ex. rewrite le_val_le in Ex. change (256 ^ Z.of_nat 4) with (2 ^ 32) in Ex.
    rewrite Z.mod_small in Ex by (destruct (m_show m); lia).
    unfold t in Bad. rewrite <- Ex in Bad. destruct (m_show m).
    + replace (m_fti m + 2 ^ 31) with (m_fti m + 1 * 2 ^ 31) in Bad by ring. rewrite Z.mod_add, Z.mod_small in Bad by lia. lia.
    + rewrite Z.add_0_r, Z.mod_small in Bad by lia. lia.
  - rewrite U2. cbn [fst snd]. eexists _, _. split; [reflexivity|]. cbn [d_fill d_buf]. split; [reflexivity|]. split; [reflexivity|].
    destruct (sw32_le y ltac:(lia) Fy) as [Rs Es].
    split; [split; cbn [m_fti m_scale]; lia|]. unfold packet_bytes. cbn [m_fti m_scale m_show]. rewrite Es, <- X. reflexivity.
Qed.

Lemma packet_length m : length (packet_bytes m) = 8%nat.
Proof. unfold packet_bytes. rewrite app_length, !le_length. reflexivity. Qed.
Lemma packet_is_bytes m : Forall byte (packet_bytes m).
Proof. apply Forall_app. split; apply le_bytes. Qed.
Lemma app_inj_len {A} (a b c d : list A) : length a = length c -> a ++ b = c ++ d -> a = c /\ b = d.
Proof.
  revert c. induction a as [|x a IH]; intros [|y c] L E; cbn in L; try lia; [auto|].
  injection E as -> E. destruct (IH c ltac:(lia) E) as [-> ->]. auto.
Qed.
Lemma packet_inj m m' : valid_metrics m -> valid_metrics m' -> packet_bytes m = packet_bytes m' -> m = m'.
Proof.
  intros [A B] [A' B'] E. unfold packet_bytes in E. apply app_inj_len in E; [|rewrite !le_length; reflexivity].
  destruct E as [E1 E2]. apply (f_equal le_val) in E1. rewrite !le_val_le in E1. change (256 ^ Z.of_nat 4) with (2 ^ 32) in E1.
  rewrite !Z.mod_small in E1 by (destruct (m_show m), (m_show m'); lia).
  apply (f_equal (fun l => sw 32 (le_val l))) in E2. rewrite !sw_le_back in E2 by assumption.
  destruct m as [s t h], m' as [s' t' h']. cbn [m_scale m_fti m_show] in *.
  assert (t = t' /\ h = h') as [-> ->] by (destruct h, h'; lia). congruence.
Qed.
Lemma parse_packet_bytes m rest fill : valid_metrics m -> 8 <= fill ->
  exists d, parse_metrics (Des 0 fill (packet_bytes m ++ rest)) = Some (d, inr m) /\ d_fill d = fill /\ d_buf d = packet_bytes m ++ rest.
Proof.
  intros V Hf. destruct (parse_metrics_ok (packet_bytes m) rest fill (packet_is_bytes m) (packet_length m) Hf) as (d & r & E & F & B & R).
  destruct r as [u|m']; [exfalso; apply (R m V); reflexivity|]. destruct R as [V' E']. apply packet_inj in E'; [|assumption..]. subst m'.
  exists d. auto.
Qed.
