(** Lemmas about bytes, leb128, OBU framing, tile groups and IVF. *)
From Verif Require Import Base Bits Obu_model Obu_spec.

(** ** Bits and bytes *)

Lemma bits_of_add n b x : bits_of n (b * 2 ^ Z.of_nat n + x) = bits_of n x.
Proof.
  assert (G : forall k, (k <= n)%nat -> bits_of k (b * 2 ^ Z.of_nat n + x) = bits_of k x); [|apply G; lia].
  induction k as [|k IH]; intros Hk; [reflexivity|]. cbn [bits_of]. rewrite IH by lia. f_equal.
  rewrite !Z.testbit_eqb by lia. f_equal.
  replace (Z.of_nat n) with (Z.of_nat (n - S k) + 1 + Z.of_nat k) by lia.
  rewrite Z.pow_add_r, Z.mul_assoc, (Z.add_comm _ x), Z.div_add by (try apply Z.pow_nonzero; lia).
  rewrite Z.pow_add_r, (Z.mul_assoc b) by lia. change (2 ^ 1) with 2. rewrite Z.mod_add by lia. reflexivity.
Qed.
Lemma bits_of_bits_val l : bits_of (length l) (bits_val l) = l.
Proof.
  induction l as [|b l IH]; [reflexivity|]. cbn [length bits_of]. rewrite bits_val_cons. unfold zlen at 1 2.
  rewrite bits_of_add, IH. f_equal.
  pose proof (bits_val_bound l) as B. unfold zlen in B. rewrite Z.testbit_eqb by lia.
  rewrite Z.add_comm, Z.div_add, Z.div_small by (try apply Z.pow_nonzero; lia). destruct b; reflexivity.
Qed.

Lemma length_mod8 (l : list bool) : zlen l mod 8 = 0 -> length l = (8 * Nat.div (length l) 8)%nat.
Proof.
  unfold zlen. intros H. apply Z.div_exact in H; [|lia]. pose proof (Nat2Z.inj_div (length l) 8) as D. change (Z.of_nat 8) with 8 in D. lia.
Qed.
Lemma pack_ok n : forall l, length l = (8 * n)%nat -> bytes_bits (pack n l) = l /\ bytes (pack n l) /\ length (pack n l) = n.
Proof.
  induction n as [|n IH]; intros l H.
  - destruct l; [|discriminate]. repeat split. constructor.
  - cbn [pack]. destruct (IH (skipn 8 l)) as (E & B & L); [rewrite skipn_length; lia|].
    assert (F : length (firstn 8 l) = 8%nat) by (rewrite firstn_length; lia).
    split; [|split; [|cbn [length]; congruence]].
    + unfold bytes_bits in *. cbn [flat_map]. rewrite E. rewrite <- F at 1. rewrite bits_of_bits_val. apply firstn_skipn.
    + constructor; [|exact B]. pose proof (bits_val_bound (firstn 8 l)) as V. unfold zlen in V. rewrite F in V. exact V.
Qed.
Lemma to_bytes_ok l : zlen l mod 8 = 0 -> bytes_bits (to_bytes l) = l /\ bytes (to_bytes l) /\ 8 * zlen (to_bytes l) = zlen l.
Proof.
  intros H. apply length_mod8 in H. unfold to_bytes. destruct (pack_ok _ _ H) as (A & B & C). split; [exact A|]. split; [exact B|].
  unfold zlen. rewrite C. lia.
Qed.
Lemma align_len l : zlen (l ++ pad_of l) mod 8 = 0.
Proof.
  unfold pad_of. rewrite zlen_app, zlen_repeat. pose proof (Z.mod_pos_bound (- zlen l) 8 ltac:(lia)). rewrite Z2Nat.id by lia. dlia.
Qed.
Lemma pad_short l : exists n, (n < 8)%nat /\ pad_of l = repeat false n.
Proof. unfold pad_of. eexists. split; [|reflexivity]. pose proof (Z.mod_pos_bound (- zlen l) 8 ltac:(lia)). lia. Qed.

(** ** Bitwise operations on bytes *)
Lemma lor_add a b n : 0 <= n -> 0 <= a < 2 ^ n -> Z.lor a (b * 2 ^ n) = a + b * 2 ^ n.
Proof.
  intros Hn Ha. assert (L : Z.land a (b * 2 ^ n) = 0).
  { apply Z.bits_inj'. intros k Hk. rewrite Z.land_spec, Z.bits_0.
    destruct (Z.lt_ge_cases k n).
    - rewrite Z.mul_pow2_bits_low by lia. apply andb_false_r.
    - destruct (Z.eq_dec a 0) as [->|]; [now rewrite Z.bits_0|]. rewrite (Z.bits_above_log2 a k); [reflexivity|lia|].
      apply Z.lt_le_trans with n; [|lia]. apply Z.log2_lt_pow2; lia. }
  rewrite <- Z.lxor_lor by exact L. symmetry. apply Z.add_nocarry_lxor. exact L.
Qed.
Lemma land127 v : Z.land v 127 = v mod 128.
Proof. change 127 with (Z.ones 7). apply Z.land_ones. lia. Qed.
Lemma land128_small x : 0 <= x < 128 -> Z.land x 128 = 0.
Proof.
  intros H. apply Z.bits_inj'. intros k Hk. rewrite Z.land_spec, Z.bits_0. destruct (Z.eq_dec k 7) as [->|N].
  - rewrite Z.testbit_eqb, Z.div_small by (change (2 ^ 7) with 128; lia). reflexivity.
  - change 128 with (2 ^ 7). rewrite Z.pow2_bits_false by lia. apply andb_false_r.
Qed.
Lemma lor128 x : 0 <= x < 128 -> Z.lor x 128 = x + 128.
Proof. intros H. exact (lor_add x 1 7 ltac:(lia) H). Qed.
Lemma land128_big x : 0 <= x < 128 -> Z.land (x + 128) 128 <> 0.
Proof.
  intros H E. assert (T : Z.testbit (Z.land (x + 128) 128) 7 = false) by (rewrite E; apply Z.bits_0).
  rewrite Z.land_spec in T. rewrite Z.testbit_eqb in T by lia. change (2 ^ 7) with 128 in T.
  replace (x + 128) with (x + 1 * 128) in T by lia. rewrite Z.div_add, Z.div_small in T by lia. discriminate.
Qed.
Lemma mod128_add x : 0 <= x < 128 -> Z.land (x + 128) 127 = x.
Proof. intros H. rewrite land127. replace (x + 128) with (x + 1 * 128) by lia. rewrite Z.mod_add, Z.mod_small; lia. Qed.

(** ** leb128 *)
Lemma uleb_ok n : forall v, 0 <= v < 2 ^ (7 * Z.of_nat n) -> n <> O ->
  exists l, uleb_loop n v = Some l /\ bytes l /\ zlen l = Z.log2 v / 7 + 1 /\ zlen l <= Z.of_nat n /\
  forall m i acc rest, zlen l <= Z.of_nat m -> 0 <= i -> 0 <= acc < 2 ^ (7 * i) ->
    s_leb_loop m i acc (l ++ rest) = Some (acc + v * 2 ^ (7 * i), rest).
Proof.
  induction n as [|n IH]; intros v Hv Hn; [contradiction|]. cbn [uleb_loop].
  rewrite land127, Z.shiftr_div_pow2 by lia. change (2 ^ 7) with 128.
  pose proof (Z.mod_pos_bound v 128 ltac:(lia)) as Mb.
  destruct (Z.eqb_spec (v / 128) 0) as [E|E].
  - assert (v < 128) by dlia. rewrite Z.mod_small by lia.
    exists [v]. split; [reflexivity|]. split; [constructor; [unfold is_byte; lia|constructor]|].
    assert (L : Z.log2 v < 7) by (destruct (Z.eq_dec v 0) as [->|]; [cbn; lia|apply Z.log2_lt_pow2; [lia|change (2 ^ 7) with 128; lia]]).
    pose proof (Z.log2_nonneg v). split; [change (zlen [v]) with 1; rewrite Z.div_small; lia|]. split; [change (zlen [v]) with 1; lia|].
    intros m i acc rest Hm Hi Ha. change (zlen [v]) with 1 in Hm. destruct m as [|m]; [lia|]. cbn [s_leb_loop app].
    rewrite land127, Z.mod_small by lia. rewrite land128_small by lia. cbn [Z.eqb].
    rewrite Z.shiftl_mul_pow2 by lia. rewrite (Z.mul_comm i 7). rewrite lor_add by lia. reflexivity.
  - assert (Q : 0 <= v / 128 < 2 ^ (7 * Z.of_nat n)).
    { split; [apply Z.div_pos; lia|]. apply Z.div_lt_upper_bound; [lia|]. replace 128 with (2 ^ 7) by reflexivity.
      rewrite <- Z.pow_add_r by lia. replace (7 + 7 * Z.of_nat n) with (7 * Z.of_nat (S n)) by lia. lia. }
    destruct n as [|n]. { change (2 ^ (7 * Z.of_nat 0)) with 1 in Q. lia. }
    destruct (IH (v / 128) Q ltac:(lia)) as (l & E1 & Bl & Ll & Lb & P). rewrite E1.
    rewrite lor128 by lia. exists (v mod 128 + 128 :: l). split; [reflexivity|]. split; [constructor; [unfold is_byte; lia|exact Bl]|].
    assert (V : 128 <= v) by dlia.
    assert (Lg : Z.log2 v = Z.log2 (v / 128) + 7).
    { replace (v / 128) with (Z.shiftr v 7) by (rewrite Z.shiftr_div_pow2 by lia; reflexivity). rewrite Z.log2_shiftr by lia.
      pose proof (Z.log2_le_mono 128 v V) as X. change (Z.log2 128) with 7 in X. lia. }
    split. { rewrite zlen_cons, Ll, Lg. replace (Z.log2 (v / 128) + 7) with (Z.log2 (v / 128) + 1 * 7) by lia. rewrite Z.div_add by lia. lia. }
    split; [rewrite zlen_cons; lia|].
    intros m i acc rest Hm Hi Ha. rewrite zlen_cons in Hm. destruct m as [|m]; [pose proof (zlen_nonneg _ l); lia|]. cbn [s_leb_loop app].
    pose proof (land128_big (v mod 128) Mb) as NB. destruct (Z.eqb_spec (Z.land (v mod 128 + 128) 128) 0); [contradiction|].
    rewrite mod128_add by lia. rewrite Z.shiftl_mul_pow2 by lia. rewrite (Z.mul_comm i 7). rewrite lor_add by lia.
    assert (P7 : 2 ^ (7 * (i + 1)) = 128 * 2 ^ (7 * i)) by (replace (7 * (i + 1)) with (7 + 7 * i) by lia; rewrite Z.pow_add_r by lia; reflexivity).
    rewrite P by (try rewrite P7; try lia; nia).
    rewrite P7. f_equal. f_equal. pose proof (Z.div_mod v 128 ltac:(lia)) as D. nia.
Qed.
Lemma log2_32 v : 0 <= v < 2 ^ 32 -> 0 <= Z.log2 v < 32.
Proof. intros H. split; [apply Z.log2_nonneg|]. destruct (Z.eq_dec v 0) as [->|]; [cbn; lia|]. apply Z.log2_lt_pow2; lia. Qed.
Lemma leb_ok v : 0 <= v < 2 ^ 32 -> exists l, write_uleb128 v = Some l /\ bytes l /\ zlen l = Z.log2 v / 7 + 1 /\
  forall rest, s_leb128 (l ++ rest) = Some (v, rest).
Proof.
  intros H. unfold write_uleb128. rewrite u32_id by exact H.
  destruct (uleb_ok 8 v) as (l & E & B & L & Lb & P); [|lia|].
  { split; [lia|]. apply Z.lt_trans with (2 ^ 32); [lia|]. apply Z.pow_lt_mono_r; lia. }
  exists l. split; [exact E|]. split; [exact B|]. split; [exact L|]. intros rest. unfold s_leb128.
  rewrite P by (try (change (2 ^ (7 * 0)) with 1); lia). change (2 ^ (7 * 0)) with 1. rewrite Z.mul_1_r, Z.add_0_l.
  destruct (Z.ltb_spec v (2 ^ 32)); [reflexivity|lia].
Qed.
Lemma leb_small v : 0 <= v < 128 -> write_uleb128 v = Some [v] /\ forall rest, s_leb128 (v :: rest) = Some (v, rest).
Proof.
  intros H. destruct (leb_ok v) as (l & E & B & L & P); [lia|].
  assert (El : write_uleb128 v = Some [v]).
  { unfold write_uleb128. rewrite u32_id by lia. cbn [uleb_loop]. rewrite Z.shiftr_div_pow2 by lia. change (2 ^ 7) with 128.
    rewrite Z.div_small by lia. cbn [Z.eqb]. rewrite land127, Z.mod_small by lia. reflexivity. }
  split; [exact El|]. rewrite El in E. injection E as <-. exact P.
Qed.

(** ** OBUs *)
Lemma o_app_some a b : Some a +++ Some b = Some (a ++ b). Proof. reflexivity. Qed.

Lemma obu_header_ok t : exists b, unwrap_bytes (write_obu_header t) = Some [b] /\ is_byte b /\
  s_obu_header (bits_of 8 b) = Some ((obu_type_num t, false, true), []).
Proof. destruct t; (eexists; split; [vm_compute; reflexivity|]); (split; [unfold is_byte; lia|vm_compute; reflexivity]). Qed.

Lemma firstn_zlen {A} (l r : list A) : firstn (Z.to_nat (zlen l)) (l ++ r) = l.
Proof. unfold zlen. rewrite Nat2Z.id, firstn_app, firstn_all, Nat.sub_diag. cbn [firstn]. apply app_nil_r. Qed.
Lemma skipn_zlen {A} (l r : list A) : skipn (Z.to_nat (zlen l)) (l ++ r) = r.
Proof. unfold zlen. rewrite Nat2Z.id, skipn_app, skipn_all, Nat.sub_diag. reflexivity. Qed.

(** A byte string that a parser takes for one OBU *)
Definition framed (b : list Z) (o : Z * list Z) : Prop :=
  b <> [] /\ bytes b /\ forall rest, s_obu (b ++ rest) = Some (o, rest).

Lemma framed_intro t szb payload hb b : is_byte hb -> s_obu_header (bits_of 8 hb) = Some ((obu_type_num t, false, true), []) ->
  bytes szb -> (forall rest, s_leb128 (szb ++ rest) = Some (zlen payload, rest)) -> bytes payload -> b = hb :: szb ++ payload ->
  framed b (obu_type_num t, payload).
Proof.
  intros Hh Eh Bs Ps Bp ->. split; [discriminate|]. split; [constructor; [exact Hh|apply Forall_app; split; assumption]|].
  intros rest. cbn [app s_obu]. rewrite Eh, <- app_assoc, Ps. rewrite zlen_app. pose proof (zlen_nonneg _ rest).
  destruct (Z.leb_spec (zlen payload) (zlen payload + zlen rest)); [|lia]. rewrite firstn_zlen, skipn_zlen. reflexivity.
Qed.

Lemma emit_obu_ok t payload : bytes payload -> zlen payload < 2 ^ 32 ->
  exists b, emit_obu t payload = Some b /\ framed b (obu_type_num t, payload).
Proof.
  intros B L. destruct (obu_header_ok t) as (hb & E1 & Bh & P1).
  destruct (leb_ok (zlen payload)) as (sz & E2 & Bs & _ & P2); [pose proof (zlen_nonneg _ payload); lia|].
  unfold emit_obu. rewrite E1, E2, !o_app_some. eexists. split; [reflexivity|].
  exact (framed_intro t sz payload hb _ Bh P1 Bs P2 B eq_refl).
Qed.

(** Sequences of framed OBUs *)
Lemma obus_framed l : forall os fuel, Forall2 framed l os -> (length (concat l) <= fuel)%nat ->
  s_obus fuel (concat l) = Some os /\ bytes (concat l).
Proof.
  induction l as [|b l IH]; intros os fuel F H.
  - inversion F. subst. destruct fuel; (split; [reflexivity|constructor]).
  - inversion F as [|b' o l' os' (Ne & Bb & P) F']. subst. cbn [concat] in *. rewrite app_length in H.
    destruct b as [|x b]; [contradiction|]. cbn [length] in H. destruct fuel as [|fuel]; [lia|].
    destruct (IH os' fuel F' ltac:(lia)) as (E & B).
    split; [|apply Forall_app; split; assumption].
    cbn [app s_obus]. change (x :: b ++ concat l) with ((x :: b) ++ concat l). rewrite P, E. reflexivity.
Qed.

(** Gathering: an optional byte string that is a sequence of framed OBUs *)
Definition yields (x : option (list Z)) (os : list (Z * list Z)) : Prop :=
  exists l, x = Some (concat l) /\ Forall2 framed l os.
Lemma yields_app x y a b : yields x a -> yields y b -> yields (x +++ y) (a ++ b).
Proof.
  intros (l & -> & Fl) (m & -> & Fm). exists (l ++ m). split; [cbn; now rewrite concat_app|]. apply Forall2_app; assumption.
Qed.
Lemma yields_nil : yields (Some []) [].
Proof. exists []. split; [reflexivity|constructor]. Qed.
Lemma yields_one b o : framed b o -> yields (Some b) [o].
Proof. intros H. exists [b]. split; [cbn; now rewrite app_nil_r|]. constructor; [exact H|constructor]. Qed.
Lemma yields_concat {A} (f : A -> option (list Z)) (P : A -> list (Z * list Z) -> Prop) l :
  (forall x, In x l -> exists os, yields (f x) os /\ P x os) ->
  exists oss, yields (concat_opt (map f l)) (concat oss) /\ Forall2 P l oss.
Proof.
  induction l as [|x l IH]; intros H.
  - exists []. split; [apply yields_nil|constructor].
  - destruct (H x (or_introl eq_refl)) as (os & Y & Px). destruct IH as (oss & Y' & F); [intros; apply H; now right|].
    exists (os :: oss). split; [|constructor; assumption]. cbn [map concat_opt fold_right concat]. apply yields_app; assumption.
Qed.

(** ** Metadata *)
Definition view_metadata (m : metadata) : s_metadata :=
  match m with
  | CLL a b => SCll a b
  | MDCV p w mx mn => SMdcv p w mx mn
  | T35 c e d => ST35 c (if c =? 255 then Some e else None) d
  end.
Definition u16_ok x := 0 <= x < 2 ^ 16.
Definition xy_ok (p : Z * Z) := u16_ok (fst p) /\ u16_ok (snd p).
(** Field types: u16, u32, u8 *)
Definition metadata_ok (m : metadata) : Prop :=
  match m with
  | CLL a b => u16_ok a /\ u16_ok b
  | MDCV p w mx mn => length p = 3%nat /\ Forall xy_ok p /\ xy_ok w /\ 0 <= mx < 2 ^ 32 /\ 0 <= mn < 2 ^ 32
  | T35 c e d => is_byte c /\ is_byte e /\ bytes d /\ zlen d < 2 ^ 32 - 4
  end.

Lemma rt_xy p : xy_ok p -> round_trips (w_xy p) s_xy p.
Proof.
  intros (A & B). destruct p as [x y]. unfold w_xy, s_xy. cbn [fst snd] in *.
  eapply rt_bind; [apply rt_bits; [lia|exact A]|]. eapply rt_last; [apply rt_bits; [lia|exact B]|reflexivity].
Qed.
Definition wlen (w : wres) (n : Z) : Prop := exists l, w = Some (l, true) /\ zlen l = n.
Lemma wlen_bits n v : 0 <= n -> 0 <= v < 2 ^ n -> wlen (w_bits n v) n.
Proof.
  intros Hn H. unfold w_bits. destruct (Z.leb_spec 0 v); [|lia]. destruct (Z.ltb_spec v (2 ^ n)); [|lia]. cbn [andb].
  eexists. split; [reflexivity|]. rewrite zlen_bits_of. lia.
Qed.
Lemma wlen_seq a b m n : wlen a m -> wlen b n -> wlen (a >>> b) (m + n).
Proof. intros (l & -> & A) (k & -> & B). exists (l ++ k). split; [reflexivity|]. rewrite zlen_app. lia. Qed.
Lemma wlen_list {A} (f : A -> wres) n l : (forall x, In x l -> wlen (f x) n) -> wlen (w_list f l) (n * zlen l).
Proof.
  induction l as [|x l IH]; intros H; [exists []; split; [reflexivity|cbn; lia]|].
  rewrite zlen_cons. replace (n * (zlen l + 1)) with (n + n * zlen l) by lia. cbn [w_list fold_right]. apply wlen_seq; [apply H; now left|].
  apply IH. intros; apply H; now right.
Qed.
Lemma wlen_of w n l : wlen w n -> w = Some (l, true) -> zlen l = n.
Proof. intros (k & -> & E) H. injection H as <-. exact E. Qed.
Lemma all_trailing_ok n : all_trailing (true :: repeat false n) = true.
Proof. cbn. induction n; [reflexivity|exact IHn]. Qed.

Lemma unwrap_align l : unwrap_bytes (w_align (Some (l, true))) = Some (to_bytes (l ++ pad_of l)).
Proof. reflexivity. Qed.
(** A payload of known bits, the trailing one bit and the alignment *)
Lemma aligned_ok (l : list bool) : exists n b, (n < 8)%nat /\ unwrap_bytes (w_align (Some (l, true))) = Some b /\ bytes b /\
  bytes_bits b = l ++ repeat false n /\ 8 * zlen b = zlen l + Z.of_nat n.
Proof.
  destruct (pad_short l) as (n & Hn & E). exists n, (to_bytes (l ++ pad_of l)).
  destruct (to_bytes_ok (l ++ pad_of l) (align_len l)) as (A & B & C). rewrite E in *.
  split; [exact Hn|]. split; [rewrite unwrap_align, E; reflexivity|]. split; [exact B|]. split; [exact A|].
  rewrite C, zlen_app, zlen_repeat. reflexivity.
Qed.

Lemma meta_framed m hb tb szb b payload : is_byte hb -> s_obu_header (bits_of 8 hb) = Some ((5, false, true), []) ->
  bytes szb -> (forall rest, s_leb128 (szb ++ rest) = Some (zlen (tb :: payload), rest)) ->
  is_byte tb -> bytes payload -> s_metadata_obu (tb :: payload) = Some (view_metadata m) -> b = hb :: szb ++ tb :: payload ->
  exists o, framed b o /\ fst o = 5 /\ s_metadata_obu (snd o) = Some (view_metadata m).
Proof.
  intros Hh Eh Bs Ps Ht Bp Sm ->. exists (5, tb :: payload). split; [|split; [reflexivity|exact Sm]].
  exact (framed_intro OBU_METADATA szb (tb :: payload) hb _ Hh Eh Bs Ps (Forall_cons _ Ht Bp) eq_refl).
Qed.

Lemma before_trailing d : s_before_trailing (d ++ [128]) = Some d.
Proof. unfold s_before_trailing. rewrite rev_app_distr. cbn [rev app drop_zeros Z.eqb]. cbn. now rewrite rev_involutive. Qed.

Lemma byte_1 x : is_byte x -> unwrap_bytes (w_bits 8 x) = Some [x].
Proof.
  unfold is_byte. intros H. unfold w_bits. destruct (Z.leb_spec 0 x); [|lia]. destruct (Z.ltb_spec x (2 ^ 8)); [|change (2 ^ 8) with 256 in *; lia].
  cbn [andb unwrap_bytes]. unfold to_bytes. rewrite bits_of_length. change (Nat.div (Z.to_nat 8) 8) with 1%nat. cbn [pack].
  rewrite firstn_all2 by (rewrite bits_of_length; lia). rewrite bits_val_bits_of_small by exact H. reflexivity.
Qed.

Lemma metadata_obu_ok m : metadata_ok m -> exists b o, write_metadata_obu m = Some b /\ framed b o /\ fst o = 5 /\
  s_metadata_obu (snd o) = Some (view_metadata m).
Proof.
  intros Hm. destruct (obu_header_ok OBU_METADATA) as (hb & E1 & Bh & P1).
  assert (G : forall (w : wres) bits len, w = Some (bits, true) -> zlen bits = 8 * len -> 0 <= len < 120 ->
    (forall rest, (exists n, rest = true :: repeat false n) ->
       match meta_type m with 1 | 2 => True | _ => False end /\
       s_metadata_obu (meta_type m :: to_bytes (bits ++ rest)) = Some (view_metadata m) \/ zlen rest mod 8 <> 0) ->
    exists b o, unwrap_bytes (write_obu_header OBU_METADATA) +++ write_uleb128 (len + 2) +++ write_uleb128 (meta_type m) +++
      unwrap_bytes (w_align (w >>> w_bit true)) = Some b /\ framed b o /\ fst o = 5 /\ s_metadata_obu (snd o) = Some (view_metadata m)).
  { intros w bits len -> Lb Hlen Sm. rewrite E1.
    destruct (leb_small (len + 2) ltac:(lia)) as (E2 & P2). rewrite E2.
    assert (Ht : 0 <= meta_type m < 128) by (destruct m; cbn; lia). destruct (leb_small _ Ht) as (E3 & _). rewrite E3.
    change (Some (bits, true) >>> w_bit true) with (Some (bits ++ [true], true)).
    destruct (aligned_ok (bits ++ [true])) as (n & b & Hn & E4 & Bb & Bits & Lbb). rewrite E4, !o_app_some.
    rewrite zlen_app, Lb in Lbb. change (zlen [true]) with 1 in Lbb.
    assert (N7 : n = 7%nat) by lia.
    assert (Eb : b = to_bytes (bits ++ true :: repeat false 7)).
    { rewrite unwrap_align in E4. injection E4 as <-. f_equal. destruct (pad_short (bits ++ [true])) as (k & Hk & Ep). rewrite Ep.
      rewrite <- app_assoc. cbn [app]. do 3 f_equal.
      pose proof (align_len (bits ++ [true])) as Al. rewrite Ep, !zlen_app, zlen_repeat, Lb in Al. change (zlen [true]) with 1 in Al.
      clear - Al Hk. dlia. }
    destruct (Sm (true :: repeat false 7)) as [(_ & Sm')|Bad]; [exists 7%nat; reflexivity| |contradiction Bad; reflexivity].
    rewrite <- Eb in Sm'. eexists.
    destruct (meta_framed m hb (meta_type m) [len + 2] (hb :: [len + 2] ++ meta_type m :: b) b Bh P1) as (o & F & Fo & So); try assumption.
    - constructor; [unfold is_byte; lia|constructor].
    - intros rest. cbn [app]. rewrite zlen_cons. replace (zlen b + 1) with (len + 2) by lia. apply P2.
    - unfold is_byte; lia.
    - reflexivity.
    - exists o. split; [reflexivity|]. split; [exact F|]. split; assumption. }
  destruct m as [a b|prim white mx mn|c e d].
  - unfold write_metadata_obu. destruct Hm as (Ha & Hb).
    assert (R : round_trips (w_bits 16 a >>> w_bits 16 b) (x <- p_f 16 ;; y <- p_f 16 ;; p_ret (SCll x y)) (SCll a b)).
    { eapply rt_bind; [apply rt_bits; [lia|exact Ha]|]. eapply rt_last; [apply rt_bits; [lia|exact Hb]|reflexivity]. }
    destruct R as (bits & Ew & Pw). 
    assert (Lw : zlen bits = 8 * 4).
    { apply (wlen_of _ _ _ (wlen_seq _ _ 16 16 (wlen_bits 16 a ltac:(lia) Ha) (wlen_bits 16 b ltac:(lia) Hb)) Ew). }
    change (meta_size (CLL a b) + 2) with (4 + 2).
    apply (G _ bits 4 Ew Lw ltac:(lia)).
    intros rest (n & ->). destruct (Z.eq_dec (zlen (true :: repeat false n) mod 8) 0) as [M|M]; [left|right; exact M].
    split; [exact I|]. destruct (to_bytes_ok (bits ++ true :: repeat false n)) as (Tb & _ & _).
    { rewrite zlen_app, Lw. clear - M. dlia. }
    unfold s_metadata_obu. destruct (leb_small 1 ltac:(lia)) as (_ & P). change (meta_type (CLL a b)) with 1. rewrite P, Tb, Pw, all_trailing_ok. reflexivity.
  - unfold write_metadata_obu. destruct Hm as (Lp & Fp & Hw & Hmx & Hmn).
    assert (Rl : round_trips (w_list w_xy prim) (p_repeat 3 s_xy) prim).
    { rewrite <- Lp. pose proof (rt_list w_xy s_xy (fun x => x) prim) as R. rewrite map_id in R. apply R.
      intros x Hx. apply rt_xy. rewrite Forall_forall in Fp. apply Fp, Hx. }
    assert (R : round_trips (w_list w_xy prim >>> w_xy white >>> w_bits 32 mx >>> w_bits 32 mn)
      (prim <- p_repeat 3 s_xy ;; white <- s_xy ;; lmax <- p_f 32 ;; lmin <- p_f 32 ;; p_ret (SMdcv prim white lmax lmin)) (SMdcv prim white mx mn)).
    { eapply rt_bind; [exact Rl|]. eapply rt_bind; [apply rt_xy, Hw|]. eapply rt_bind; [apply rt_bits; [lia|exact Hmx]|].
      eapply rt_last; [apply rt_bits; [lia|exact Hmn]|reflexivity]. }
    assert (Xy : forall p, xy_ok p -> wlen (w_xy p) 32).
    { intros p (A & B). unfold w_xy. change 32 with (16 + 16). apply wlen_seq; apply wlen_bits; try lia; assumption. }
    assert (Lw : forall bits, w_list w_xy prim >>> w_xy white >>> w_bits 32 mx >>> w_bits 32 mn = Some (bits, true) -> zlen bits = 8 * 24).
    { intros bits Ew. assert (L3 : zlen prim = 3) by (unfold zlen; lia).
      assert (W : wlen (w_list w_xy prim >>> w_xy white >>> w_bits 32 mx >>> w_bits 32 mn) (32 * zlen prim + (32 + (32 + 32)))).
      { apply wlen_seq; [apply wlen_list; intros x Hx; apply Xy; rewrite Forall_forall in Fp; apply Fp, Hx|].
        apply wlen_seq; [apply Xy, Hw|]. apply wlen_seq; apply wlen_bits; lia || assumption. }
      rewrite (wlen_of _ _ _ W Ew), L3. reflexivity. }
    destruct R as (bits & Ew & Pw). specialize (Lw bits Ew).
    change (meta_size (MDCV prim white mx mn) + 2) with (24 + 2).
    apply (G _ bits 24 Ew Lw ltac:(lia)).
    intros rest (n & ->). destruct (Z.eq_dec (zlen (true :: repeat false n) mod 8) 0) as [M|M]; [left|right; exact M].
    split; [exact I|]. destruct (to_bytes_ok (bits ++ true :: repeat false n)) as (Tb & _ & _).
    { rewrite zlen_app, Lw. clear - M. dlia. }
    unfold s_metadata_obu. destruct (leb_small 2 ltac:(lia)) as (_ & P). change (meta_type (MDCV prim white mx mn)) with 2. rewrite P, Tb, Pw, all_trailing_ok. reflexivity.
  - clear G. destruct Hm as (Hc & He & Bd & Ld). unfold write_metadata_obu. rewrite E1, (byte_1 c Hc), (byte_1 e He).
    destruct (leb_ok (zlen d + (if c =? 255 then 4 else 3))) as (szb & E2 & Bs & _ & P2).
    { pose proof (zlen_nonneg _ d). destruct (c =? 255); lia. }
    change (meta_type (T35 c e d)) with 4. destruct (leb_small 4 ltac:(lia)) as (E3 & P3). rewrite E2, E3.
    change (unwrap_bytes (w_align (w_bit true))) with (Some [128]).
    set (ext := if c =? 255 then [e] else []).
    replace (if c =? 255 then Some [e] else Some []) with (Some ext) by (unfold ext; destruct (c =? 255); reflexivity).
    rewrite !o_app_some. eexists.
    destruct (meta_framed (T35 c e d) hb 4 szb (hb :: szb ++ 4 :: c :: ext ++ d ++ [128]) (c :: ext ++ d ++ [128]) Bh P1) as (o & F & Fo & So); try assumption.
    + intros rest. rewrite P2. do 2 f_equal. rewrite !zlen_cons, !zlen_app. change (zlen [128]) with 1. unfold ext. destruct (c =? 255); [change (zlen [e]) with 1|change (zlen []) with 0]; lia.
    + unfold is_byte; lia.
    + constructor; [exact Hc|]. apply Forall_app. split; [unfold ext; destruct (c =? 255); [constructor; [exact He|constructor]|constructor]|].
      apply Forall_app. split; [exact Bd|]. constructor; [unfold is_byte; lia|constructor].
    + unfold s_metadata_obu. rewrite P3. change (c :: ext ++ d ++ [128]) with ((c :: ext) ++ d ++ [128]). rewrite app_assoc, before_trailing.
      cbn [app view_metadata]. unfold ext. destruct (Z.eqb_spec c 255); reflexivity.
    + reflexivity.
    + exists o. split; [reflexivity|]. split; [exact F|]. split; assumption.
Qed.

(** ** Tile groups *)
Lemma le_bytes_ok n : forall v, 0 <= v < 2 ^ (8 * Z.of_nat n) -> bytes (le_bytes n v) /\ length (le_bytes n v) = n /\ s_le (le_bytes n v) = v /\ le_val (le_bytes n v) = v.
Proof.
  induction n as [|n IH]; intros v Hv.
  - change (2 ^ (8 * Z.of_nat 0)) with 1 in Hv. repeat split; try constructor; cbn; lia.
  - cbn [le_bytes s_le le_val length]. pose proof (Z.mod_pos_bound v 256 ltac:(lia)) as M. pose proof (Z.div_mod v 256 ltac:(lia)) as D.
    destruct (IH (v / 256)) as (A & B & C & E).
    { split; [apply Z.div_pos; lia|]. apply Z.div_lt_upper_bound; [lia|]. change 256 with (2 ^ 8). rewrite <- Z.pow_add_r by lia.
      replace (8 + 8 * Z.of_nat n) with (8 * Z.of_nat (S n)) by lia. lia. }
    split; [constructor; [exact M|exact A]|]. split; [congruence|]. rewrite C, E. lia.
Qed.

Lemma s_tiles_SS n tsb l : s_tiles (S (S n)) tsb l =
  if tsb <=? zlen l then
    let size := s_le (firstn (Z.to_nat tsb) l) + 1 in
    let l := skipn (Z.to_nat tsb) l in
    if size <=? zlen l then
      match s_tiles (S n) tsb (skipn (Z.to_nat size) l) with
      | Some ts => Some (firstn (Z.to_nat size) l :: ts)
      | None => None
      end
    else None
  else None.
Proof. reflexivity. Qed.
Lemma tiles_ok tsb : 0 <= tsb -> forall l, Forall (fun t => 1 <= zlen t <= 2 ^ (8 * tsb)) l -> l <> [] ->
  exists b, raw_tiles_loop tsb l = Some b /\ s_tiles (length l) tsb b = Some l /\ (Forall bytes l -> bytes b).
Proof.
  intros Ht. induction l as [|t l IH]; intros F Ne; [contradiction|]. inversion F as [|? ? Ft Fl]; subst.
  destruct l as [|t2 l].
  - exists t. split; [reflexivity|]. split; [reflexivity|]. intros B. inversion B. assumption.
  - destruct (IH Fl ltac:(discriminate)) as (b & E & St & Bb). cbn [raw_tiles_loop] in *. rewrite E.
    destruct (Z.eqb_spec (zlen t) 0); [lia|]. unfold write_le.
    destruct (Z.leb_spec 0 (zlen t - 1)); [|lia]. destruct (Z.ltb_spec (zlen t - 1) (2 ^ (8 * tsb))); [|lia]. cbn [andb].
    rewrite !o_app_some. eexists. split; [reflexivity|].
    destruct (le_bytes_ok (Z.to_nat tsb) (zlen t - 1)) as (Bl & Ll & Sl & _); [rewrite Z2Nat.id by lia; lia|].
    set (lb := le_bytes (Z.to_nat tsb) (zlen t - 1)) in *.
    assert (Zl : zlen lb = tsb) by (unfold zlen; lia).
    split.
    + change (length (t :: t2 :: l)) with (S (S (length l))). change (length (t2 :: l)) with (S (length l)) in *. rewrite s_tiles_SS.
      assert (F1 : firstn (Z.to_nat tsb) (lb ++ t ++ b) = lb) by (rewrite <- Zl; apply firstn_zlen).
      assert (S1 : skipn (Z.to_nat tsb) (lb ++ t ++ b) = t ++ b) by (rewrite <- Zl; apply skipn_zlen).
      rewrite F1, S1, Sl, zlen_app, Zl. pose proof (zlen_nonneg _ (t ++ b)) as Np. destruct (Z.leb_spec tsb (tsb + zlen (t ++ b))); [|lia].
      cbv zeta. replace (zlen t - 1 + 1) with (zlen t) by lia. rewrite zlen_app. pose proof (zlen_nonneg _ b). destruct (Z.leb_spec (zlen t) (zlen t + zlen b)); [|lia].
      rewrite skipn_zlen, firstn_zlen, St. reflexivity.
    + intros B. apply Forall_app. split; [exact Bl|]. apply Forall_app. split; [exact (Forall_inv B)|]. apply Bb. exact (Forall_inv_tail B).
Qed.

Lemma max_by_key_ok l : forall i, l <> [] -> exists j m, max_by_key i l = Some (j, m) /\ i <= j < i + zlen l /\
  nth_error l (Z.to_nat (j - i)) = Some m /\ Forall (fun x => x <= m) l /\
  forall k x, j < k -> nth_error l (Z.to_nat (k - i)) = Some x -> x < m.
Proof.
  induction l as [|x l IH]; intros i Ne; [contradiction|]. cbn [max_by_key].
  destruct l as [|y l].
  - cbn [max_by_key]. exists i, x. split; [reflexivity|]. split; [change (zlen [x]) with 1; lia|]. rewrite Z.sub_diag.
    split; [reflexivity|]. split; [constructor; [lia|constructor]|]. intros k z Hk Hz. destruct (Z.to_nat (k - i)) as [|q] eqn:Ek; [lia|]. cbn in Hz. destruct q; discriminate.
  - destruct (IH (i + 1) ltac:(discriminate)) as (j & m & E & Hj & Nj & F & Lst). rewrite E. rewrite zlen_cons.
    assert (Shift : forall k, i < k -> Z.to_nat (k - i) = S (Z.to_nat (k - (i + 1)))) by (intros; lia).
    destruct (Z.ltb_spec m x) as [L|L].
    + exists i, x. split; [reflexivity|]. split; [lia|]. rewrite Z.sub_diag. split; [reflexivity|]. split.
      { constructor; [lia|]. eapply Forall_impl; [|exact F]. cbv beta. lia. }
      intros k z Hk Hz. rewrite (Shift k Hk) in Hz. cbn [nth_error] in Hz. apply nth_error_In in Hz.
      rewrite Forall_forall in F. specialize (F z Hz). lia.
    + exists j, m. split; [reflexivity|]. split; [lia|]. split; [rewrite Shift by lia; exact Nj|]. split; [constructor; assumption|].
      intros k z Hk Hz. rewrite (Shift k) in Hz by lia. cbn [nth_error] in Hz. exact (Lst k z Hk Hz).
Qed.

(** ** IVF *)
Lemma take_bytes_app a r : take_bytes (zlen a) (a ++ r) = Some (a, r).
Proof.
  unfold take_bytes. rewrite zlen_app. pose proof (zlen_nonneg _ r). destruct (Z.leb_spec (zlen a) (zlen a + zlen r)); [|lia].
  now rewrite firstn_zlen, skipn_zlen.
Qed.
Lemma take_le_ok n v r : 0 <= v < 2 ^ (8 * Z.of_nat n) -> take_le (Z.of_nat n) (le_bytes n v ++ r) = Some (v, r).
Proof.
  intros H. destruct (le_bytes_ok n v H) as (_ & L & _ & V). unfold take_le.
  replace (Z.of_nat n) with (zlen (le_bytes n v)) by (unfold zlen; lia). rewrite take_bytes_app, V. reflexivity.
Qed.
