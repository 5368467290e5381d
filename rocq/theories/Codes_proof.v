(** Any syntax written as coding events and parsed by a matching program
    round trips through the range coder; the universal codes do. *)
From Verif Require Import Base EC_model EC_spec EC_proof EC_dec Codes_model.

Definition spec_source_of (src : source) : spec_source :=
  match src with Fixed c => SFixed (spec_cdf c) | Adaptive i => SAdaptive i end.

(** [reads p evs a]: fed with the symbols of [evs], program [p] asks for
    exactly the tables used by [evs] and returns [a]. *)
Inductive reads {A} : prog A -> list event -> A -> Prop :=
| reads_ret a : reads (Ret a) [] a
| reads_rd src s k evs a :
    reads (k (Z.of_nat s)) evs a -> reads (Rd (spec_source_of src) k) ((src, s) :: evs) a.

Lemma reads_bind {A B} (p : prog A) (f : A -> prog B) e1 e2 a b :
  reads p e1 a -> reads (f a) e2 b -> reads (bind p f) (e1 ++ e2) b.
Proof. induction 1; intros H2; cbn; [exact H2|]. constructor. auto. Qed.

Lemma reads_bind_ret {A B} (p : prog A) (g : A -> B) e a b :
  reads p e a -> b = g a -> reads (bind p (fun x => Ret (g x))) e b.
Proof. intros H ->. rewrite <- (app_nil_r e). eapply reads_bind; [exact H|constructor]. Qed.

(** Every event fits its table. *)
Fixpoint events_ok (tables : list (list Z)) (evs : list event) : Prop :=
  match evs with
  | [] => True
  | (src, s) :: rest =>
      match src with
      | Fixed c => valid_icdf c /\ (s < length c)%nat
      | Adaptive i => (i < length tables)%nat /\ (s < length (nth i tables []))%nat
      end /\ events_ok (source_update tables src s) rest
  end.

Fixpoint event_tokens (tables : list (list Z)) (evs : list event) : list token :=
  match evs with
  | [] => []
  | (src, s) :: rest =>
      symbol_token s (source_table tables src) :: event_tokens (source_update tables src s) rest
  end.
Fixpoint event_tables (tables : list (list Z)) (evs : list event) : list (list Z) :=
  match evs with
  | [] => tables
  | (src, s) :: rest => event_tables (source_update tables src s) rest
  end.

Lemma enc_events_eq evs : forall w tables,
  enc_events evs (w, tables) = (enc_all w (event_tokens tables evs), event_tables tables evs).
Proof.
  unfold enc_events. induction evs as [|[src s] evs IH]; intros w tables; [reflexivity|].
  cbn [fold_left enc_event event_tokens event_tables]. rewrite IH. reflexivity.
Qed.

Lemma update_valid tables src s : Forall valid_icdf tables ->
  match src with
  | Fixed c => valid_icdf c /\ (s < length c)%nat
  | Adaptive i => (i < length tables)%nat /\ (s < length (nth i tables []))%nat
  end -> Forall valid_icdf (source_update tables src s) /\
         valid_icdf (source_table tables src) /\ (s < length (source_table tables src))%nat.
Proof.
  intros Hv H. pose proof (source_update_valid (fun _ => src) [] tables s Hv H) as U.
  split; [exact U|]. destruct src as [c|i]; cbn [source_table]; [exact H|].
  split; [|apply H]. rewrite Forall_forall in Hv. apply Hv, nth_In, H.
Qed.

Lemma events_valid evs : forall tables, Forall valid_icdf tables -> events_ok tables evs ->
  Forall valid_token (event_tokens tables evs) /\ Forall valid_icdf (event_tables tables evs).
Proof.
  induction evs as [|[src s] evs IH]; intros tables Hv Hok; [split; [constructor|assumption]|].
  cbn [events_ok event_tokens event_tables] in *. destruct Hok as [H1 H2].
  destruct (update_valid tables src s Hv H1) as (U & V & L).
  destruct (IH _ U H2) as [I1 I2]. split; [|exact I2]. constructor; [|exact I1].
  apply symbol_token_valid; assumption.
Qed.

Lemma decode_prog_ok {A} bits (p : prog A) evs a : reads p evs a -> forall tables x st,
  x_ok x -> dec_rel bits x st -> Forall valid_icdf tables -> events_ok tables evs ->
  inside bits (x_encode x (event_tokens tables evs)) ->
  exists st', decode_prog p (map spec_cdf tables) st
              = Some (a, map spec_cdf (event_tables tables evs), st') /\
              dec_rel bits (x_encode x (event_tokens tables evs)) st'.
Proof.
  induction 1 as [a|src s k evs a Hr IH]; intros tables x st Hx Hd Hv Hok Hin.
  - exists st. split; [reflexivity|exact Hd].
  - destruct (events_valid _ _ Hv Hok) as [Htok _].
    cbn [events_ok event_tokens event_tables decode_prog] in *. destruct Hok as [H1 H2].
    destruct (update_valid tables src s Hv H1) as (U & V & L).
    inversion Htok as [|? ? Ht Hts]; subst.
    unfold x_encode in Hin |- *. cbn [fold_left] in Hin |- *.
    set (t := symbol_token s (source_table tables src)) in *.
    assert (Hx' : x_ok (x_step x t)) by (apply x_step_ok; assumption).
    pose proof (inside_all bits _ _ Hx' Hts Hin) as Hin1.
    destruct (decode_symbol_ok bits x st _ s Hx V L Hd Hin1) as (st1 & E1 & D1).
    assert (Ecdf : match spec_source_of src with SFixed c => c | SAdaptive i => nth i (map spec_cdf tables) [] end
                 = spec_cdf (source_table tables src)).
    { destruct src as [c|i]; cbn [source_table spec_source_of]; [reflexivity|].
      rewrite (nth_indep _ [] (spec_cdf [])) by (rewrite map_length; apply H1). apply map_nth. }
    rewrite Ecdf, E1.
    assert (Etab : match spec_source_of src with
                   | SFixed _ => map spec_cdf tables
                   | SAdaptive i => set_nth i (adapt (spec_cdf (source_table tables src)) (Z.of_nat s)) (map spec_cdf tables)
                   end = map spec_cdf (source_update tables src s)).
    { destruct src as [c|i]; cbn [source_table source_update spec_source_of] in *; [reflexivity|].
      rewrite map_set_nth. f_equal. apply adapt_ok. assumption. }
    rewrite Etab. apply IH; assumption.
Qed.

(** Whole streams. *)
Lemma prog_roundtrip {A} (p : prog A) evs a tables :
  reads p evs a -> Forall valid_icdf tables -> events_ok tables evs ->
  exists data st,
    enc_done (fst (enc_events evs (enc_new, tables))) = Some data /\ bytes data /\
    decode_prog p (map spec_cdf tables) (init_symbol data)
    = Some (a, map spec_cdf (snd (enc_events evs (enc_new, tables))), st) /\
    trailing_ok data st.
Proof.
  intros Hr Hv Hok. rewrite enc_events_eq; cbn [fst snd].
  destruct (events_valid evs tables Hv Hok) as [Htok Htab].
  set (ts := event_tokens tables evs) in *.
  pose proof (enc_all_rel ts enc_new x_new x_new_ok enc_new_rel Htok) as Hrel.
  pose proof (x_encode_ok ts x_new x_new_ok Htok) as Hxok.
  destruct (enc_done_spec _ _ Hxok Hrel) as (data & k & E & B & _).
  pose proof (done_inside _ _ data Hxok Hrel E) as Hin.
  destruct (decode_prog_ok (bytes_bits data) p evs a Hr tables x_new (init_symbol data)) as (st & Ed & Dd);
    try assumption; [apply x_new_ok|apply init_rel; assumption|].
  exists data, st. split; [exact E|]. split; [exact B|]. split; [exact Ed|].
  eapply done_trailing; eassumption.
Qed.

(** Bit events are always valid. *)
Lemma half_valid : valid_icdf [16384; 0].
Proof. unfold valid_icdf; cbn. repeat split; try lia; repeat constructor; lia. Qed.

Definition is_bit_event (e : event) : Prop := exists b, e = ev_bit b.
Lemma bit_events_ok tables evs : Forall is_bit_event evs -> events_ok tables evs.
Proof.
  induction 1 as [|e evs [b ->] H IH]; [exact I|]. cbn [events_ok ev_bit source_update].
  split; [|exact IH]. split; [apply half_valid|]. destruct b; cbn; lia.
Qed.
Lemma map_bit_events l : Forall is_bit_event (map ev_bit l).
Proof. induction l as [|b l IH]; constructor; [exists b; reflexivity|exact IH]. Qed.

(** ** The codes *)
Lemma reads_bool b : reads read_bool [ev_bit b] (b2z b).
Proof.
  unfold read_bool, ev_bit.
  change (SFixed [2 ^ 14; 2 ^ 15; 0]) with (spec_source_of (Fixed [16384; 0])).
  apply reads_rd. destruct b; apply reads_ret.
Qed.

Lemma reads_L_acc l : forall x, reads (read_L_acc (length l) x) (map ev_bit l) (x * 2 ^ zlen l + bits_val l).
Proof.
  induction l as [|b l IH]; intros x.
  - cbn. rewrite Z.mul_1_r, Z.add_0_r. constructor.
  - cbn [length read_L_acc map]. change (ev_bit b :: map ev_bit l) with ([ev_bit b] ++ map ev_bit l).
    eapply reads_bind; [apply reads_bool|].
    specialize (IH (2 * x + b2z b)).
    replace (x * 2 ^ zlen (b :: l) + bits_val (b :: l)) with ((2 * x + b2z b) * 2 ^ zlen l + bits_val l); [exact IH|].
    rewrite bits_val_cons, zlen_cons, Z.pow_add_r by (pose proof (zlen_nonneg _ l); lia). lia.
Qed.

Lemma reads_literal n v : 0 <= n -> 0 <= v < 2 ^ n -> reads (read_L n) (w_literal n v) v.
Proof.
  intros Hn Hv. unfold read_L, w_literal.
  pose proof (reads_L_acc (bits_of (Z.to_nat n) v) 0) as H.
  rewrite bits_of_length in H. rewrite bits_val_bits_of_small in H by (rewrite Z2Nat.id; lia).
  rewrite Z.mul_0_l, Z.add_0_l in H. exact H.
Qed.

Lemma log2_bounds n : 1 < n -> 1 <= Z.log2 n /\ 2 ^ Z.log2 n <= n < 2 ^ (Z.log2 n + 1).
Proof.
  intros Hn. pose proof (Z.log2_spec n ltac:(lia)).
  assert (1 <= Z.log2 n) by (apply Z.log2_le_pow2; cbn; lia).
  rewrite Z.add_1_r. lia.
Qed.

Lemma land_1 x : Z.land x 1 = x mod 2.
Proof. change 1 with (Z.ones 1). rewrite Z.land_ones by lia. reflexivity. Qed.

Lemma reads_quniform n v : 0 <= v < n -> reads (read_NS n) (w_quniform n v) v.
Proof.
  intros Hv. unfold read_NS, w_quniform.
  destruct (Z.ltb_spec 1 n) as [Hn|Hn].
  2:{ assert (n = 1) by lia. assert (v = 0) by lia. subst. cbn. constructor. }
  pose proof (log2_bounds n Hn) as (L1 & L2 & L3).
  set (l := Z.log2 n) in *. replace (l + 1 - 1) with l by lia.
  assert (P : 2 ^ (l + 1) = 2 * 2 ^ l) by (rewrite Z.pow_add_r by lia; lia).
  set (m := 2 ^ (l + 1) - n) in *.
  destruct (Z.ltb_spec v m) as [Hvm|Hvm].
  - rewrite <- (app_nil_r (w_literal l v)).
    eapply reads_bind; [apply reads_literal; lia|]. cbn beta.
    destruct (Z.ltb_spec v m); [|lia]. constructor.
  - pose proof (Z.div_mod (v - m) 2 ltac:(lia)) as DM.
    pose proof (Z.mod_pos_bound (v - m) 2 ltac:(lia)) as MB.
    assert (D : 0 <= (v - m) / 2) by (apply Z.div_pos; lia).
    eapply reads_bind; [apply reads_literal; [lia|]; lia|]. cbn beta.
    destruct (Z.ltb_spec (m + (v - m) / 2) m); [lia|].
    rewrite land_1. eapply reads_bind_ret; [apply reads_literal; cbn; lia|]. lia.
Qed.

Lemma w_quniform_bits n v : Forall is_bit_event (w_quniform n v).
Proof.
  unfold w_quniform, w_literal. destruct (1 <? n); [|constructor].
  destruct (v <? _); [apply map_bit_events|]. apply Forall_app; split; apply map_bit_events.
Qed.

Lemma zlen_literal n v : 0 <= n -> zlen (w_literal n v) = n.
Proof. intros. unfold w_literal. rewrite zlen_map, zlen_bits_of. lia. Qed.

Lemma c_quniform_ok n v : c_quniform n v = 8 * zlen (w_quniform n v).
Proof.
  unfold c_quniform, w_quniform. destruct (Z.ltb_spec 1 n) as [Hn|]; [|reflexivity].
  pose proof (log2_bounds n Hn) as (L1 & _). cbn zeta.
  set (m := 2 ^ (Z.log2 n + 1) - n).
  destruct (Z.leb_spec m v), (Z.ltb_spec v m); try lia.
  - rewrite zlen_app, !zlen_literal by lia. lia.
  - rewrite zlen_literal by lia. lia.
Qed.

(** Parameters for which no u32 register overflows. *)
Definition subexp_params (n k : Z) : Prop := 1 <= n <= 2 ^ 28 /\ 0 <= k <= 28.

Lemma subexp_loop_ok fuel : forall n k v i mk,
  subexp_params n k -> 0 <= i -> 0 <= mk <= v -> v < n ->
  mk = (if i =? 0 then 0 else 2 ^ (k + i - 1)) ->
  (33 <= i + Z.of_nat fuel) ->
  exists evs, w_subexp_loop fuel n k v i mk = Some evs /\ Forall is_bit_event evs /\
              reads (read_subexp_loop fuel n k i mk) evs v /\
              forall bits, c_subexp_loop fuel n k v i mk bits = Some (bits + 8 * zlen evs).
Proof.
  induction fuel as [|fuel IH]; intros n k v i mk Hp Hi Hmk Hv Emk Hf.
  - exfalso. destruct Hp as [Hp1 Hp2]. destruct (Z.eqb_spec i 0); [lia|].
    assert (2 ^ 32 <= 2 ^ (k + i - 1)) by (apply Z.pow_le_mono_r; lia).
    change (2 ^ 32) with 4294967296 in *. change (2 ^ 28) with 268435456 in *. lia.
  - cbn [w_subexp_loop read_subexp_loop c_subexp_loop].
    pose proof Hp as [Hp1 Hp2].
    set (b := if negb (i =? 0) then k + i - 1 else k).
    assert (Eb : (if i =? 0 then k else k + i - 1) = b) by (unfold b; destruct (i =? 0); reflexivity).
    rewrite Eb.
    assert (Hb : 0 <= b) by (unfold b; destruct (Z.eqb_spec i 0); cbn [negb]; lia).
    assert (Hb29 : b <= 28).
    { unfold b. destruct (Z.eqb_spec i 0); cbn [negb]; [lia|].
      destruct (Z.le_gt_cases (k + i - 1) 28); [assumption|].
      assert (2 ^ 29 <= 2 ^ (k + i - 1)) by (apply Z.pow_le_mono_r; lia).
      change (2 ^ 29) with (2 * 2 ^ 28) in *. lia. }
    assert (Pa : 0 < 2 ^ b) by (apply Z.pow_pos_nonneg; lia).
    assert (Ha : 2 ^ b <= 2 ^ 28) by (apply Z.pow_le_mono_r; lia).
    change (2 ^ 28) with 268435456 in *. change (2 ^ 32) with 4294967296.
    assert (Z1 : ((32 <=? b) || (4294967296 <=? mk + 3 * 2 ^ b)) = false) by lia.
    rewrite Z1.
    destruct (Z.leb_spec n (mk + 3 * 2 ^ b)) as [Hn|Hn].
    + exists (w_quniform (n - mk) (v - mk)). split; [reflexivity|]. split; [apply w_quniform_bits|].
      split.
      * eapply reads_bind_ret; [apply reads_quniform; lia|]. lia.
      * intros bits. rewrite c_quniform_ok. reflexivity.
    + destruct (Z.leb_spec (mk + 2 ^ b) v) as [Ht|Ht].
      * destruct (IH n k v (i + 1) (mk + 2 ^ b)) as (evs & W & B & R & C); try assumption; try lia.
        { destruct (Z.eqb_spec (i + 1) 0); [lia|]. unfold b in *.
          destruct (Z.eqb_spec i 0) as [->|Hi0]; cbn [negb] in *.
          - subst mk. rewrite Z.add_0_l. f_equal. lia.
          - rewrite Emk. replace (k + (i + 1) - 1) with (k + i - 1 + 1) by lia.
            rewrite Z.pow_add_r by lia. lia. }
        rewrite W. exists (ev_bit true :: evs). split; [reflexivity|].
        split; [constructor; [exists true; reflexivity|exact B]|]. split.
        { change (ev_bit true :: evs) with ([ev_bit true] ++ evs).
          eapply reads_bind; [apply (reads_L_acc [true] 0)|]. cbn -[read_subexp_loop]. exact R. }
        intros bits. rewrite C, zlen_cons. f_equal. lia.
      * exists (ev_bit false :: w_literal b (v - mk)). split; [reflexivity|].
        split; [constructor; [exists false; reflexivity|apply map_bit_events]|]. split.
        { change (ev_bit false :: w_literal b (v - mk)) with ([ev_bit false] ++ w_literal b (v - mk)).
          eapply reads_bind; [apply (reads_L_acc [false] 0)|]. cbn -[read_L bind w_literal].
          eapply reads_bind_ret; [apply reads_literal; lia|]. lia. }
        intros bits. rewrite zlen_cons, zlen_literal by lia. f_equal. lia.
Qed.

Lemma subexp_ok n k v : subexp_params n k -> 0 <= v < n ->
  exists evs, w_subexp n k v = Some evs /\ Forall is_bit_event evs /\
              reads (read_subexp n k) evs v /\ c_subexp n k v = Some (8 * zlen evs).
Proof.
  intros Hp Hv. destruct (subexp_loop_ok 33 n k v 0 0) as (evs & W & B & R & C); try assumption; try lia.
  { reflexivity. }
  exists evs. repeat split; try assumption. apply C.
Qed.

Lemma recenter_inv r v n : 0 <= r -> 2 * r <= n -> 0 <= v < n -> r < n ->
  0 <= recenter r v < n /\ inverse_recenter r (recenter r v) = v.
Proof.
  intros Hr Hrn Hv Hrn2. unfold recenter, inverse_recenter.
  destruct (Z.ltb_spec (2 * r) v).
  - split; [lia|]. destruct (Z.ltb_spec (2 * r) v); [reflexivity|lia].
  - destruct (Z.leb_spec r v).
    + split; [lia|]. destruct (Z.ltb_spec (2 * r) ((v - r) * 2)); [lia|].
      replace (Z.odd ((v - r) * 2)) with false; [dlia|].
      rewrite Z.mul_comm, Z.odd_mul. reflexivity.
    + split; [lia|]. destruct (Z.ltb_spec (2 * r) ((r - v) * 2 - 1)); [lia|].
      replace (Z.odd ((r - v) * 2 - 1)) with true; [dlia|].
      rewrite Z.odd_sub, Z.odd_mul, andb_false_r. reflexivity.
Qed.

Lemma unsigned_ref_ok v n k r : subexp_params n k -> 0 <= v < n -> 0 <= r < n ->
  exists evs, w_unsigned_ref v n k r = Some evs /\ Forall is_bit_event evs /\
              reads (read_unsigned_subexp_with_ref n k r) evs v /\
              c_unsigned_ref v n k r = Some (8 * zlen evs).
Proof.
  intros Hp Hv Hr. unfold w_unsigned_ref, c_unsigned_ref, read_unsigned_subexp_with_ref.
  destruct (Z.leb_spec (2 * r) n) as [H|H].
  - destruct (recenter_inv r v n) as [R1 R2]; try lia.
    destruct (subexp_ok n k (recenter r v) Hp R1) as (evs & W & B & R & C).
    exists evs. repeat split; try assumption.
    apply (reads_bind_ret _ (fun v => inverse_recenter r v) _ _ _ R). congruence.
  - destruct (recenter_inv (n - 1 - r) (n - 1 - v) n) as [R1 R2]; try lia.
    destruct (subexp_ok n k (recenter (n - 1 - r) (n - 1 - v)) Hp R1) as (evs & W & B & R & C).
    exists evs. repeat split; try assumption.
    apply (reads_bind_ret _ (fun v => n - 1 - inverse_recenter (n - 1 - r) v) _ _ _ R). lia.
Qed.

Lemma signed_ref_ok v low high k r : subexp_params (high - low) k -> low <= v < high -> low <= r < high ->
  exists evs, w_signed_ref v low high k r = Some evs /\ Forall is_bit_event evs /\
              reads (read_signed_subexp_with_ref low high k r) evs v /\
              c_signed_ref v low high k r = Some (8 * zlen evs).
Proof.
  intros Hp Hv Hr. unfold w_signed_ref, c_signed_ref, read_signed_subexp_with_ref.
  destruct (unsigned_ref_ok (v - low) (high - low) k (r - low)) as (evs & W & B & R & C); try assumption; try lia.
  exists evs. repeat split; try assumption.
  apply (reads_bind_ret _ (fun x => x + low) _ _ _ R). lia.
Qed.

(** Golomb *)
Lemma reads_golomb_len n : forall limit len, (n < limit)%nat ->
  reads (read_golomb_len limit len) (repeat (ev_bit false) n ++ [ev_bit true]) (len + Z.of_nat n + 1).
Proof.
  induction n as [|n IH]; intros [|limit] len H; try lia.
  - cbn [read_golomb_len repeat app]. rewrite <- (app_nil_r [ev_bit true]).
    eapply reads_bind; [apply reads_bool|]. cbn. replace (len + 0 + 1) with (len + 1) by lia. constructor.
  - cbn [read_golomb_len repeat app].
    change (ev_bit false :: repeat (ev_bit false) n ++ [ev_bit true])
      with ([ev_bit false] ++ (repeat (ev_bit false) n ++ [ev_bit true])).
    eapply reads_bind; [apply reads_bool|]. cbn [b2z]. change (0 =? 1) with false. cbv iota.
    replace (len + Z.of_nat (S n) + 1) with (len + 1 + Z.of_nat n + 1) by lia. apply IH. lia.
Qed.

Lemma reads_golomb_data l : forall x,
  reads (read_golomb_data (length l) x) (map ev_bit l) (x * 2 ^ zlen l + bits_val l).
Proof.
  induction l as [|b l IH]; intros x.
  - cbn. rewrite Z.mul_1_r, Z.add_0_r. constructor.
  - cbn [length read_golomb_data map]. change (ev_bit b :: map ev_bit l) with ([ev_bit b] ++ map ev_bit l).
    eapply reads_bind; [apply reads_bool|].
    specialize (IH (2 * x + b2z b)).
    replace (x * 2 ^ zlen (b :: l) + bits_val (b :: l)) with ((2 * x + b2z b) * 2 ^ zlen l + bits_val l); [exact IH|].
    rewrite bits_val_cons, zlen_cons, Z.pow_add_r by (pose proof (zlen_nonneg _ l); lia). lia.
Qed.

Lemma golomb_ok limit level : 0 <= level -> level + 1 < 2 ^ Z.of_nat limit ->
  reads (read_golomb limit) (w_golomb level) level /\ Forall is_bit_event (w_golomb level).
Proof.
  intros Hl Hlim. unfold w_golomb, read_golomb.
  set (x := level + 1). set (n := Z.log2 x).
  assert (Hn : 0 <= n) by apply Z.log2_nonneg.
  pose proof (Z.log2_spec x ltac:(lia)) as [L1 L2]. fold n in L1, L2.
  assert (Hnl : n < Z.of_nat limit) by (apply Z.log2_lt_pow2; lia).
  replace (Z.to_nat (n + 1)) with (S (Z.to_nat n)) by lia. replace (n + 1 - 1) with n by lia.
  cbn [bits_of map].
  assert (Htop : Z.testbit x (Z.of_nat (Z.to_nat n)) = true).
  { rewrite Z2Nat.id by lia. apply Z.bit_log2. lia. }
  rewrite Htop. split.
  2:{ apply Forall_app; split.
      - apply Forall_forall. intros e He. apply repeat_spec in He. exists false. exact He.
      - constructor; [exists true; reflexivity|apply map_bit_events]. }
  change (ev_bit true :: map ev_bit (bits_of (Z.to_nat n) x)) with ([ev_bit true] ++ map ev_bit (bits_of (Z.to_nat n) x)).
  rewrite app_assoc. eapply reads_bind; [apply reads_golomb_len; lia|].
  rewrite Z2Nat.id by lia. destruct (Z.ltb_spec (0 + n + 1) 0); [lia|].
  replace (Z.to_nat (0 + n + 1 - 1)) with (length (bits_of (Z.to_nat n) x)) by (rewrite bits_of_length; lia).
  eapply reads_bind_ret; [apply reads_golomb_data|].
  rewrite zlen_bits_of, bits_val_bits_of, Z2Nat.id by lia.
  assert (E : x = 1 * 2 ^ n + x mod 2 ^ n).
  { assert (D : x / 2 ^ n = 1).
    { symmetry. apply Z.div_unique with (r := x - 2 ^ n); [left; rewrite Z.pow_succ_r in L2 by lia; lia|lia]. }
    pose proof (Z.div_mod x (2 ^ n) ltac:(lia)). rewrite D in *. lia. }
  unfold x in *. lia.
Qed.

(** ** Sequences of codes of any kind *)
Inductive code_kind :=
| KLiteral (n : Z) | KGolomb | KQuniform (n : Z) | KSubexp (n k : Z)
| KUnsignedRef (n k r : Z) | KSignedRef (low high k r : Z).

Definition write_code (c : code_kind) (v : Z) : option (list event) :=
  match c with
  | KLiteral n => Some (w_literal n v)
  | KGolomb => Some (w_golomb v)
  | KQuniform n => Some (w_quniform n v)
  | KSubexp n k => w_subexp n k v
  | KUnsignedRef n k r => w_unsigned_ref v n k r
  | KSignedRef low high k r => w_signed_ref v low high k r
  end.
Definition parse_code (c : code_kind) : prog Z :=
  match c with
  | KLiteral n => read_L n
  | KGolomb => read_golomb 20
  | KQuniform n => read_NS n
  | KSubexp n k => read_subexp n k
  | KUnsignedRef n k r => read_unsigned_subexp_with_ref n k r
  | KSignedRef low high k r => read_signed_subexp_with_ref low high k r
  end.
Definition code_ok (c : code_kind) (v : Z) : Prop :=
  match c with
  | KLiteral n => 0 <= n <= 32 /\ 0 <= v < 2 ^ n
  | KGolomb => 0 <= v < 2 ^ 20 - 1
  | KQuniform n => 0 <= v < n /\ n < 2 ^ 31
  | KSubexp n k => (1 <= n <= 2 ^ 28 /\ 0 <= k <= 28) /\ 0 <= v < n
  | KUnsignedRef n k r => (1 <= n <= 2 ^ 28 /\ 0 <= k <= 28) /\ 0 <= v < n /\ 0 <= r < n
  | KSignedRef low high k r =>
      (1 <= high - low <= 2 ^ 28 /\ 0 <= k <= 28) /\ low <= v < high /\ low <= r < high
  end.

Fixpoint write_codes (l : list (code_kind * Z)) : option (list event) :=
  match l with
  | [] => Some []
  | (c, v) :: r =>
      match write_code c v, write_codes r with
      | Some e1, Some e2 => Some (e1 ++ e2)
      | _, _ => None
      end
  end.
Fixpoint parse_codes (l : list code_kind) : prog (list Z) :=
  match l with
  | [] => Ret []
  | c :: r => bind (parse_code c) (fun v => bind (parse_codes r) (fun vs => Ret (v :: vs)))
  end.

Lemma write_code_ok c v : code_ok c v ->
  exists evs, write_code c v = Some evs /\ Forall is_bit_event evs /\ reads (parse_code c) evs v.
Proof.
  destruct c as [n| |n|n k|n k r|low high k r]; cbn [code_ok write_code parse_code]; intros H.
  - exists (w_literal n v). split; [reflexivity|]. split; [apply map_bit_events|]. apply reads_literal; lia.
  - destruct (golomb_ok 20 v) as [R B]; [lia|change (Z.of_nat 20) with 20; lia|].
    exists (w_golomb v). auto.
  - exists (w_quniform n v). split; [reflexivity|]. split; [apply w_quniform_bits|]. apply reads_quniform; lia.
  - destruct (subexp_ok n k v) as (evs & W & B & R & _); [apply H|lia|]. exists evs. auto.
  - destruct (unsigned_ref_ok v n k r) as (evs & W & B & R & _); [apply H|lia|lia|]. exists evs. auto.
  - destruct (signed_ref_ok v low high k r) as (evs & W & B & R & _); [apply H|lia|lia|]. exists evs. auto.
Qed.

Lemma write_codes_ok l : Forall (fun cv => code_ok (fst cv) (snd cv)) l ->
  exists evs, write_codes l = Some evs /\ Forall is_bit_event evs /\
              reads (parse_codes (map fst l)) evs (map snd l).
Proof.
  induction 1 as [|[c v] l Hc Hl IH].
  - exists []. split; [reflexivity|]. split; constructor.
  - cbn [fst snd] in Hc. destruct (write_code_ok c v Hc) as (e1 & W1 & B1 & R1).
    destruct IH as (e2 & W2 & B2 & R2).
    exists (e1 ++ e2). cbn [write_codes map fst snd parse_codes]. rewrite W1, W2.
    split; [reflexivity|]. split; [apply Forall_app; auto|].
    eapply reads_bind; [exact R1|]. eapply reads_bind_ret; [exact R2|reflexivity].
Qed.

(** The predicted cost of a code, where the Writer API predicts one. *)
Definition predicted (c : code_kind) (v : Z) : option Z :=
  match c with
  | KLiteral _ | KGolomb => None
  | KQuniform n => Some (c_quniform n v)
  | KSubexp n k => c_subexp n k v
  | KUnsignedRef n k r => c_unsigned_ref v n k r
  | KSignedRef low high k r => c_signed_ref v low high k r
  end.
Definition has_prediction (c : code_kind) : bool :=
  match c with KLiteral _ | KGolomb => false | _ => true end.
Lemma predicted_ok c v : has_prediction c = true -> code_ok c v ->
  exists evs, write_code c v = Some evs /\ Forall is_bit_event evs /\ predicted c v = Some (8 * zlen evs).
Proof.
  destruct c as [n| |n|n k|n k r|low high k r]; cbn [has_prediction code_ok write_code predicted];
    intros E H; try discriminate.
  - exists (w_quniform n v). split; [reflexivity|]. split; [apply w_quniform_bits|].
    f_equal. apply c_quniform_ok.
  - destruct (subexp_ok n k v) as (evs & W & B & _ & C); [apply H|lia|]. exists evs. auto.
  - destruct (unsigned_ref_ok v n k r) as (evs & W & B & _ & C); [apply H|lia|lia|]. exists evs. auto.
  - destruct (signed_ref_ok v low high k r) as (evs & W & B & _ & C); [apply H|lia|lia|]. exists evs. auto.
Qed.

Lemma codes_roundtrip l : Forall (fun cv => code_ok (fst cv) (snd cv)) l ->
  exists evs data st,
    write_codes l = Some evs /\
    enc_done (fst (enc_events evs (enc_new, []))) = Some data /\ bytes data /\
    decode_prog (parse_codes (map fst l)) [] (init_symbol data) = Some (map snd l, [], st) /\
    trailing_ok data st.
Proof.
  intros H. destruct (write_codes_ok l H) as (evs & W & B & R).
  destruct (prog_roundtrip (parse_codes (map fst l)) evs (map snd l) [] R (Forall_nil _) (bit_events_ok _ _ B))
    as (data & st & E & Bd & D & T).
  exists evs, data, st. split; [exact W|]. split; [exact E|]. split; [exact Bd|]. split; [|exact T].
  change (map spec_cdf []) with (@nil (list Z)) in D. rewrite D. do 3 f_equal. clear - B.
  enough (G : forall w, snd (enc_events evs (w, [])) = []) by (rewrite G; reflexivity).
  induction B as [|e l [b ->] Hl IH]; intros w; [reflexivity|]. 
  unfold enc_events in *. cbn [fold_left]. apply IH.
Qed.
