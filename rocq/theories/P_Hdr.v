(** Properties C24, C25 and C27: the sequence header and the frame headers. *)
From Verif Require Import Base SMap Bits Tile_model Tile_spec Tile_main Config_model Lrf_model Lrf_spec Sched_model Sched_plan Sched_inv Sched_shape Sched_step Sched_recv Sched_spec Sched_run Sched_dec P_Sched P_Tile Hdr_model Hdr_spec Hdr_proof Hdr_frame Hdr_whole Hdr_stream.

(** A configuration for the examples *)
Definition ex_v (still timing : bool) (cs : chroma) (level : option Z) (srgb : option bool) (full : bool) (rw : Z) : vconfig :=
  {| vc_width := 200; vc_height := 130; vc_still := still; vc_sar_num := 1; vc_sar_den := 1;
     vc_render_w := rw; vc_render_h := 130; vc_rdo_lookahead := 40; vc_max_kf := 240;
     vc_tile_cols := 2; vc_tile_rows := 0; vc_tiles := 0; vc_tb_num := 1; vc_tb_den := 30;
     vc_reservoir := None; vc_switch_interval := 0; vc_low_latency := false; vc_timing_info := timing;
     vc_srgb := srgb; vc_full_range := full; vc_chroma := cs; vc_level := level;
     vc_emit_pass := false; vc_summary := false; vc_bitrate := 0 |}.
Definition ex_h (v : vconfig) (bd : Z) (col : option (Z * Z * Z)) : hconfig :=
  {| hc_v := v; hc_bd := bd; hc_csp := 1; hc_color := col; hc_cdef := true; hc_lrf := true; hc_grain := true;
     hc_reduced_tx := false; hc_rdo_tx := true; hc_inter_split := false; hc_seg := true |}.

(** ** C24 *)

(** The sequence header of every accepted configuration is read back, with
    nothing left over, as what the configuration says. *)
Theorem C24 : forall c, hc_ok c ->
  round_trips (w_sequence_header_obu (sequence_of c) (vc_width (hc_v c)) (vc_height (hc_v c))) s_sequence_header (view_seq c).
Proof. exact sequence_header_ok. Qed.
Print Assumptions C24.

Example C24_example : let c := ex_h (ex_v false true Cs422 (Some 8) (Some false) true 200) 10 (Some (9, 16, 9)) in
  hc_ok c /\
  match w_sequence_header_obu (sequence_of c) 200 130 with
  | Some (b, true) => option_map (fun r => (q_profile (fst r), q_timing (fst r), q_maxw (fst r), q_maxh (fst r), q_bd (fst r), (q_cp (fst r), q_tc (fst r), q_mc (fst r)), snd r))
                        (s_sequence_header (b ++ [true; false]))
  | _ => None end = Some (2, Some (1, 30, Some 1), 200, 130, 10, (9, 16, 9), [true; false]).
Proof.
  cbv zeta. split; [|vm_compute; reflexivity].
  constructor; cbn; try reflexivity; try lia; try (unfold typed; cbn; lia).
Qed.

(** The identity matrix needs 4:4:4 (AV1 specification 6.4.2: "If
    matrix_coefficients is equal to MC_IDENTITY, it is a requirement of bitstream
    conformance that subsampling_x is equal to 0 and subsampling_y is equal to
    0").  Validation looks at the sRGB triple only, so that the rule does not
    hold of every accepted configuration. *)
Definition identity_is_444 (q : s_seq) : Prop := q_mono q = false -> q_mc q = 0 -> q_ssx q = false /\ q_ssy q = false.
Theorem C24_identity_refuted : exists c q bits, hc_ok c /\
  w_sequence_header_obu (sequence_of c) (vc_width (hc_v c)) (vc_height (hc_v c)) = Some (bits, true) /\
  s_sequence_header bits = Some (q, []) /\ ~ identity_is_444 q.
Proof.
  exists (ex_h (ex_v false false Cs420 None (Some false) true 200) 8 (Some (1, 1, 0))).
  exists (view_seq (ex_h (ex_v false false Cs420 None (Some false) true 200) 8 (Some (1, 1, 0)))).
  eexists. split; [constructor; cbn; try reflexivity; try lia; try (unfold typed; cbn; lia)|].
  split; [vm_compute; reflexivity|]. split; [vm_compute; reflexivity|]. intros H. destruct (H eq_refl eq_refl) as [E _]. discriminate.
Qed.
Print Assumptions C24_identity_refuted.
(** It holds whenever the chroma is not subsampled, or there is none, or the
    matrix is not the identity. *)
Theorem C24_identity_partial : forall c, hc_ok c ->
  match hc_color c with Some (_, _, mc) => mc <> 0 | None => True end \/ vc_chroma (hc_v c) = Cs444 \/ vc_chroma (hc_v c) = Cs400 ->
  identity_is_444 (view_seq c).
Proof.
  intros c O H Hm Hi. cbn [q_mc q_mono q_ssx q_ssy view_seq] in *. revert Hm Hi. unfold view_color.
  destruct (vc_chroma (hc_v c)) eqn:E, (hc_color c) as [[[cp tc] mc]|]; cbn; intros Hm Hi; try discriminate; auto;
    destruct H as [H|[H|H]]; try discriminate; contradiction.
Qed.
Print Assumptions C24_identity_partial.

(** ** C27 *)

(** Tables within the ranges of their fields *)
Definition grain_typed (g : grain) : Prop :=
  0 <= g_seed g < 65536 /\ zlen (g_y g) <= 14 /\ zlen (g_cb g) <= 10 /\ zlen (g_cr g) <= 10 /\
  Forall point_ok (g_y g) /\ Forall point_ok (g_cb g) /\ Forall point_ok (g_cr g) /\
  8 <= g_scaling_shift g <= 11 /\ 0 <= g_lag g <= 3 /\ 6 <= g_ar_shift g <= 9 /\ 0 <= g_scale_shift g <= 3 /\
  Forall i8_ok (g_ar_y g) /\ Forall i8_ok (g_ar_cb g) /\ Forall i8_ok (g_ar_cr g) /\
  zlen (g_ar_y g) = 24 /\ zlen (g_ar_cb g) = 25 /\ zlen (g_ar_cr g) = 25 /\
  0 <= g_cb_mult g < 256 /\ 0 <= g_cb_luma g < 256 /\ 0 <= g_cb_off g < 512 /\
  0 <= g_cr_mult g < 256 /\ 0 <= g_cr_luma g < 256 /\ 0 <= g_cr_off g < 512.
Definition C27_stmt (cond : chroma -> grain -> Prop) : Prop :=
  forall q type show showable cs full g,
  q_grain q = true -> (show = true \/ showable = true) -> q_mono q = chroma_eqb cs Cs400 ->
  q_ssx q = match cs with Cs444 => false | _ => true end -> q_ssy q = match cs with Cs420 | Cs400 => true | _ => false end ->
  grain_typed g -> cond cs g ->
  round_trips (w_film_grain (type =? INTER_FRAME) cs full (Some g)) (s_film_grain q type show showable) (Some (view_grain cs full g)).

(** Missing: tables that give chroma points where the syntax has no room for
    them; for those see the refutation. *)
Theorem C27_partial : C27_stmt (fun cs g => no_chroma_points cs g = true -> g_cb g = [] /\ g_cr g = []).
Proof.
  intros q type show showable cs full g Hg Hs Hm Hx Hy T Hc.
  destruct T as (T1 & T2 & T3 & T4 & T5 & T6 & T7 & T8 & T9 & T10 & T11 & T12 & T13 & T14 & T15 & T16 & T17 & T18 & T19 & T20 & T21 & T22 & T23).
  apply (grain_rt q type show showable cs full (Some g)); try assumption.
  assert (Np : 2 * g_lag g * (g_lag g + 1) <= 24) by (clear - T9; nia).
  constructor; try assumption; lia.
Qed.
Print Assumptions C27_partial.

Definition ex_grain (cfl : bool) (y : list (Z * Z)) : grain :=
  {| g_seed := 1234; g_y := y; g_cb := [(10, 20); (200, 30)]; g_cr := [(15, 25)]; g_scaling_shift := 10; g_lag := 2;
     g_ar_y := repeat (-3) 24; g_ar_cb := repeat 5 25; g_ar_cr := repeat (-128) 25; g_ar_shift := 7; g_scale_shift := 0;
     g_cb_mult := 128; g_cb_luma := 192; g_cb_off := 256; g_cr_mult := 128; g_cr_luma := 192; g_cr_off := 256;
     g_cfl := cfl; g_overlap := true |}.
Lemma ex_grain_typed cfl : grain_typed (ex_grain cfl [(0, 40); (255, 80)]).
Proof.
  unfold grain_typed, ex_grain, point_ok, i8_ok. cbn -[repeat]. repeat split; try lia; try reflexivity;
    repeat (constructor; [cbn; lia|]); constructor.
Qed.
Example C27_example : let q := view_seq (ex_h (ex_v false true Cs420 None None true 200) 8 None) in
  match w_film_grain true Cs420 true (Some (ex_grain false [(0, 40); (255, 80)])) with
  | Some (b, true) => s_film_grain q INTER_FRAME true true (b ++ [true])
  | _ => None end = Some (Some (view_grain Cs420 true (ex_grain false [(0, 40); (255, 80)])), [true]).
Proof. vm_compute. reflexivity. Qed.

(** Chroma scaled from luma with chroma points still in the table: the
    multipliers are written (25 bits for each plane) but not expected. *)
Theorem C27_refuted : ~ C27_stmt (fun _ _ => True).
Proof.
  intros H. specialize (H (view_seq (ex_h (ex_v false true Cs420 None None true 200) 8 None)) INTER_FRAME true true Cs420 true (ex_grain true [(0, 40); (255, 80)])
    eq_refl (or_introl eq_refl) eq_refl eq_refl eq_refl (ex_grain_typed true) Coq.Init.Logic.I).
  destruct H as (bits & E & P). vm_compute in E. injection E as <-. specialize (P []). rewrite app_nil_r in P. vm_compute in P. discriminate.
Qed.
Print Assumptions C27_refuted.

(** ** C25 *)

(** [K n] is what coding the n-th frame has left for its header: any values in
    the ranges of [coding_ok] and a tile of the frame for the context update. *)
Definition tile_choice_ok (t : tiling) (k : coding) : Prop := 0 <= k_ctx_id k < t_rows t * t_cols t /\ 1 <= k_tsb k <= 4.

(** For every history of calls: every frame header can be written, and a
    decoder that knows the sequence header and keeps its own buffers reads each
    of them to its last bit, whatever follows ([tails]), as what the encoder
    used ([expect_one]). *)
Definition C25_stmt (cond : bool -> tiling -> Prop) : Prop :=
  forall scene cc calls s rs c rl t K segs0,
  legal cc -> Sched_spec.fits (accepted (cf_still cc) calls) -> run scene cc init calls = Some (s, rs) ->
  hc_ok c -> cf_still cc = vc_still (hc_v c) ->
  sequence_tiling (vc_width (hc_v c)) (vc_height (hc_v c)) rl (vc_tile_cols (hc_v c)) (vc_tile_rows (hc_v c)) (vc_tiles (hc_v c)) (chroma_eqb (vc_chroma (hc_v c)) Cs422) = Some t ->
  cond (chroma_eqb (vc_chroma (hc_v c)) Cs422) t -> length segs0 = 8%nat ->
  let hs := coded_headers K 0 segs0 (concat (map p_data (packets_of rs))) in
  Forall (fun x => coding_ok c (snd x) /\ tile_choice_ok t (snd x)) hs ->
  exists TI bits,
    (forall k, tile_choice_ok t k -> describes (TI k) t (k_ctx_id k) (k_tsb k)) /\
    Forall2 (fun x b => w_one cc c t (align_shift 6 (vc_width (hc_v c))) (align_shift 6 (vc_height (hc_v c))) x = Some (b, true)) hs bits /\
    forall tails, length tails = length bits ->
      s_headers (view_seq c) (repeat None 8) (follow bits tails) = Some (combine (map (expect_one c TI) hs) tails).

(** Missing: the 4:2:2 tilings of C19_refuted, and the film grain tables of
    C27_refuted ([co_grain] of [coding_ok]). *)
Theorem C25_partial : C25_stmt (fun is_422 t => is_422 = false \/ t_min_tiles_log2 t = 0).
Proof.
  intros scene cc calls s rs c rl t K segs0 Hc Hf H O St Et Hcond L8 hs Hk.
  destruct (history_of cc scene calls Hc Hf s rs H) as (e & HI & Hp & _).
  pose proof (Inv_valid cc scene _ s e HI) as Hv.
  assert (Hstill : cf_still cc = true -> zlen (accepted (cf_still cc) calls) <= 1).
  { intros E. rewrite E. unfold accepted. unfold zlen. rewrite firstn_length. lia. }
  destruct (plan_fine cc scene _ Hc Hf Hstill e Hv) as (_ & Fine). rewrite Hp in Fine.
  destruct (decoded scene cc calls s rs Hc Hf H) as (d & evs & Ed & _).
  destruct (dec_packets_obus _ _ _ _ _ Ed) as (ev & Eo).
  pose proof (validate_facts _ (ho_valid _ O)) as V.
  pose proof (sequence_facts _ _ _ _ _ _ _ _ (vf_w _ V) (vf_h _ V) Et) as F.
  exists (fun k => expected_info (vc_width (hc_v c)) (vc_height (hc_v c)) t (k_ctx_id k) (k_tsb k)).
  assert (Hti : forall k, coding_ok c k /\ tile_choice_ok t k -> coding_ok c k /\
    round_trips (w_tile_info t (align_shift 6 (vc_width (hc_v c))) (align_shift 6 (vc_height (hc_v c))) (k_ctx_id k) (k_tsb k))
      (p_tile_info (vc_width (hc_v c)) (vc_height (hc_v c))) (expected_info (vc_width (hc_v c)) (vc_height (hc_v c)) t (k_ctx_id k) (k_tsb k))).
  { intros k (Co & Hid & Htsb). split; [exact Co|]. rewrite <- !sb_of. apply (tile_info_ok _ _ _ _ _ _ _ _ F Hid Htsb).
    apply (uniform_or_small _ _ _ _ _ _ F Hcond). }
  destruct (stream_rt cc c t _ _ _ (fun k => coding_ok c k /\ tile_choice_ok t k) O St Hti K (concat (map p_data (packets_of rs))) 0 d_init (repeat None 8) segs0 d ev Eo) as (bits & B1 & B2).
  - apply Forall_forall. intros o Ho. apply in_concat in Ho. destruct Ho as (l & Hl & Ho). apply in_map_iff in Hl. destruct Hl as (p & <- & Hin).
    rewrite Forall_forall in Fine. specialize (Fine p Hin). rewrite Forall_forall in Fine. exact (Fine o Ho).
  - apply (rel_init cc c St). exact L8.
  - exact Hk.
  - exists bits. split; [|split; [exact B1|exact B2]].
    intros k (Hid & Htsb). exact (expected_describes _ _ _ _ _ _ _ _ F).
Qed.
Print Assumptions C25_partial.

(** The bits are those written for the frame parameters themselves. *)
Theorem C25_same_bits : forall cc c t sbw sbh d k s,
  w_frame_header cc (sequence_of c) t sbw sbh (frame_of c (fd_fi d) k) (rbuf_of c s) =
  w_frame_header cc (sequence_of c) t sbw sbh (frame_of c (finfo_of (header_of cc d)) k) (rbuf_of c s).
Proof. exact same_bits. Qed.
Print Assumptions C25_same_bits.

(** A stream: 200x130, 4:2:0, with timing info, another render size, CDEF,
    restoration, segmentation and film grain; seven frames with two scene cuts in
    reordering mode.  What coding leaves differs from frame to frame. *)
Definition ex_hc : hconfig := ex_h (ex_v false true Cs420 None None true 180) 8 None.
Definition ex_seg (n : Z) : seg_data :=
  map (fun i => (true, i - 4 + n) :: repeat (false, 0) 7) [0; 1; 2; 3; 4; 5; 6; 7].
Definition ex_K (n : nat) : coding :=
  let z := Z.of_nat n in
  {| k_ctx_id := z mod 2; k_tsb := 1 + z mod 4; k_q := 60 + 5 * z; k_dc := [z - 6; 2; -3]; k_ac := [0; z - 4; 4]; k_seg := ex_seg z;
     k_levels := [z; 20; 21; 22]; k_sharp := 0; k_damping := 3 + z mod 4; k_cdef_bits := z mod 4; k_cdef_y := [0; 9; 18; 27; 36; 45; 54; 63];
     k_cdef_uv := [63; 54; 45; 36; 27; 18; 9; z]; k_lr_types := [z mod 4; 0; 3]; k_lr_y := 128; k_lr_uv := 64;
     k_grain := if Nat.eqb n 2 then Some (ex_grain false [(0, 40); (255, 80)]) else None |}.
Definition ex_hs : list (obu * coding) := coded_headers ex_K 0 (repeat [] 8) (concat (map p_data (packets_of (match ex_run with Some (_, rs) => rs | None => [] end)))).
Definition ex_t : option tiling := sequence_tiling 200 130 0 2 0 0 false.

Lemma ex_seg_ok n : 0 <= n < 20 -> seg_ok (ex_seg n).
Proof.
  intros Hn. split; [reflexivity|]. unfold ex_seg. apply Forall_forall. intros r Hr. apply in_map_iff in Hr. destruct Hr as (i & <- & Hi).
  assert (0 <= i <= 7) by (cbn [In] in Hi; lia). split; [reflexivity|]. intros j sg m x E1 E2 E3.
  do 8 (destruct j as [|j]; [injection E1 as <-; injection E2 as <-; cbn in E3; injection E3 as <-; unfold feature_ok; cbn; intros; lia || discriminate|]). destruct j; discriminate.
Qed.
Definition ex_K_seg (n : nat) (m : Z) : coding :=
  let k := ex_K n in
  Coding (k_ctx_id k) (k_tsb k) (k_q k) (k_dc k) (k_ac k) (ex_seg m)
    (k_levels k) (k_sharp k) (k_damping k) (k_cdef_bits k) (k_cdef_y k) (k_cdef_uv k) (k_lr_types k) (k_lr_y k) (k_lr_uv k) (k_grain k).
Lemma ex_K_ok n m t : (n < 20)%nat -> 0 <= m < 20 -> t_rows t * t_cols t = 2 -> coding_ok ex_hc (ex_K_seg n m) /\ tile_choice_ok t (ex_K_seg n m).
Proof.
  intros Hn Hm Ht.
  assert (M4 : 0 <= Z.of_nat n mod 4 < 4) by (apply Z.mod_pos_bound; lia). assert (M2 : 0 <= Z.of_nat n mod 2 < 2) by (apply Z.mod_pos_bound; lia).
  unfold ex_K_seg, ex_K. cbv zeta. set (z := Z.of_nat n) in *. assert (Hz : 0 <= z < 20) by lia.
  split.
  - constructor; cbn [k_ctx_id k_tsb k_q k_dc k_ac k_seg k_levels k_sharp k_damping k_cdef_bits k_cdef_y k_cdef_uv k_lr_types k_lr_y k_lr_uv k_grain nth length hc_v vc_chroma ex_v ex_h ex_hc chroma_eqb].
    + unfold quant_ok. cbn [k_ctx_id k_tsb k_q k_dc k_ac k_seg k_levels k_sharp k_damping k_cdef_bits k_cdef_y k_cdef_uv k_lr_types k_lr_y k_lr_uv k_grain nth length hc_v vc_chroma ex_v ex_h ex_hc chroma_eqb]. lia.
    + intros _. split; [apply ex_seg_ok; exact Hm|]. unfold seg_not_lossless, ex_seg. do 4 apply Exists_cons_tl. apply Exists_cons_hd. lia.
    + unfold levels_ok. cbn [k_ctx_id k_tsb k_q k_dc k_ac k_seg k_levels k_sharp k_damping k_cdef_bits k_cdef_y k_cdef_uv k_lr_types k_lr_y k_lr_uv k_grain nth length hc_v vc_chroma ex_v ex_h ex_hc chroma_eqb]. lia.
    + unfold cdef_ok. cbn [k_ctx_id k_tsb k_q k_dc k_ac k_seg k_levels k_sharp k_damping k_cdef_bits k_cdef_y k_cdef_uv k_lr_types k_lr_y k_lr_uv k_grain nth length hc_v vc_chroma ex_v ex_h ex_hc chroma_eqb]. repeat split; try lia; repeat (constructor; [lia|]); constructor.
    + unfold lr_ok. cbn [k_ctx_id k_tsb k_q k_dc k_ac k_seg k_levels k_sharp k_damping k_cdef_bits k_cdef_y k_cdef_uv k_lr_types k_lr_y k_lr_uv k_grain nth length hc_v vc_chroma ex_v ex_h ex_hc chroma_eqb]. split; [reflexivity|]. split; [repeat (constructor; [lia|]); constructor|]. split; [exists 7; lia|right; split; [reflexivity|lia]].
    + destruct (Nat.eqb n 2); [|exact Coq.Init.Logic.I]. pose proof (ex_grain_typed false) as T.
      destruct T as (T1 & T2 & T3 & T4 & T5 & T6 & T7 & T8 & T9 & T10 & T11 & T12 & T13 & T14 & T15 & T16 & T17 & T18 & T19 & T20 & T21 & T22 & T23).
      constructor; try assumption; try (cbn; lia); try discriminate.
  - unfold tile_choice_ok. rewrite Ht. cbn [k_ctx_id k_tsb k_q k_dc k_ac k_seg k_levels k_sharp k_damping k_cdef_bits k_cdef_y k_cdef_uv k_lr_types k_lr_y k_lr_uv k_grain nth length hc_v vc_chroma ex_v ex_h ex_hc chroma_eqb]. lia.
Qed.
Example C25_hypotheses : hc_ok ex_hc /\ exists t, ex_t = Some t /\ Forall (fun x => coding_ok ex_hc (snd x) /\ tile_choice_ok t (snd x)) ex_hs.
Proof.
  split; [constructor; cbn; try reflexivity; try lia; try (unfold typed; cbn; lia)|].
  eexists. split; [vm_compute; reflexivity|].
  assert (E : map snd ex_hs = [ex_K_seg 0 0; ex_K_seg 1 0; ex_K_seg 2 0; ex_K_seg 3 3; ex_K_seg 4 4; ex_K_seg 5 4; ex_K_seg 6 6; ex_K_seg 7 6]) by (vm_compute; reflexivity).
  apply Forall_forall. intros x Hx. apply (in_map snd) in Hx. rewrite E in Hx. cbn [In] in Hx.
  repeat (destruct Hx as [<-|Hx]; [apply ex_K_ok; [lia|lia|reflexivity]|]). contradiction.
Qed.
Example C25_example : match ex_t with
  | Some t =>
      let w := map (w_one ex_c ex_hc t (align_shift 6 200) (align_shift 6 130)) ex_hs in
      let bits := map (fun x => match x with Some (b, true) => b | _ => [] end) w in
      s_headers (view_seq ex_hc) (repeat None 8) (map (fun b => b ++ [true; false]) bits) =
      Some (map (fun x => (expect_one ex_hc (fun k => expected_info 200 130 t (k_ctx_id k) (k_tsb k)) x, [true; false])) ex_hs) /\
      map (fun b => length b) bits = [297; 192; 690; 4; 290; 191; 326; 263]%nat
  | None => False end.
Proof. vm_compute. split; reflexivity. Qed.
