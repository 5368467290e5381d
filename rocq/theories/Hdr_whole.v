(** Round trip of the whole frame header. *)
From Verif Require Import Base Bits Tile_model Tile_spec Config_model Lrf_model Lrf_spec Sched_model Sched_spec Sched_dec Hdr_model Hdr_spec Hdr_proof Hdr_frame.

(** ** Hypotheses *)

(** The frame parameters the front end makes *)
Record fi_ok (cc : config) (i : finfo) : Prop := {
  fo_hint : 0 <= fi_hint i; fo_refresh : 0 <= fi_refresh i < 256; fo_primary : 0 <= fi_primary i < 8; fo_map : 0 <= fi_map_idx i < 8;
  fo_key : fi_type i = KEY -> fi_show i = true /\ fi_error_res i = false /\ fi_primary i = 7 /\ fi_refresh i = 255 /\ fi_select i = false /\ fi_sef i = false;
  fo_inter : fi_type i <> KEY -> cf_still cc = false /\ length (fi_refs i) = 7%nat /\ Forall (fun r => 0 <= r < 8) (fi_refs i);
  fo_er : fi_error_res i = true -> fi_primary i = 7;
  fo_switch : fi_type i = SWITCH -> fi_error_res i = true /\ fi_refresh i = 255;
  fo_select : fi_select i = true -> ic_reorder cc = true
}.

(** What coding leaves for the header *)
Record coding_ok (c : hconfig) (k : coding) : Prop := {
  co_quant : quant_ok (vc_chroma (hc_v c)) k;
  co_seg : hc_seg c = true -> seg_ok (k_seg k) /\ seg_not_lossless (k_q k) (k_seg k);
  co_levels : levels_ok (vc_chroma (hc_v c)) k;
  co_cdef : cdef_ok k;
  co_lr : lr_ok (vc_chroma (hc_v c)) k;
  co_grain : match k_grain k with Some g => grain_ok (vc_chroma (hc_v c)) g | None => True end
}.

(** The decoder holds what the encoder believes it holds *)
Definition slot_matches (c : hconfig) (e : option refframe) (x : option s_slot) : Prop :=
  match e, x with
  | Some r, Some x =>
      sl_hint x = rf_hint r mod 64 /\ sl_w x = vc_width (hc_v c) /\ sl_h x = vc_height (hc_v c) /\
      sl_rw x = vc_render_w (hc_v c) /\ sl_rh x = vc_render_h (hc_v c)
  | None, None => True
  | _, _ => False
  end.
Definition dpb_matches (c : hconfig) (s : slots) (d : s_dpb) : Prop := length s = 8%nat /\ Forall2 (slot_matches c) s d.

(** ** What the decoder is to read *)
Definition diff_size (c : hconfig) : bool :=
  negb (vc_render_w (hc_v c) =? vc_width (hc_v c)) || negb (vc_render_h (hc_v c) =? vc_height (hc_v c)).
Definition view_start (c : hconfig) (i : finfo) (s : slots) : s_start :=
  let key := is_key (fi_type i) in
  {| st_type := ftype_num (fi_type i); st_show := fi_show i; st_showable := if fi_show i then negb key else true;
     st_error_res := if key then true else fi_error_res i; st_disable_cdf := false;
     st_sct := b2z (vc_still (hc_v c)); st_imv := b2z key;
     st_override := match fi_type i with KEY => false | SWITCH => true | INTER => negb (fi_error_res i) && diff_size c end;
     st_hint := if vc_still (hc_v c) then 0 else fi_hint i mod 64;
     st_primary := fi_primary i; st_refresh := fi_refresh i;
     st_ref_hints := if negb key && fi_error_res i then map (fun o => match o with Some r => rf_hint r mod 64 | None => 0 end) s else [] |}.
Definition view_inter (c : hconfig) (i : finfo) : s_inter :=
  SInter (vc_width (hc_v c), vc_height (hc_v c)) (vc_render_w (hc_v c), vc_render_h (hc_v c)) false
    (if is_key (fi_type i) then [] else fi_refs i) false 0 false false.
Definition ref_hints (s : slots) (refs : list Z) : list Z :=
  map (fun r => match slot s r with Some x => rf_hint x mod 64 | None => 0 end) refs.
Definition view_frame (c : hconfig) (i : finfo) (k : coding) (s : slots) (ti : tile_info) : s_frame :=
  let cs := vc_chroma (hc_v c) in
  let key := is_key (fi_type i) in
  let big := (32 <=? vc_width (hc_v c)) && (32 <=? vc_height (hc_v c)) in
  let seg := view_segmentation (hc_seg c) (fi_primary i) (k_seg k) in
  {| sf_start := view_start c i s; sf_inter := view_inter c i; sf_disable_end := vc_still (hc_v c); sf_tiles := ti;
     sf_base_q := k_q k; sf_deltas := view_deltas cs k; sf_seg := seg; sf_lossless := false;
     sf_loop := Some (view_levels cs k, k_sharp k); sf_cdef := view_cdef (hc_cdef c && big) (chroma_eqb cs Cs400) k;
     sf_lr := view_lr (hc_lrf c && big) k;
     sf_tx_select := if key then hc_rdo_tx c else hc_inter_split c; sf_select := fi_select i;
     sf_skip_allowed := fi_select i && s_skip_mode_allowed 6 (fi_hint i mod 64) (ref_hints s (fi_refs i));
     sf_skip := false; sf_warped := false; sf_reduced_tx := hc_reduced_tx c;
     sf_grain := if hc_grain c then option_map (view_grain cs (vc_full_range (hc_v c))) (k_grain k) else None |}.

(** ** Slots *)
Lemma matches_at c : forall s d, Forall2 (slot_matches c) s d -> forall i, slot_matches c (slot s i) (s_at d i).
Proof.
  intros s d F i. unfold slot, s_at. generalize (Z.to_nat i). induction F as [|x y s d H F IH]; intros [|n]; cbn; auto.
Qed.
Lemma rslot_of c s i : rslot_at (rbuf_of c s) i =
  option_map (fun r => RSlot (rf_hint r) (u32 (vc_width (hc_v c))) (u32 (vc_height (hc_v c))) (vc_render_w (hc_v c)) (vc_render_h (hc_v c))) (slot s i).
Proof. unfold rslot_at, rbuf_of, slot. cbv zeta. apply (map_nth (option_map _) s None). Qed.

(** ** Skip mode *)
Lemma dist_spec a b : relative_dist a b = s_relative_dist 6 (a mod 64) (b mod 64).
Proof. rewrite relative_dist_dist6. reflexivity. Qed.

Definition slot_hint (s : slots) (r : Z) : Z := match slot s r with Some x => rf_hint x | None => 0 end.
Lemma search_spec c s cur : forall refs fwd bwd bwd', Forall (fun r => slot s r <> None) refs ->
  (bwd = None <-> bwd' = None) ->
  let e := skip_search (rbuf_of c s) cur refs fwd bwd in
  let d := s_fwd_bwd 6 (cur mod 64) (ref_hints s refs) (option_map (fun h => h mod 64) fwd) bwd' in
  fst d = option_map (fun h => h mod 64) (fst e) /\ (snd e = None <-> snd d = None).
Proof.
  induction refs as [|r refs IH]; intros fwd bwd bwd' F Hb; cbv zeta; [split; [reflexivity|exact Hb]|].
  cbn [skip_search ref_hints map s_fwd_bwd]. rewrite rslot_of. pose proof (Forall_inv F) as Hr. cbv beta in Hr. pose proof (Forall_inv_tail F) as Fr.
  destruct (slot s r) as [x|]; [|congruence]. cbn [option_map rs_hint]. rewrite !dist_spec.
  destruct (s_relative_dist 6 (rf_hint x mod 64) (cur mod 64) <? 0).
  - replace (match option_map (fun h => h mod 64) fwd with
             | Some x0 => if 0 <? s_relative_dist 6 (rf_hint x mod 64) x0 then Some (rf_hint x mod 64) else option_map (fun h => h mod 64) fwd
             | None => Some (rf_hint x mod 64) end)
      with (option_map (fun h => h mod 64) (if better relative_dist (rf_hint x) fwd then Some (rf_hint x) else fwd)).
    + apply IH; assumption.
    + destruct fwd as [y|]; cbn [better option_map]; [|reflexivity]. rewrite dist_spec. destruct (0 <? _); reflexivity.
  - destruct (0 <? s_relative_dist 6 (rf_hint x mod 64) (cur mod 64)); cbn [andb]; [|apply IH; assumption].
    destruct (better relative_dist (rf_hint x) bwd) eqn:B.
    + apply IH; [assumption|]. split; [discriminate|]. destruct bwd' as [y|]; [|discriminate]. destruct (_ <? 0); discriminate.
    + apply IH; [assumption|]. destruct bwd as [y|]; [|discriminate]. split; [discriminate|].
      destruct bwd' as [y'|]; [|destruct Hb as [_ Hb]; discriminate (Hb eq_refl)]. destruct (_ <? 0); discriminate.
Qed.
Lemma second_spec c s fh : forall refs best, Forall (fun r => slot s r <> None) refs ->
  match skip_second (rbuf_of c s) fh refs best with Some _ => true | None => false end =
  match best with Some _ => true | None => false end || existsb (fun h => s_relative_dist 6 h (fh mod 64) <? 0) (ref_hints s refs).
Proof.
  induction refs as [|r refs IH]; intros best F; [cbn; now rewrite orb_false_r|].
  cbn [skip_second ref_hints map existsb]. rewrite rslot_of. pose proof (Forall_inv F) as Hr. cbv beta in Hr. pose proof (Forall_inv_tail F) as Fr.
  destruct (slot s r) as [x|]; [|congruence]. cbn [option_map rs_hint]. rewrite IH by assumption. rewrite dist_spec.
  change (map (fun r0 => match slot s r0 with Some x0 => rf_hint x0 mod 64 | None => 0 end) refs) with (ref_hints s refs).
  destruct (s_relative_dist 6 (rf_hint x mod 64) (fh mod 64) <? 0); cbn [andb orb]; [|reflexivity].
  destruct (better relative_dist (rf_hint x) best) eqn:B; [now rewrite orb_true_r|]. destruct best; [reflexivity|discriminate].
Qed.
Lemma skip_spec cc c i k s :
  (fi_type i <> KEY -> Forall (fun r => slot s r <> None) (fi_refs i)) -> (fi_type i = KEY -> fi_select i = false) ->
  (fi_select i = true -> ic_reorder cc = true) -> (fi_type i <> KEY -> vc_still (hc_v c) = false) ->
  skip_mode_allowed (sequence_of c) (frame_of c i k) (rbuf_of c s) (allowed_refs cc (fi_refs i)) =
  fi_select i && s_skip_mode_allowed 6 (fi_hint i mod 64) (ref_hints s (fi_refs i)).
Proof.
  intros F Hk Hr Hs. unfold skip_mode_allowed. cbn [f_intra_only f_select f_hint frame_of sq_order_hint sequence_of].
  destruct (fi_select i) eqn:Es; [|rewrite orb_true_r; reflexivity].
  assert (Nk : fi_type i <> KEY) by (intros E; discriminate (Hk E)).
  replace (is_key (fi_type i)) with false by (destruct (fi_type i); [congruence|reflexivity|reflexivity]).
  rewrite (Hs Nk). cbn [orb negb andb]. unfold allowed_refs. rewrite (Hr eq_refl).
  pose proof (search_spec c s (fi_hint i) (fi_refs i) None None None (F Nk) ltac:(tauto)) as (E1 & E2). cbv zeta in E1, E2. cbn [option_map] in E1.
  unfold s_skip_mode_allowed.
  destruct (skip_search _ _ _ _ _) as [fe be]. destruct (s_fwd_bwd _ _ _ _ _) as [fd bd]. cbn [fst snd] in *.
  rewrite E1. destruct fe as [fh|]; cbn [option_map]; [|reflexivity].
  destruct be as [|].
  - destruct bd; [reflexivity|]. destruct E2 as [_ E2]. discriminate (E2 eq_refl).
  - destruct bd; [destruct E2 as [E2 _]; discriminate (E2 eq_refl)|]. rewrite (second_spec c s fh (fi_refs i) None (F Nk)). reflexivity.
Qed.

(** ** Parts *)
Definition w_start (s : sequence) (f : frame) (b : rbuf) : wres :=
  let key := is_key (f_type f) in
  (if sq_reduced s then
     w_assert key >>> w_assert (f_show f) >>> w_assert (negb (f_showable f))
   else
     w_bits 2 (ftype_num (f_type f)) >>> w_bit (f_show f) >>>
     w_if (negb (f_show f)) (w_bit (f_showable f)) >>>
     w_assert (negb (f_error_res f) || (f_primary f =? 7)) >>>
     (if is_switch (f_type f) then w_assert (f_error_res f)
      else w_if (negb (key && f_show f)) (w_bit (f_error_res f)))) >>>
  w_bit (f_disable_cdf f) >>>
  (if sq_sct s =? 2 then w_bit (negb (f_sct f =? 0)) else w_assert (f_sct f =? sq_sct s)) >>>
  w_if (0 <? f_sct f) (if sq_imv s =? 2 then w_bit (negb (f_imv f =? 0)) else w_assert (f_imv f =? sq_imv s)) >>>
  w_assert (f_imv f =? b2z (key || f_intra_only f)) >>>
  w_if (negb (is_switch (f_type f)) && negb (sq_reduced s)) (w_bit (f_override f)) >>>
  w_if (sq_order_hint s) (w_bits (sq_ohb1 s + 1) (f_hint f mod 2 ^ (sq_ohb1 s + 1))) >>>
  w_if (negb (f_error_res f) && negb (f_intra_only f)) (w_bits 3 (f_primary f)) >>>
  (if key then if f_show f then w_assert (f_refresh f =? 255) else None
   else if is_switch (f_type f) then w_assert (f_refresh f =? 255)
   else w_assert (negb (f_intra_only f) || negb (f_refresh f =? 255)) >>> w_bits 8 (f_refresh f)) >>>
  w_if ((negb (f_intra_only f) || negb (f_refresh f =? 255)) && f_error_res f && sq_order_hint s)
    (w_list (fun i => w_bits (sq_ohb1 s + 1)
                        (match rslot_at b i with Some x => rs_hint x mod 2 ^ (sq_ohb1 s + 1) | None => 0 end))
       [0; 1; 2; 3; 4; 5; 6; 7]).
Definition w_inter_part (s : sequence) (f : frame) (b : rbuf) : wres :=
  let key := is_key (f_type f) in
  w_if (f_intra_only f)
    (w_frame_size s f >>> w_render_size f >>> w_if (negb (f_sct f =? 0)) (w_bit (f_intrabc f))) >>>
  w_if (negb (key || f_intra_only f))
    (w_if (sq_order_hint s) (w_bit false) >>>
     w_list (fun r => w_bits 3 r) (f_refs f) >>>
     (if negb (f_error_res f) && f_override f then w_size_refs s f b (f_refs f)
      else w_frame_size s f >>> w_render_size f) >>>
     w_if (f_imv f =? 0) (w_ign (w_bit (f_hp f))) >>>
     w_bit (f_switchable f) >>> w_if (negb (f_switchable f)) (w_bits 2 (f_filter f)) >>>
     w_bit (f_motion f) >>>
     w_if (negb (f_error_res f) && sq_refmvs s) (w_bit (f_use_refmvs f))).
Definition w_rest (c : config) (s : sequence) (t : tiling) (sbw sbh : Z) (f : frame) (b : rbuf) : wres :=
  let k := f_k f in
  (if sq_reduced s || f_disable_cdf f then w_assert (f_disable_end f) else w_bit (f_disable_end f)) >>>
  w_tile_info t sbw sbh (k_ctx_id k) (k_tsb k) >>>
  w_quant (sq_chroma s) k >>>
  w_segmentation (f_seg_on f) (f_primary f) (k_seg k) >>>
  w_bit false >>>
  w_deblock (sq_chroma s) k >>>
  w_cdef s f >>>
  w_frame_lrf (sq_restoration s) (f_intrabc f) (sq_sb128 s) (chroma_eqb (sq_chroma s) Cs420) (k_lr_types k) (k_lr_y k) (k_lr_uv k) >>>
  w_bit (f_tx_select f) >>>
  w_if (negb (f_intra_only f)) (w_bit (f_select f)) >>>
  w_if (skip_mode_allowed s f b (allowed_refs c (f_refs f))) (w_bit false) >>>
  w_if (negb (f_intra_only f || f_error_res f || negb (sq_warped s))) (w_bit false) >>>
  w_bit (f_reduced_tx f) >>>
  w_if (negb (f_intra_only f)) (w_list w_bit (repeat false 7)) >>>
  w_if (sq_grain s) (w_film_grain (is_inter (f_type f)) (sq_chroma s) (sq_full s) (k_grain k)).
Lemma header_parts c s t sbw sbh f b : sq_reduced s && f_sef f = false ->
  w_frame_header c s t sbw sbh f b =
  w_if (negb (sq_reduced s)) (w_bit (f_sef f)) >>>
  if f_sef f then w_bits 3 (f_map_idx f) else w_start s f b >>> w_inter_part s f b >>> w_rest c s t sbw sbh f b.
Proof.
  intros E. unfold w_frame_header, w_start, w_inter_part, w_rest. cbv zeta. rewrite E. destruct (f_sef f); [reflexivity|].
  rewrite !w_seq_assoc. reflexivity.
Qed.

Section PARTS.
Variables (cc : config) (c : hconfig) (i : finfo) (k : coding) (s : slots).
Hypothesis O : hc_ok c.
Hypothesis St : cf_still cc = vc_still (hc_v c).
Hypothesis Fi : fi_ok cc i.
Hypothesis S8 : length s = 8%nat.

Lemma not_still : fi_type i <> KEY -> vc_still (hc_v c) = false.
Proof. intros N. rewrite <- St. exact (proj1 (fo_inter _ _ Fi N)). Qed.

Lemma still_key : vc_still (hc_v c) = true -> fi_type i = KEY.
Proof. intros E. destruct (fi_type i) eqn:Et; [reflexivity|..]; rewrite not_still in E; congruence. Qed.

Lemma start_rt : round_trips (w_start (sequence_of c) (frame_of c i k) (rbuf_of c s)) (s_frame_start (view_seq c)) (view_start c i s).
Proof.
  unfold w_start, s_frame_start. cbv zeta.
  cbn [sq_reduced sq_sct sq_imv sq_order_hint sq_ohb1 sequence_of f_type f_show f_showable f_error_res f_intra_only f_disable_cdf f_sct f_imv f_override f_hint f_primary f_refresh frame_of
       q_reduced q_sct q_imv q_ohbits q_order_hint view_seq].
  pose proof (fo_refresh _ _ Fi) as Hr. pose proof (fo_primary _ _ Fi) as Hp.
  apply (rt_bind _ _ _ _ (ftype_num (fi_type i), fi_show i, (if vc_still (hc_v c) then false else if fi_show i then negb (is_key (fi_type i)) else true), if is_key (fi_type i) then true else fi_error_res i)).
  - destruct (vc_still (hc_v c)) eqn:Es in |- *; cbn [negb].
    + pose proof (still_key Es) as K.
      destruct (fo_key _ _ Fi K) as (H1 & _). rewrite K, H1. cbn [is_key ftype_num]. rt_now.
    + eapply rt_bind; [apply rt_bits; [lia|]; destruct (fi_type i); cbn; lia|]. eapply rt_bind; [apply rt_bit|].
      apply (rt_bind _ _ _ _ (if fi_show i then negb (is_key (fi_type i)) else true)).
      { destruct (fi_show i); cbn [negb w_if]; [|apply rt_bit]. replace (ftype_num (fi_type i) =? KEY_FRAME) with (is_key (fi_type i)) by (destruct (fi_type i); reflexivity). apply rt_ret. }
      apply rt_assert. { destruct (fi_error_res i) eqn:Er in |- *; [|reflexivity]. rewrite (fo_er _ _ Fi Er). reflexivity. }
      eapply rt_last; [|reflexivity].
      destruct (fi_type i) eqn:Et in |- *; cbn [is_switch is_key ftype_num andb negb].
      * destruct (fo_key _ _ Fi Et) as (H1 & _). rewrite H1. apply rt_ret.
      * cbn [w_if]. apply rt_bit.
      * rewrite (proj1 (fo_switch _ _ Fi Et)). cbn. apply rt_ret.
  - cbv iota beta.
    set (intra := (ftype_num (fi_type i) =? KEY_FRAME) || (ftype_num (fi_type i) =? INTRA_ONLY_FRAME)).
    assert (Ei : intra = is_key (fi_type i)) by (unfold intra; destruct (fi_type i); reflexivity). rewrite Ei. clear intra Ei.
    eapply rt_bind; [apply rt_bit|].
    apply (rt_bind _ _ _ _ (b2z (vc_still (hc_v c)))). { destruct (vc_still (hc_v c)) in |- *; rt_now. }
    apply (rt_bind _ _ _ _ (b2z (vc_still (hc_v c) && is_key (fi_type i)))).
    { destruct (vc_still (hc_v c)) eqn:Es in |- *; cbn [b2z]; [|rt_now].
      pose proof (still_key Es) as K.
      rewrite K. rt_now. }
    apply rt_assert. { rewrite orb_diag. apply Z.eqb_refl. }
    apply (rt_bind _ _ _ _ (st_override (view_start c i s))).
    { cbn [st_override view_start]. destruct (fi_type i) eqn:Et in |- *; cbn [is_switch is_inter is_key ftype_num negb andb].
      - destruct (vc_still (hc_v c)) in |- *; cbn [negb w_if]; [rt_now|]. rewrite !Z.eqb_refl. apply rt_bit.
      - rewrite not_still by congruence. cbn [negb w_if]. fold (diff_size c). rewrite !Z.eqb_refl. cbn [negb orb].
        destruct (negb (fi_error_res i) && diff_size c); apply rt_bit.
      - apply rt_ret. }
    apply (rt_bind _ _ _ _ (if vc_still (hc_v c) then 0 else fi_hint i mod 64)).
    { destruct (vc_still (hc_v c)) in |- *; cbn [negb w_if]; [rt_now|]. apply rt_bits; [lia|]. apply Z.mod_pos_bound. reflexivity. }
    apply (rt_bind _ _ _ _ (fi_primary i)).
    { destruct (is_key (fi_type i)) eqn:Ek in |- *; cbn [orb negb andb].
      - assert (K : fi_type i = KEY) by (destruct (fi_type i); [reflexivity|discriminate|discriminate]).
        rewrite andb_false_r. destruct (fo_key _ _ Fi K) as (_ & _ & -> & _). apply rt_ret.
      - rewrite andb_true_r. destruct (fi_error_res i) eqn:Er in |- *; cbn [negb w_if]; [rewrite (fo_er _ _ Fi Er); apply rt_ret|]. apply rt_bits; [lia|]. change (2 ^ 3) with 8. lia. }
    apply (rt_bind _ _ _ _ (fi_refresh i)).
    { destruct (fi_type i) eqn:Et in |- *; cbn [is_key is_switch ftype_num negb].
      - destruct (fo_key _ _ Fi Et) as (-> & _ & _ & -> & _). cbn. apply rt_ret.
      - cbn [orb]. apply rt_assert; [reflexivity|]. cbn. apply rt_bits; [lia|]. change (2 ^ 8) with 256. lia.
      - destruct (fo_switch _ _ Fi Et) as (_ & ->). cbn. apply rt_ret. }
    eapply (rt_last _ _ _ (st_ref_hints (view_start c i s))).
    + cbn [st_ref_hints view_start].
      destruct (is_key (fi_type i)) eqn:Ek in |- *; cbn [negb orb andb].
      * assert (K : fi_type i = KEY) by (destruct (fi_type i); [reflexivity|discriminate|discriminate]).
        destruct (fo_key _ _ Fi K) as (_ & -> & _ & -> & _). cbn. apply rt_ret.
      * assert (N : fi_type i <> KEY) by (intros E; rewrite E in Ek; discriminate). rewrite (not_still N). cbn [negb]. rewrite !andb_true_r.
        destruct (fi_error_res i); cbn [w_if]; [|apply rt_ret].
        destruct s as [|s0 [|s1 [|s2 [|s3 [|s4 [|s5 [|s6 [|s7 [|? ?]]]]]]]]]; try discriminate S8.
        set (g := fun x => match rslot_at (rbuf_of c [s0; s1; s2; s3; s4; s5; s6; s7]) x with Some x => rs_hint x mod 64 | None => 0 end).
        replace (map (fun o => match o with Some r => rf_hint r mod 64 | None => 0 end) [s0; s1; s2; s3; s4; s5; s6; s7]) with (map g [0; 1; 2; 3; 4; 5; 6; 7]).
        2: { assert (G : forall x, g x = match slot [s0; s1; s2; s3; s4; s5; s6; s7] x with Some r => rf_hint r mod 64 | None => 0 end) by (intros x; unfold g; rewrite rslot_of; destruct (slot _ x); reflexivity).
             cbn [map]. rewrite !G. reflexivity. }
        apply (rt_list _ (p_f 6) g). intros x _. apply rt_bits; [lia|]. unfold g. destruct (rslot_at _ x); [apply Z.mod_pos_bound; reflexivity|cbn; lia].
    + unfold view_start. cbv zeta. cbn [st_ref_hints st_override]. f_equal. f_equal.
      * destruct (vc_still (hc_v c)) eqn:Es in |- *; [|reflexivity].
        pose proof (still_key Es) as K.
        rewrite K. destruct (fo_key _ _ Fi K) as (-> & _). reflexivity.
      * destruct (is_key (fi_type i)); [reflexivity|]. rewrite andb_false_r. reflexivity.
Qed.

Definition ov : bool := match fi_type i with KEY => false | SWITCH => true | INTER => negb (fi_error_res i) && diff_size c end.
Lemma override_eq : f_override (frame_of c i k) = ov.
Proof.
  unfold ov. cbn [f_override frame_of sq_w sq_h sq_reduced sequence_of]. rewrite !Z.eqb_refl. cbn [negb orb].
  destruct (fi_type i) eqn:Et in |- *; cbn [is_key is_switch is_inter andb]; try reflexivity.
  rewrite not_still by congruence. fold (diff_size c). destruct (negb (fi_error_res i) && diff_size c); reflexivity.
Qed.
Lemma frame_size_rt : round_trips (w_frame_size (sequence_of c) (frame_of c i k)) (s_frame_size (view_seq c) ov) (vc_width (hc_v c), vc_height (hc_v c)).
Proof.
  unfold w_frame_size, s_frame_size. rewrite override_eq. cbn [q_superres q_wbits q_hbits q_maxw q_maxh view_seq f_w f_h frame_of sq_superres sequence_of]. cbv zeta.
  apply rt_skip_end; [reflexivity|]. destruct ov; cbn [w_if]; [|apply rt_ret].
  pose proof (validate_facts _ (ho_valid _ O)) as V. pose proof (vf_w _ V) as Hw. pose proof (vf_h _ V) as Hh.
  pose proof (log_bits (vc_width (hc_v c)) ltac:(lia)) as (Kw & Lw). pose proof (log_bits (vc_height (hc_v c)) ltac:(lia)) as (Kh & Lh).
  fold (log_in_base_2 (vc_width (hc_v c) - 1)). fold (log_in_base_2 (vc_height (hc_v c) - 1)).
  set (kw := log_in_base_2 (vc_width (hc_v c) - 1) + 1) in *. set (kh := log_in_base_2 (vc_height (hc_v c) - 1) + 1) in *.
  apply rt_assert; [lia|]. apply rt_assert; [lia|]. unfold u16. rewrite !Z.mod_small by lia.
  change (Z.log2 (vc_width (hc_v c) - 1) + 1) with kw. change (Z.log2 (vc_height (hc_v c) - 1) + 1) with kh.
  eapply rt_bind; [apply rt_bits; lia|]. eapply rt_last; [apply rt_bits; lia|]. cbv beta.
  f_equal. f_equal; lia.
Qed.
Lemma render_size_rt : round_trips (w_render_size (frame_of c i k)) (s_render_size (vc_width (hc_v c), vc_height (hc_v c))) (vc_render_w (hc_v c), vc_render_h (hc_v c)).
Proof.
  unfold w_render_size, s_render_size. cbn [f_render_diff f_rw f_rh frame_of]. fold (diff_size c).
  eapply rt_bind; [apply rt_bit|]. destruct (diff_size c) eqn:D; cbn [w_if].
  - pose proof (validate_facts _ (ho_valid _ O)) as V. pose proof (vf_rw _ V). pose proof (vf_rh _ V). pose proof (ho_render _ O).
    eapply rt_bind; [apply rt_bits; [lia|]; change (2 ^ 16) with 65536; lia|]. eapply rt_last; [apply rt_bits; [lia|]; change (2 ^ 16) with 65536; lia|].
    cbv beta. f_equal. f_equal; lia.
  - unfold diff_size in D. apply orb_false_iff in D. destruct D as (D1 & D2). apply negb_false_iff, Z.eqb_eq in D1. apply negb_false_iff, Z.eqb_eq in D2.
    rewrite D1, D2. apply rt_ret.
Qed.
Lemma sizes_rt : round_trips (w_frame_size (sequence_of c) (frame_of c i k) >>> w_render_size (frame_of c i k))
  (sz <- s_frame_size (view_seq c) ov ;; r <- s_render_size sz ;; p_ret (sz, r))
  ((vc_width (hc_v c), vc_height (hc_v c)), (vc_render_w (hc_v c), vc_render_h (hc_v c))).
Proof. eapply rt_bind; [apply frame_size_rt|]. eapply rt_last; [apply render_size_rt|reflexivity]. Qed.

Variable d : s_dpb.
Hypothesis M : fi_type i <> KEY -> Forall2 (slot_matches c) s d.
Hypothesis Live : fi_type i <> KEY -> Forall (fun r => slot s r <> None) (fi_refs i).

Lemma inter_rt : round_trips (w_inter_part (sequence_of c) (frame_of c i k) (rbuf_of c s)) (s_inter_part (view_seq c) d (view_start c i s)) (view_inter c i).
Proof.
  unfold w_inter_part, s_inter_part. cbv zeta.
  replace (st_intra (view_start c i s)) with (is_key (fi_type i)) by (unfold st_intra; cbn [st_type view_start]; destruct (fi_type i); reflexivity).
  cbn [f_intra_only f_type f_sct f_intrabc f_refs f_error_res f_imv f_hp f_switchable f_filter f_motion f_use_refmvs frame_of sq_order_hint sq_refmvs sq_sct sequence_of].
  rewrite override_eq. change (st_override (view_start c i s)) with ov. cbn [st_sct st_error_res st_imv view_start q_order_hint q_refmvs view_seq].
  unfold view_inter. rewrite orb_diag. destruct (is_key (fi_type i)) eqn:Ek in |- *; cbn [w_if negb].
  - apply rt_skip_end; [reflexivity|]. eapply rt_bind; [apply frame_size_rt|]. eapply rt_bind; [apply render_size_rt|].
    apply (rt_last _ _ _ false); [|reflexivity]. destruct (vc_still (hc_v c)) in |- *; cbn [b2z]; rt_now.
  - apply rt_skip; [reflexivity|]. assert (N : fi_type i <> KEY) by (intros E; rewrite E in Ek; discriminate).
    destruct (fo_inter _ _ Fi N) as (_ & L7 & F8). rewrite (not_still N). cbn [negb w_if].
    eapply rt_bind; [apply rt_bit|]. cbv iota.
    apply (rt_bind _ _ _ _ (fi_refs i)).
    { rewrite <- L7. pose proof (rt_list (fun r => w_bits 3 r) (p_f 3) (fun r => r) (fi_refs i)) as R. rewrite map_id in R. apply R.
      intros x Hx. rewrite Forall_forall in F8. specialize (F8 x Hx). apply rt_bits; [lia|]. change (2 ^ 3) with 8. lia. }
    apply (rt_bind _ _ _ _ ((vc_width (hc_v c), vc_height (hc_v c)), (vc_render_w (hc_v c), vc_render_h (hc_v c)))).
    { rewrite (andb_comm ov). destruct (negb (fi_error_res i) && ov); [|apply sizes_rt].
      destruct (fi_refs i) as [|r refs] eqn:Er in |- *; [rewrite Er in L7; discriminate L7|].
      cbn [w_size_refs s_size_refs]. rewrite rslot_of. pose proof (matches_at c _ _ (M N) r) as Ma. specialize (Live N). rewrite Er in Live.
      pose proof (Forall_inv Live) as Lr. cbv beta in Lr. unfold slot_matches in Ma. destruct (slot s r) as [x|]; [|congruence]. destruct (s_at d r) as [y|]; [|contradiction].
      destruct Ma as (_ & E1 & E2 & E3 & E4). cbn [option_map rs_w rs_h rs_rw rs_rh f_w f_h f_rw f_rh frame_of].
      pose proof (validate_facts _ (ho_valid _ O)) as V. pose proof (vf_w _ V) as Hw. pose proof (vf_h _ V) as Hh. unfold u32. rewrite !Z.mod_small by lia.
      rewrite !Z.eqb_refl. cbn [andb]. eapply rt_bind; [apply rt_bit|]. cbv iota. rewrite E1, E2, E3, E4. cbn [q_superres view_seq sq_superres sequence_of negb]. apply rt_ret. }
    cbn [b2z]. apply (rt_bind _ _ _ _ false). { rt_now. }
    eapply rt_bind; [apply rt_bit|]. cbv iota. eapply rt_bind; [rt_now|]. eapply rt_bind; [apply rt_bit|].
    apply (rt_last _ _ _ false); [|reflexivity]. cbn [negb]. rewrite orb_true_r, andb_false_r. apply rt_ret.
Qed.

Variables (t : tiling) (sbw sbh : Z) (ti : tile_info).
Hypothesis Ti : round_trips (w_tile_info t sbw sbh (k_ctx_id k) (k_tsb k)) (p_tile_info (vc_width (hc_v c)) (vc_height (hc_v c))) ti.
Hypothesis Co : coding_ok c k.
Hypothesis Sg : hc_seg c = true -> fi_primary i <> 7 -> s_prev_features d (fi_refs i) (fi_primary i) = view_seg (k_seg k).

Lemma mono_eq : q_mono (view_seq c) = chroma_eqb (vc_chroma (hc_v c)) Cs400.
Proof. cbn [q_mono view_seq]. unfold view_color. destruct (hc_color c) as [[[? ?] ?]|]; reflexivity. Qed.
Lemma sep_eq : q_sep_uv (view_seq c) = negb (chroma_eqb (vc_chroma (hc_v c)) Cs400).
Proof. cbn [q_sep_uv view_seq]. unfold view_color. destruct (hc_color c) as [[[? ?] ?]|]; reflexivity. Qed.
Lemma ssx_eq : q_ssx (view_seq c) = match vc_chroma (hc_v c) with Cs444 => false | _ => true end.
Proof. cbn [q_ssx view_seq]. unfold view_color. destruct (hc_color c) as [[[? ?] ?]|]; reflexivity. Qed.
Lemma ssy_eq : q_ssy (view_seq c) = match vc_chroma (hc_v c) with Cs420 | Cs400 => true | _ => false end.
Proof. cbn [q_ssy view_seq]. unfold view_color. destruct (hc_color c) as [[[? ?] ?]|]; reflexivity. Qed.

Lemma hints_eq refs : fi_type i <> KEY -> Forall (fun r => slot s r <> None) refs -> s_hints d refs = ref_hints s refs.
Proof.
  intros N F. unfold s_hints, ref_hints. apply map_ext_in. intros r Hr. rewrite Forall_forall in F. specialize (F r Hr).
  pose proof (matches_at c _ _ (M N) r) as Ma. unfold slot_matches in Ma. destruct (slot s r) as [x|]; [|congruence]. destruct (s_at d r) as [y|]; [|contradiction]. tauto.
Qed.

Lemma rest_rt : round_trips (w_rest cc (sequence_of c) t sbw sbh (frame_of c i k) (rbuf_of c s))
  (s_frame_rest (view_seq c) d (view_start c i s) (view_inter c i)) (view_frame c i k s ti).
Proof.
  unfold w_rest, s_frame_rest. cbv zeta.
  replace (st_intra (view_start c i s)) with (is_key (fi_type i)) by (unfold st_intra; cbn [st_type view_start]; destruct (fi_type i); reflexivity).
  change (f_k (frame_of c i k)) with k. rewrite mono_eq, sep_eq.
  cbn [st_disable_cdf st_primary st_type st_show st_showable st_hint st_error_res view_start si_size si_refs si_intrabc view_inter fst snd].
  apply (rt_bind _ _ _ _ (vc_still (hc_v c))).
  { cbn [sq_reduced sequence_of f_disable_cdf f_disable_end frame_of q_reduced view_seq]. destruct (vc_still (hc_v c)) in |- *; rt_now. }
  eapply rt_bind; [exact Ti|].
  change (sq_chroma (sequence_of c)) with (vc_chroma (hc_v c)). set (cs := vc_chroma (hc_v c)).
  eapply rt_bind; [apply quant_rt, (co_quant _ _ Co)|]. cbv iota.
  change (f_seg_on (frame_of c i k)) with (hc_seg c). change (f_primary (frame_of c i k)) with (fi_primary i).
  eapply rt_bind.
  { apply seg_rt; [intros E; exact (proj1 (co_seg _ _ Co E))|]. intros E N.
    assert (Nk : fi_type i <> KEY). { intros K. destruct (fo_key _ _ Fi K) as (_ & _ & P & _). contradiction. }
    replace (is_key (fi_type i)) with false by (destruct (fi_type i); [congruence|reflexivity|reflexivity]). exact (Sg E N). }
  assert (Hq : 0 < k_q k < 256) by exact (proj1 (co_quant _ _ Co)).
  apply (rt_bind _ _ _ _ false). { replace (0 <? k_q k) with true by (symmetry; apply Z.ltb_lt; lia). apply rt_bit. }
  cbv iota. rewrite (lossless_false _ _ _ _ _ Hq (fun E => proj2 (co_seg _ _ Co E))).
  eapply rt_bind; [apply deblock_rt, (co_levels _ _ Co)|].
  eapply rt_bind; [apply (cdef_rt (sequence_of c) (frame_of c i k) (chroma_eqb cs Cs400)); [exact (co_cdef _ _ Co)|reflexivity|reflexivity]|].
  rewrite ssx_eq, ssy_eq. fold cs.
  eapply rt_bind; [cbv iota; apply (lr_rt (hc_lrf c && ((32 <=? vc_width (hc_v c)) && (32 <=? vc_height (hc_v c)))) cs k), (co_lr _ _ Co)|].
  eapply rt_bind; [cbv iota; apply rt_bit|].
  change (f_intra_only (frame_of c i k)) with (is_key (fi_type i)). change (f_select (frame_of c i k)) with (fi_select i).
  change (f_refs (frame_of c i k)) with (fi_refs i).
  apply (rt_bind _ _ _ _ (fi_select i)).
  { destruct (is_key (fi_type i)) eqn:Ek in |- *; cbn [negb w_if]; [|apply rt_bit].
    assert (K : fi_type i = KEY) by (destruct (fi_type i); [reflexivity|discriminate|discriminate]). destruct (fo_key _ _ Fi K) as (_ & _ & _ & _ & -> & _). apply rt_ret. }
  rewrite (skip_spec cc c i k s Live); [|intros K; exact (proj1 (proj2 (proj2 (proj2 (proj2 (fo_key _ _ Fi K))))))|exact (fo_select _ _ Fi)|exact not_still].
  assert (Sk : negb (is_key (fi_type i)) && fi_select i && q_order_hint (view_seq c) &&
     s_skip_mode_allowed (q_ohbits (view_seq c)) (if vc_still (hc_v c) then 0 else fi_hint i mod 64) (s_hints d (if is_key (fi_type i) then [] else fi_refs i)) =
     fi_select i && s_skip_mode_allowed 6 (fi_hint i mod 64) (ref_hints s (fi_refs i))).
  { destruct (is_key (fi_type i)) eqn:Ek in |- *; cbn [negb andb].
    - assert (K : fi_type i = KEY) by (destruct (fi_type i); [reflexivity|discriminate|discriminate]). destruct (fo_key _ _ Fi K) as (_ & _ & _ & _ & -> & _). reflexivity.
    - assert (N : fi_type i <> KEY) by (intros E; rewrite E in Ek; discriminate). rewrite (hints_eq _ N (Live N)). cbn [q_order_hint q_ohbits view_seq]. rewrite (not_still N). cbn [negb].
      rewrite andb_true_r. reflexivity. }
  rewrite Sk. clear Sk.
  apply (rt_bind _ _ _ _ false). { apply rt_if; [intros _; apply rt_bit|reflexivity]. }
  apply (rt_bind _ _ _ _ false).
  { cbn [sq_warped sequence_of q_warped view_seq f_error_res frame_of negb]. rewrite !orb_true_r. apply rt_ret. }
  eapply rt_bind; [apply rt_bit|].
  apply (rt_bind _ _ _ _ (if is_key (fi_type i) then [] else repeat false 7)).
  { destruct (is_key (fi_type i)) in |- *; rt_now. }
  replace (existsb (fun g : bool => g) (if is_key (fi_type i) then [] else repeat false 7)) with false by (destruct (is_key (fi_type i)); reflexivity).
  eapply (rt_last _ _ _ (if hc_grain c then option_map (view_grain cs (vc_full_range (hc_v c))) (k_grain k) else None)).
  - change (sq_grain (sequence_of c)) with (hc_grain c). change (sq_full (sequence_of c)) with (vc_full_range (hc_v c)). change (f_type (frame_of c i k)) with (fi_type i).
    destruct (hc_grain c) eqn:Eg in |- *; cbn [w_if].
    + replace (is_inter (fi_type i)) with (ftype_num (fi_type i) =? INTER_FRAME) by (destruct (fi_type i); reflexivity).
      apply grain_rt; [exact Eg| |exact mono_eq|exact ssx_eq|exact ssy_eq|exact (co_grain _ _ Co)].
      destruct (fi_show i); [left; reflexivity|right; reflexivity].
    + unfold s_film_grain. cbn [q_grain view_seq]. rewrite Eg. apply rt_ret.
  - unfold view_frame. cbv zeta. fold cs. reflexivity.
Qed.

Theorem header_rt : fi_sef i = false ->
  round_trips (w_frame_header cc (sequence_of c) t sbw sbh (frame_of c i k) (rbuf_of c s)) (s_uncompressed_header (view_seq c) d) (SCoded (view_frame c i k s ti)).
Proof.
  intros Es. rewrite header_parts by (cbn [f_sef frame_of]; rewrite Es; apply andb_false_r).
  change (f_sef (frame_of c i k)) with (fi_sef i). rewrite Es. unfold s_uncompressed_header. cbn [q_frame_ids q_decoder_model view_seq orb].
  change (q_reduced (view_seq c)) with (vc_still (hc_v c)). change (sq_reduced (sequence_of c)) with (vc_still (hc_v c)).
  apply (rt_bind _ _ _ _ false). { apply rt_ifn; [intros _; apply rt_bit|reflexivity]. }
  cbv iota. eapply rt_bind; [apply start_rt|]. eapply rt_bind; [apply inter_rt|]. eapply rt_last; [apply rest_rt|reflexivity].
Qed.
End PARTS.

Theorem existing_rt cc c i k s d t sbw sbh : fi_sef i = true -> vc_still (hc_v c) = false -> 0 <= fi_map_idx i < 8 ->
  round_trips (w_frame_header cc (sequence_of c) t sbw sbh (frame_of c i k) (rbuf_of c s)) (s_uncompressed_header (view_seq c) d) (SExisting (fi_map_idx i)).
Proof.
  intros Es Hs Hm. rewrite header_parts by (cbn [sq_reduced sequence_of]; rewrite Hs; reflexivity).
  change (f_sef (frame_of c i k)) with (fi_sef i). rewrite Es. unfold s_uncompressed_header. cbn [q_frame_ids q_decoder_model view_seq orb].
  change (q_reduced (view_seq c)) with (vc_still (hc_v c)). change (sq_reduced (sequence_of c)) with (vc_still (hc_v c)). rewrite Hs. cbn [negb w_if].
  eapply rt_bind; [apply rt_bit|]. cbv iota. eapply rt_last; [apply rt_bits; [lia|]; change (2 ^ 3) with 8; exact Hm|reflexivity].
Qed.
