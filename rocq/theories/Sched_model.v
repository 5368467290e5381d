(** Model of the encoder front end: /repo/src/api/internal.rs (InterConfig,
    ContextInner) and /repo/src/api/context.rs (Context::send_frame,
    receive_packet, flush), with the frame-parameter constructors of
    /repo/src/encoder.rs.

    What is abstracted:
    - the content of a frame is its input number;
    - scene detection: [scene n] is the answer of the detector for frame n; it
      is asked at most once per frame, so quantifying over all functions covers
      every detector and every history;
    - rate control readiness (two-pass data present or not) is an argument of
      each receive call;
    - the coded bytes of a frame are a [payload] recording the input frame, the
      output number and the reference pictures the encoder used.
    A Rust panic (index, unwrap, assert) is [None]. *)
From Verif Require Import Base SMap.

(** The EncoderConfig fields the front end reads (api/config/encoder.rs), after
    the normalisation in Config::new_inner (api/config/mod.rs:226-231:
    set_key_frame_interval maps 0 to the maximum). *)
Record config := Config {
  cf_low_latency : bool;
  cf_multiref : bool;          (* speed_settings.multiref *)
  cf_switch_interval : Z;
  cf_error_resilient : bool;
  cf_max_kf : Z;               (* max_key_frame_interval *)
  cf_rdo_la : Z;               (* speed_settings.rdo_lookahead_frames *)
  cf_temporal_rdo : bool;      (* config.temporal_rdo() *)
  cf_still : bool }.

(** ** InterConfig (internal.rs:37-205) *)
Definition ic_reorder (c : config) : bool := negb (cf_low_latency c).
Definition ic_multiref (c : config) : bool := ic_reorder c || cf_multiref c.
Definition ic_depth (c : config) : Z := if ic_reorder c then 2 else 0.
Definition ic_in_len (c : config) : Z := 2 ^ ic_depth c.
Definition ic_out_len (c : config) : Z := ic_in_len c + ic_depth c.

(** u64::trailing_zeros on a nonzero value; u64::count_ones *)
Definition ctz (x : Z) : Z := Z.log2 (Z.land x (- x)).
Fixpoint pos_ones (p : positive) : Z :=
  match p with xH => 1 | xO p => pos_ones p | xI p => 1 + pos_ones p end.
Definition count_ones (x : Z) : Z := match x with Zpos p => pos_ones p | _ => 0 end.

(** encoder.rs:817-826 *)
Definition pos_to_lvl (pos depth : Z) : Z := depth - ctz (Z.lor pos (2 ^ depth)).

(** internal.rs:96-105 *)
Definition get_idx (c : config) (j : Z) : Z := (j - 1) mod ic_out_len c.
(** internal.rs:108-127 *)
Definition get_order_hint (c : config) (j idx : Z) : Z :=
  let group_idx := (j - 1) / ic_out_len c in
  let offset := if idx <? ic_depth c then ic_in_len c / 2 ^ idx else idx - ic_depth c + 1 in
  u32 (ic_in_len c * group_idx + offset).
(** internal.rs:130-144 *)
Definition get_level (c : config) (idx : Z) : Z :=
  if negb (ic_reorder c) then 0
  else if idx <? ic_depth c then idx
  else pos_to_lvl (idx - ic_depth c + 1) (ic_depth c).
(** internal.rs:146-155 *)
Definition get_slot_idx (c : config) (level hint : Z) : Z :=
  if level =? 0 then (hint / 2 ^ ic_depth c) mod 4 else 3 + level.
(** internal.rs:157-159, 161-170 *)
Definition get_show_frame (c : config) (idx : Z) : bool := ic_depth c <=? idx.
Definition get_show_existing (c : config) (idx : Z) : bool :=
  ic_reorder c && get_show_frame c idx && (count_ones (idx - ic_depth c + 1) =? 1)
  && negb (idx =? ic_depth c).
(** internal.rs:172-184 *)
Definition get_input (c : config) (j gs : Z) : Z :=
  if j =? 0 then gs else gs + get_order_hint c j (get_idx c j).
(** internal.rs:186-192 *)
Definition kf_lookahead (c : config) : Z := ic_in_len c + 1.

(** ** Frame parameters *)
Inductive ftype := KEY | INTER | SWITCH.
Definition is_key (t : ftype) : bool := match t with KEY => true | _ => false end.

(** The fields of FrameInvariants that the front end sets and reads and the
    header carries.  [fi_sef] is is_show_existing_frame(), i.e.
    coded_frame_data.is_none() (encoder.rs:1120). *)
Record finfo := FInfo {
  fi_input : Z; fi_hint : Z; fi_show : bool; fi_type : ftype; fi_level : Z; fi_idx : Z;
  fi_map_idx : Z; fi_refresh : Z; fi_refs : list Z; fi_sef : bool; fi_t35 : list Z;
  fi_error_res : bool; fi_primary : Z; fi_select : bool }.

(** A picture: a reconstruction (of the frame with the given input and output
    numbers) or, in the lookahead, a source frame. *)
Inductive pic := Recon (input out : Z) | Source (input : Z).
(** ReferenceFrame (encoder.rs): the fields used here. *)
Record refframe := RefFrame { rf_hint : Z; rf_out : Z; rf_pic : pic }.
(** ReferenceFramesSet: REF_FRAMES = 8 slots *)
Definition slots := list (option refframe).
Definition no_slots : slots := repeat None 8.
Definition slot (s : slots) (i : Z) : option refframe := nth (Z.to_nat i) s None.

(** FrameData: [fd_la] is coded_frame_data.lookahead_rec_buffer (meaningless
    for show-existing frames), [fd_out] is fs.rec. *)
Record fdata := FData {
  fd_fi : finfo; fd_rec : slots; fd_la : slots; fd_bias : list bool; fd_out : option pic }.

(** Sequence::get_relative_dist (encoder.rs:333-337), order_hint_bits_minus_1 = 5
    (encoder.rs:297) *)
Definition relative_dist (a b : Z) : Z :=
  let diff := a - b in
  let m := 2 ^ 5 in
  Z.land diff (m - 1) - Z.land diff m.

(** set_ref_frame_sign_bias (encoder.rs:1197-1210); enable_order_hint is
    !still_picture (encoder.rs:307) *)
Definition sign_bias (c : config) (rec : slots) (refs : list Z) (hint : Z) : list bool :=
  map (fun r => if cf_still c then false
                else match slot rec r with
                     | Some f => 0 <? relative_dist (rf_hint f) hint
                     | None => false
                     end) refs.

(** Refreshing slots: the loops in update_rec_buffer (encoder.rs:3838-3843) and
    compute_lookahead_motion_vectors. *)
Fixpoint refresh_from (i flags : Z) (r : refframe) (s : slots) : slots :=
  match s with
  | [] => []
  | x :: s => (if Z.testbit flags i then Some r else x) :: refresh_from (i + 1) flags r s
  end.
Definition refresh := refresh_from 0.

(** PRIMARY_REF_NONE = 7, ALL_REF_FRAMES_MASK = 255, INTER_REFS_PER_FRAME = 7 *)
Definition PRIMARY_REF_NONE : Z := 7.

(** FrameInvariants::new + new_key_frame (encoder.rs:832-962) *)
Definition new_key_frame (gs : Z) (t35 : list Z) : fdata :=
  FData (FInfo gs 0 true KEY 0 0 0 255 (repeat 0 7) false t35 false PRIMARY_REF_NONE false)
        no_slots no_slots (repeat false 7) None.

(** new_inter_frame (encoder.rs:964-1118); reference indices LAST2 = 1,
    LAST3 = 2, ALTREF = 6.  Returns None for a placeholder. *)
Definition lower_slot (c : config) (oh : Z) : Z :=
  let lvl := pos_to_lvl oh (ic_depth c) in
  if lvl =? 0 then (oh / 2 ^ ic_depth c) mod 4 else 3 + lvl.
Definition inter_info (c : config) (gs j : Z) (t35 : list Z) : finfo :=
  let input := get_input c j gs in
  let idx := get_idx c j in
  let sef := get_show_existing c idx in
  let hint := get_order_hint c j idx in
  let level := get_level c idx in
  let type := if (0 <? cf_switch_interval c) && (j mod cf_switch_interval c =? 0) && (level =? 0)
              then SWITCH else INTER in
  let error_res := match type with SWITCH => true | _ => cf_error_resilient c end in
  let slot_idx := get_slot_idx c level hint in
  let show := get_show_frame c idx in
  let t35 := if show then t35 else [] in
  let refresh := match type with
                 | SWITCH => 255
                 | _ => if sef then 0 else 2 ^ slot_idx end in
  let second := if idx =? 0 then 1%nat else 6%nat in
  let primary := if error_res || (2 <? level) then PRIMARY_REF_NONE else 2 in
  let refs :=
    if level =? 0 then
      let r := repeat ((slot_idx + 4 - 1) mod 4) 7 in
      if ic_multiref c then set_nth second ((slot_idx + 4 - 2) mod 4) r else r
    else
      let step := ic_in_len c / 2 ^ level in
      let r := repeat (lower_slot c (hint - step)) 7 in
      let r := set_nth second (lower_slot c (hint + step)) r in
      set_nth 2 slot_idx r in
  FInfo input hint show type level idx slot_idx refresh refs sef t35 error_res primary
        (ic_multiref c && negb (idx =? 0)).
Definition new_inter_frame (c : config) (prev : fdata) (gs j next_kf : Z) (t35 : list Z) : option fdata :=
  if next_kf <=? get_input c j gs then None
  else
    let fi := inter_info c gs j t35 in
    Some (FData fi (fd_rec prev) (if fi_sef fi then no_slots else fd_la prev)
                (sign_bias c (fd_rec prev) (fi_refs fi) (fi_hint fi)) None).

(** ** Coded data *)
Record header := Header {
  h_sef : bool; h_map_idx : Z; h_type : ftype; h_show : bool; h_error_res : bool;
  h_hint : Z; h_primary : Z; h_refresh : Z; h_ref_hints : list Z; h_refs : list Z; h_select : bool }.
(** The header bits (header.rs:461-650) as a record: order hints are masked to
    six bits (header.rs:555-557, 592-600). *)
Definition header_of (c : config) (d : fdata) : header :=
  let fi := fd_fi d in
  if fi_sef fi then Header true (fi_map_idx fi) INTER true false 0 0 0 [] [] false
  else Header false 0 (fi_type fi) (fi_show fi) (fi_error_res fi) (fi_hint fi mod 64) (fi_primary fi)
         (fi_refresh fi)
         (if negb (is_key (fi_type fi)) && fi_error_res fi && negb (cf_still c)
          then map (fun o => match o with Some r => rf_hint r mod 64 | None => 0 end) (fd_rec d) else [])
         (if is_key (fi_type fi) then [] else fi_refs fi) (fi_select fi).

(** The coded blocks of a frame: which frame they code, which reference
    pictures (one per reference index) the encoder predicted from, and the
    whole reference buffer it had (fi.rec_buffer). *)
Record payload := Payload {
  pl_input : Z; pl_out : Z; pl_refs : list (option pic); pl_bias : list bool; pl_slots : slots }.
Inductive obu :=
  | OTemporalDelimiter
  | OSequence                              (* write_key_frame_obus *)
  | OT35 (x : Z)
  | OFrameHeader (h : header)
  | OFrame (h : header) (p : payload).

Record packet := Packet {
  p_data : list obu; p_rec : option pic; p_source : Z; p_input : Z; p_type : ftype;
  p_opaque : option Z }.

(** ** ContextInner (internal.rs:228-261) and Context.is_flushing *)
Record st := St {
  s_frame_count : Z;
  s_limit : option Z;
  s_out : Z;                         (* output_frameno *)
  s_processed : Z;                   (* frames_processed *)
  s_frame_q : smap bool;             (* true: Some(frame), false: None *)
  s_data : smap (option fdata);      (* frame_data *)
  s_keyframes : list Z;
  s_forced : list Z;                 (* keyframes_forced *)
  s_packet_data : list obu;
  s_gop_out : smap Z;                (* gop_output_frameno_start *)
  s_gop_in : smap Z;                 (* gop_input_frameno_start *)
  s_next_la : Z;                     (* next_lookahead_frame *)
  s_next_la_out : Z;                 (* next_lookahead_output_frameno *)
  s_opaque : smap Z;                 (* opaque_q *)
  s_t35 : smap (list Z);             (* t35_q *)
  s_flushing : bool }.

(** ContextInner::new (internal.rs:264-335) *)
Definition init : st :=
  St 0 None 0 0 [] [] [0] [] [OTemporalDelimiter] [] [] 1 0 [] [] false.

(** Field updates. *)
Definition set_limit l s := St (s_frame_count s) l (s_out s) (s_processed s) (s_frame_q s) (s_data s) (s_keyframes s) (s_forced s) (s_packet_data s) (s_gop_out s) (s_gop_in s) (s_next_la s) (s_next_la_out s) (s_opaque s) (s_t35 s) true.
Definition set_out o s := St (s_frame_count s) (s_limit s) o (s_processed s) (s_frame_q s) (s_data s) (s_keyframes s) (s_forced s) (s_packet_data s) (s_gop_out s) (s_gop_in s) (s_next_la s) (s_next_la_out s) (s_opaque s) (s_t35 s) (s_flushing s).
Definition set_data d s := St (s_frame_count s) (s_limit s) (s_out s) (s_processed s) (s_frame_q s) d (s_keyframes s) (s_forced s) (s_packet_data s) (s_gop_out s) (s_gop_in s) (s_next_la s) (s_next_la_out s) (s_opaque s) (s_t35 s) (s_flushing s).
Definition set_gops go gi s := St (s_frame_count s) (s_limit s) (s_out s) (s_processed s) (s_frame_q s) (s_data s) (s_keyframes s) (s_forced s) (s_packet_data s) go gi (s_next_la s) (s_next_la_out s) (s_opaque s) (s_t35 s) (s_flushing s).
Definition set_t35 t s := St (s_frame_count s) (s_limit s) (s_out s) (s_processed s) (s_frame_q s) (s_data s) (s_keyframes s) (s_forced s) (s_packet_data s) (s_gop_out s) (s_gop_in s) (s_next_la s) (s_next_la_out s) (s_opaque s) t (s_flushing s).
Definition set_la kfs la s := St (s_frame_count s) (s_limit s) (s_out s) (s_processed s) (s_frame_q s) (s_data s) kfs (s_forced s) (s_packet_data s) (s_gop_out s) (s_gop_in s) la (s_next_la_out s) (s_opaque s) (s_t35 s) (s_flushing s).
Definition set_la_out o s := St (s_frame_count s) (s_limit s) (s_out s) (s_processed s) (s_frame_q s) (s_data s) (s_keyframes s) (s_forced s) (s_packet_data s) (s_gop_out s) (s_gop_in s) (s_next_la s) o (s_opaque s) (s_t35 s) (s_flushing s).
Definition set_input n q forced op t35 s := St n (s_limit s) (s_out s) (s_processed s) q (s_data s) (s_keyframes s) forced (s_packet_data s) (s_gop_out s) (s_gop_in s) (s_next_la s) (s_next_la_out s) op t35 (s_flushing s).
Definition set_packet pd s := St (s_frame_count s) (s_limit s) (s_out s) (s_processed s) (s_frame_q s) (s_data s) (s_keyframes s) (s_forced s) pd (s_gop_out s) (s_gop_in s) (s_next_la s) (s_next_la_out s) (s_opaque s) (s_t35 s) (s_flushing s).
Definition set_processed n s := St (s_frame_count s) (s_limit s) (s_out s) n (s_frame_q s) (s_data s) (s_keyframes s) (s_forced s) (s_packet_data s) (s_gop_out s) (s_gop_in s) (s_next_la s) (s_next_la_out s) (s_opaque s) (s_t35 s) (s_flushing s).
Definition set_frame_q q s := St (s_frame_count s) (s_limit s) (s_out s) (s_processed s) q (s_data s) (s_keyframes s) (s_forced s) (s_packet_data s) (s_gop_out s) (s_gop_in s) (s_next_la s) (s_next_la_out s) (s_opaque s) (s_t35 s) (s_flushing s).
Definition set_opaque op s := St (s_frame_count s) (s_limit s) (s_out s) (s_processed s) (s_frame_q s) (s_data s) (s_keyframes s) (s_forced s) (s_packet_data s) (s_gop_out s) (s_gop_in s) (s_next_la s) (s_next_la_out s) op (s_t35 s) (s_flushing s).

(** internal.rs:438-440 *)
Definition needs_more_frames (s : st) (n : Z) : bool :=
  match s_limit s with Some l => n <? l | None => true end.
(** internal.rs:423-428 *)
Definition needs_more_q (c : config) (s : st) (n : Z) : bool :=
  let last := match last_key (s_frame_q s) with Some k => k | None => 0 end in
  (last <? n + kf_lookahead c + 1) && needs_more_frames s last.

(** internal.rs:442-454 *)
Definition rdo_frames (c : config) (s : st) : list (Z * fdata) :=
  firstn (Z.to_nat (cf_rdo_la c + 1))
    (filter (fun kd => negb (fi_sef (fd_fi (snd kd))))
       (flat_map (fun kd => match snd kd with Some d => [(fst kd, d)] | None => [] end)
          (from_key (s_out s) (s_data s)))).
(** internal.rs:432-436 *)
Definition needs_more_fi (c : config) (s : st) : bool :=
  (zlen (rdo_frames c s) <? cf_rdo_la c + 1) && needs_more_frames s (s_next_la s).

(** next_keyframe_input_frameno with ignore_limit = false (internal.rs:456-473) *)
Definition next_kf (c : config) (s : st) (gs : Z) : Z :=
  let next_limit := gs + cf_max_kf c in
  let next_limit := match s_limit s with Some l => Z.min next_limit l | None => next_limit end in
  match find (fun k => gs <? k) (s_keyframes s) with
  | None => next_limit
  | Some k => Z.min k next_limit
  end.

(** get_previous_fi / get_previous_coded_fi (internal.rs:639-659) *)
Definition previous_fi (s : st) (o : Z) : option fdata :=
  match rfind_entry (fun kd => match snd kd with Some _ => true | None => false end)
          (below_key o (s_data s)) with
  | Some (_, Some d) => Some d
  | _ => None
  end.
Definition previous_coded_fi (s : st) (o : Z) : option fdata :=
  match rfind_entry (fun kd => match snd kd with Some d => negb (fi_sef (fd_fi d)) | None => false end)
          (below_key o (s_data s)) with
  | Some (_, Some d) => Some d
  | _ => None
  end.

(** Result of build_frame_properties: Err(NeedMoreData) or Ok(fi). *)
Inductive built := BErr | BOk (d : option fdata).

Definition has_frame (s : st) (n : Z) : bool :=
  match get n (s_frame_q s) with Some true => true | _ => false end.

(** The tail of build_frame_properties (internal.rs:588-637): the frame exists
    and its number is known. *)
Definition build_tail (c : config) (s : st) (o input : Z) (t35 : list Z) : option (st * built) :=
  if negb (has_frame s input) then Some (s, BErr) else
  let s := if sin input (s_keyframes s)
           then set_gops (put o o (s_gop_out s)) (put o input (s_gop_in s)) s else s in
  match get o (s_gop_out s), get o (s_gop_in s) with
  | Some go, Some gs =>
      let j := o - go in
      if j =? 0 then Some (s, BOk (Some (new_key_frame gs t35)))
      else
        match previous_coded_fi s o with
        | None => None
        | Some prev =>
            match new_inter_frame c prev gs j (next_kf c s gs) t35 with
            | None => None                                  (* assert!(fi.is_some()) *)
            | Some d => Some (s, BOk (Some d))
            end
        end
  | _, _ => None
  end.

(** build_frame_properties (internal.rs:510-637) *)
Definition build (c : config) (s : st) (o : Z) : option (st * built) :=
  match (if o =? 0 then Some (0, 0)
         else match get (o - 1) (s_gop_out s), get (o - 1) (s_gop_in s) with
              | Some a, Some b => Some (a, b)
              | _, _ => None
              end) with
  | None => None
  | Some (go, gs) =>
      let s := set_gops (put o go (s_gop_out s)) (put o gs (s_gop_in s)) s in
      let j := o - go in
      let input := get_input c j gs in
      if needs_more_q c s input then Some (s, BErr) else
      let t35 := match get input (s_t35 s) with Some t => t | None => [] end in
      let s := set_t35 (del input (s_t35 s)) s in
      if 0 <? j then
        let nk := next_kf c s gs in
        match previous_fi s o with
        | None => None
        | Some prev =>
            if nk <=? input then
              if negb (ic_reorder c)
                 || (((j - 1) mod ic_out_len c =? 0) && (fi_input (fd_fi prev) =? nk - 1))
              then
                if negb (has_frame s nk) then Some (s, BErr)
                else build_tail c (set_gops (put o o (s_gop_out s)) (put o nk (s_gop_in s)) s) o nk t35
              else
                match previous_coded_fi s o with
                | None => None
                | Some prevc =>
                    match new_inter_frame c prevc gs j nk t35 with
                    | None => Some (s, BOk None)
                    | Some _ => None                        (* assert!(fi.is_none()) *)
                    end
                end
            else build_tail c s o input t35
        end
      else build_tail c s o input t35
  end.

(** set_frame_properties (internal.rs:475-495) *)
Definition set_frame_properties (c : config) (s : st) (o : Z) : option (st * bool) :=
  match build c s o with
  | None => None
  | Some (s, BErr) => Some (s, false)
  | Some (s, BOk None) => Some (set_data (put o None (s_data s)) s, true)
  | Some (s, BOk (Some d)) =>
      if has_frame s (fi_input (fd_fi d))
      then Some (set_data (put o (Some d) (s_data s)) s, true) else None
  end.

(** The assertion at the start of guess_frame_subtypes (internal.rs:1593-1616),
    which rate control may call whenever it selects a quantizer. *)
Definition guess_ok (s : st) : bool :=
  (s_out s =? 0) ||
  match get (s_out s) (s_gop_in s), get (s_out s) (s_gop_out s) with
  | Some _, Some _ => true
  | _, _ => false
  end.

(** compute_lookahead_motion_vectors (internal.rs:670-834): only the reference
    buffers. *)
Definition lookahead_mvs (c : config) (s : st) (o : Z) : option st :=
  match get o (s_data s) with
  | None => None
  | Some None => Some s
  | Some (Some d) =>
      if fi_sef (fd_fi d) then Some s else
      if negb (guess_ok s) then None else
      let fi := fd_fi d in
      let r := RefFrame (fi_hint fi) o (Source (fi_input fi)) in
      let rec := if s_out s =? o then fd_rec d else fd_la d in
      Some (set_data (put o (Some (FData fi rec (refresh (fi_refresh fi) r (fd_la d)) (fd_bias d) (fd_out d)))
                        (s_data s)) s)
  end.

(** compute_lookahead_intra_costs (internal.rs:838-876): the frame must be in
    the queue (the cached case, which does not look, is subsumed). *)
Definition intra_costs_ok (s : st) (o : Z) : bool :=
  match get o (s_data s) with
  | Some (Some d) => fi_sef (fd_fi d) || has_frame s (fi_input (fd_fi d))
  | Some None => true
  | None => false
  end.

(** compute_frame_invariants (internal.rs:899-908).  [None] also when the fuel
    runs out. *)
Fixpoint compute_invariants (fuel : nat) (c : config) (s : st) : option st :=
  match fuel with
  | O => None
  | S fuel =>
      match set_frame_properties c s (s_next_la_out s) with
      | None => None
      | Some (s, false) => Some s
      | Some (s, true) =>
          match lookahead_mvs c s (s_next_la_out s) with
          | None => None
          | Some s =>
              if cf_temporal_rdo c && negb (intra_costs_ok s (s_next_la_out s)) then None
              else compute_invariants fuel c (set_la_out (s_next_la_out s + 1) s)
          end
      end
  end.

(** compute_keyframe_placement (internal.rs:880-896) *)
Definition keyframe_placement (scene : Z -> bool) (s : st) : st :=
  let n := s_next_la s in
  set_la (if sin n (s_forced s) || scene n then sput n (s_keyframes s) else s_keyframes s) (n + 1) s.

(** The loop over successors of the lookahead slice while flushing
    (internal.rs:387-405): it runs once per element while at least two remain. *)
Fixpoint placement_all (n : nat) (scene : Z -> bool) (s : st) : st :=
  match n with
  | S (S _ as k) => placement_all k scene (keyframe_placement scene s)
  | _ => s
  end.

(** FrameParameters: key-frame override, opaque data, T.35 payloads *)
Record params := Params { pr_key : bool; pr_opaque : option Z; pr_t35 : list Z }.

(** Fuel for [compute_invariants]; [compute_invariants_total] shows it is never
    exhausted. *)
Definition ci_fuel (s : st) : nat := Z.to_nat (8 * s_frame_count s + 16).

(** ContextInner::send_frame (internal.rs:338-419).  [frame] false is None
    (flush).  The padding probe is not modelled. *)
Definition inner_send (scene : Z -> bool) (c : config) (s : st) (frame : bool) (p : option params) : option st :=
  let n := s_frame_count s in
  let s := set_input (if frame then n + 1 else n) (put n frame (s_frame_q s))
             (match p with Some p => if pr_key p then sput n (s_forced s) else s_forced s | None => s_forced s end)
             (match p with Some (Params _ (Some op) _) => put n op (s_opaque s) | _ => s_opaque s end)
             (match p with Some p => put n (pr_t35 p) (s_t35 s) | None => s_t35 s end) s in
  let s :=
    if negb (needs_more_q c s (s_next_la s)) then
      let frames := filter (fun kb => snd kb) (from_key (s_next_la s - 1) (s_frame_q s)) in
      if negb frame then placement_all (length frames) scene s
      else keyframe_placement scene s
    else s in
  compute_invariants (ci_fuel s) c s.

(** EncoderStatus *)
Inductive status := EnoughData | NeedMoreData | LimitReached | Encoded | NotReady.
Inductive result := RSent | RPacket (p : packet) | RStatus (e : status).

(** Context::send_frame (context.rs:108-143); i32::MAX - 1 = 2147483646 *)
Definition send_frame (scene : Z -> bool) (c : config) (s : st) (p : option params) : option (st * result) :=
  if s_flushing s || (cf_still c && (0 <? s_frame_count s)) then Some (s, RStatus EnoughData)
  else
    let s := if s_frame_count s =? 2147483646 then set_limit (Some (s_frame_count s)) s else s in
    match inner_send scene c s true p with Some s => Some (s, RSent) | None => None end.
(** Context::flush (context.rs:323-327) *)
Definition flush (scene : Z -> bool) (c : config) (s : st) : option (st * result) :=
  if s_flushing s then Some (s, RSent)
  else
    match inner_send scene c (set_limit (Some (s_frame_count s)) s) false None with
    | Some s => Some (s, RSent) | None => None end.

(** ** receive_packet *)

(** Unique reference slots in order of first use (internal.rs:1150-1157) *)
Fixpoint uniq (seen l : list Z) : list Z :=
  match l with
  | [] => []
  | x :: r => if sin x seen then uniq seen r else x :: uniq (x :: seen) r
  end.
(** compute_block_importances (internal.rs:1075-1200): the panics. *)
Definition importance_ok (s : st) (od : Z * fdata) : bool :=
  let '(o, d) := od in
  is_key (fi_type (fd_fi d)) ||
  (has_frame s (fi_input (fd_fi d)) &&
   (length (uniq [] (fi_refs (fd_fi d))) <=? 3)%nat &&
   forallb (fun r =>
     match slot (fd_rec d) r with
     | None => false
     | Some f =>
         negb (rf_out f =? o) &&
         match get (rf_out f) (s_data s) with
         | None => true
         | Some None => false
         | Some (Some d') => negb (fi_sef (fd_fi d'))
         end
     end) (uniq [] (fi_refs (fd_fi d)))).
Definition block_importances_ok (c : config) (s : st) : bool :=
  match get (s_out s) (s_data s) with
  | Some (Some d) =>
      fi_sef (fd_fi d) ||
      match rdo_frames c s with
      | [] => false
      | (o, _) :: rest => (o =? s_out s) && forallb (importance_ok s) rest
      end
  | _ => false
  end.

(** finalize_packet (internal.rs:1539-1561) *)
Definition finalize (s : st) (d : fdata) : st * packet :=
  let fi := fd_fi d in
  let pkt := Packet (s_packet_data s) (if fi_show fi then fd_out d else None) (fi_input fi) (fi_input fi)
               (fi_type fi) None in
  (set_processed (s_processed s + 1) (set_packet [OTemporalDelimiter] s), pkt).

(** encode_show_existing_packet (internal.rs:1299-1332) with
    encode_show_existing_frame (encoder.rs:3693-3751) *)
Definition encode_sef (c : config) (s : st) (cur : Z) (d : fdata) : st * packet :=
  let fi := fd_fi d in
  let data := (if is_key (fi_type fi) then [OSequence] else []) ++ map OT35 (fi_t35 fi)
              ++ [OFrameHeader (header_of c d)] in
  let d := FData fi (fd_rec d) (fd_la d) (fd_bias d)
             (match slot (fd_rec d) (fi_map_idx fi) with Some r => Some (rf_pic r) | None => fd_out d end) in
  let s := set_data (put cur (Some d) (s_data s)) s in
  let s := set_packet (s_packet_data s ++ data) s in
  finalize (set_out (s_out s + 1) s) d.

(** Copying the reference buffer into the next frames (internal.rs:1450-1474) *)
Fixpoint propagate (c : config) (rec : slots) (m : smap (option fdata)) : smap (option fdata) :=
  match m with
  | [] => []
  | (k, None) :: r => (k, None) :: propagate c rec r
  | (k, Some d) :: r =>
      if is_key (fi_type (fd_fi d)) then m
      else
        let d' := FData (fd_fi d) rec (fd_la d) (sign_bias c rec (fi_refs (fd_fi d)) (fi_hint (fd_fi d)))
                        (fd_out d) in
        (k, Some d') :: (if fi_sef (fd_fi d) then propagate c rec r else r)
  end.

(** encode_normal_packet (internal.rs:1335-1495) with encode_frame
    (encoder.rs:3771-3820) and update_rec_buffer (encoder.rs:3822-3844). *)
Definition encode_normal (c : config) (s : st) (cur : Z) (d : fdata) : st * option packet :=
  let fi := fd_fi d in
  let pay := Payload (fi_input fi) cur
               (if is_key (fi_type fi) then []
                else map (fun r => match slot (fd_rec d) r with Some f => Some (rf_pic f) | None => None end)
                         (fi_refs fi))
               (if is_key (fi_type fi) then [] else fd_bias d) (fd_rec d) in
  let data := (if is_key (fi_type fi) then [OSequence] else []) ++ map OT35 (fi_t35 fi)
              ++ [OFrame (header_of c d) pay] in
  let s := set_packet (s_packet_data s ++ data) s in
  let rpic := Recon (fi_input fi) cur in
  let rec := refresh (fi_refresh fi) (RefFrame (fi_hint fi) cur rpic) (fd_rec d) in
  let d := FData fi rec (fd_la d) (fd_bias d) (Some rpic) in
  let m := s_data s in
  let m := below_key cur m ++ (cur, Some d) :: propagate c rec (from_key (cur + 1) m) in
  let s := set_data m s in
  let s := set_out (s_out s + 1) s in
  if fi_show fi then let '(s, p) := finalize s d in (s, Some p) else (s, None).

(** garbage_collect (internal.rs:1564-1580) *)
Definition garbage_collect (s : st) (input : Z) : st :=
  if input =? 0 then s else
  let start := match first_key (s_frame_q s) with Some k => k | None => 0 end in
  let s := set_frame_q (del_range start input (s_frame_q s)) s in
  if s_out s <? 2 then s else
  let start := match first_key (s_data s) with Some k => k | None => 0 end in
  let s := set_data (del_range start (s_out s - 1) (s_data s)) s in
  set_gops (del_range start (s_out s - 1) (s_gop_out s)) (del_range start (s_out s - 1) (s_gop_in s)) s.

(** The end of receive_packet (internal.rs:1530-1534) *)
Definition deliver (s : st) (p : packet) : st * result :=
  let s := garbage_collect s (p_input p) in
  let p := Packet (p_data p) (p_rec p) (p_source p) (p_input p) (p_type p) (get (p_input p) (s_opaque s)) in
  (set_opaque (del (p_input p) (s_opaque s)) s, RPacket p).

(** receive_packet (internal.rs:1498-1537), encode_packet (1261-1296).
    [ready] is rc_state.ready(). *)
Definition receive_packet (c : config) (s : st) (ready : bool) : option (st * result) :=
  if match s_limit s with Some l => s_processed s =? l | None => false end
  then Some (s, RStatus LimitReached) else
  if needs_more_fi c s then Some (s, RStatus NeedMoreData) else
  match find_entry (fun kd => match snd kd with Some _ => true | None => false end)
          (from_key (s_out s) (s_data s)) with
  | Some (o, Some d) =>
      let s := set_out o s in
      if negb (needs_more_frames s (fi_input (fd_fi d))) then Some (s, RStatus LimitReached) else
      if cf_temporal_rdo c && negb (block_importances_ok c s) then None else
      if fi_sef (fd_fi d) then
        if negb ready then Some (s, RStatus NotReady)
        else let '(s, p) := encode_sef c s o d in Some (deliver s p)
      else if has_frame s (fi_input (fd_fi d)) then
        if negb ready then Some (s, RStatus NotReady)
        else if negb (guess_ok s) then None
        else match encode_normal c s o d with
             | (s, Some p) => Some (deliver s p)
             | (s, None) => Some (s, RStatus Encoded)
             end
      else Some (s, RStatus NeedMoreData)
  | _ => Some (s, RStatus NeedMoreData)
  end.

(** ** Histories of API calls *)
Inductive call := Send (p : option params) | Flush | Receive (ready : bool).
Definition do_call (scene : Z -> bool) (c : config) (s : st) (k : call) : option (st * result) :=
  match k with
  | Send p => send_frame scene c s p
  | Flush => flush scene c s
  | Receive r => receive_packet c s r
  end.
Fixpoint run (scene : Z -> bool) (c : config) (s : st) (l : list call) : option (st * list result) :=
  match l with
  | [] => Some (s, [])
  | k :: r =>
      match do_call scene c s k with
      | None => None
      | Some (s, x) =>
          match run scene c s r with
          | None => None
          | Some (s, xs) => Some (s, x :: xs)
          end
      end
  end.
