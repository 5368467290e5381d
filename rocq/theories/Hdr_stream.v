(** The frame headers of a whole stream: every header of every history of calls
    is read back by a decoder that keeps its own buffers. *)
From Verif Require Import Base SMap Bits Tile_model Tile_spec Config_model Lrf_model Lrf_spec Sched_model Sched_plan Sched_inv Sched_shape Sched_step Sched_recv Sched_spec Sched_run Sched_dec Hdr_model Hdr_spec Hdr_proof Hdr_frame Hdr_whole.

(** ** The frame parameters behind a header record *)
Definition finfo_of (h : header) : finfo :=
  FInfo 0 (h_hint h) (h_show h) (h_type h) 0 0 (h_map_idx h) (h_refresh h) (h_refs h) (h_sef h) [] (h_error_res h) (h_primary h) (h_select h).

Lemma search_mod c s cur refs : forall fwd bwd, skip_search (rbuf_of c s) (cur mod 64) refs fwd bwd = skip_search (rbuf_of c s) cur refs fwd bwd.
Proof.
  induction refs as [|r refs IH]; intros fwd bwd; [reflexivity|]. cbn [skip_search]. destruct (rslot_at _ r) as [x|]; [|apply IH].
  rewrite !dist_spec, Z.mod_mod by lia. rewrite !IH. reflexivity.
Qed.

Fixpoint size_refs_gen (e : wres) (w h rw rh : Z) (sr : bool) (b : rbuf) (refs : list Z) : wres :=
  match refs with
  | [] => e
  | r :: refs =>
      match rslot_at b r with
      | Some x =>
          if (rs_w x =? w) && (rs_h x =? h) && (rs_rw x =? rw) && (rs_rh x =? rh)
          then w_bit true >>> w_assert (negb sr)
          else w_bit false >>> size_refs_gen e w h rw rh sr b refs
      | None => w_bit false >>> size_refs_gen e w h rw rh sr b refs
      end
  end.
Lemma size_refs_eq s f b refs : w_size_refs s f b refs =
  size_refs_gen (w_frame_size s f >>> w_render_size f) (f_w f) (f_h f) (f_rw f) (f_rh f) (sq_superres s) b refs.
Proof. induction refs as [|r refs IH]; [reflexivity|]. cbn [w_size_refs size_refs_gen]. rewrite IH. reflexivity. Qed.

(** The header record determines the bits: the parts of the frame parameters
    that the record leaves out are not written. *)
Theorem same_bits cc c t sbw sbh d k s :
  w_frame_header cc (sequence_of c) t sbw sbh (frame_of c (fd_fi d) k) (rbuf_of c s) =
  w_frame_header cc (sequence_of c) t sbw sbh (frame_of c (finfo_of (header_of cc d)) k) (rbuf_of c s).
Proof.
  unfold header_of. destruct (fi_sef (fd_fi d)) eqn:Es.
  - unfold w_frame_header. cbv zeta. change (f_sef (frame_of c (fd_fi d) k)) with (fi_sef (fd_fi d)). rewrite Es. reflexivity.
  - destruct (fd_fi d) as [inp hint show ty lvl idx mp rfr refs sef t35 er pr sel]. cbn [fi_sef] in Es. subst sef.
    unfold w_frame_header, finfo_of, frame_of, skip_mode_allowed. cbv zeta.
    cbn [f_sef f_map_idx f_type f_show f_showable f_error_res f_intra_only f_disable_cdf f_sct f_imv f_override f_hint f_primary f_refresh f_refs f_w f_h f_rw f_rh
      f_render_diff f_intrabc f_hp f_switchable f_filter f_motion f_use_refmvs f_disable_end f_tx_select f_select f_reduced_tx f_seg_on f_k
      fi_input fi_hint fi_show fi_type fi_map_idx fi_refresh fi_refs fi_sef fi_error_res fi_primary fi_select
      h_sef h_map_idx h_type h_show h_error_res h_hint h_primary h_refresh h_ref_hints h_refs h_select].
    change (2 ^ (sq_ohb1 (sequence_of c) + 1)) with 64. rewrite Z.mod_mod by lia. rewrite search_mod.
    destruct (is_key ty) eqn:Ek; cbn [orb negb w_if]; [|rewrite !size_refs_eq; reflexivity].
    destruct (sq_reduced (sequence_of c)); reflexivity.
Qed.

(** ** The frames of a stream *)
Definition obu_fine (cc : config) (o : obu) : Prop :=
  match o with
  | OFrame h p => fi_ok cc (finfo_of h) /\ length (pl_slots p) = 8%nat /\ (h_type h = KEY -> h_hint h = 0)
  | OFrameHeader h => cf_still cc = false
  | _ => True
  end.

Section PLAN.
Variable c : config.
Variable scene : Z -> bool.
Variable ps : list (option params).
Hypothesis Hc : legal c.
Hypothesis Hfit : fits ps.
Hypothesis Hstill : cf_still c = true -> zlen ps <= 1.
Notation L := (zlen ps).
Notation iskey := (keyf scene ps).
Notation pos := (Sched_plan.pos c iskey L).
Notation nkf := (Sched_plan.nkf c iskey L).
Notation entry := (Sched_plan.entry c iskey L (t35f ps)).
Notation frame_obus := (Sched_plan.frame_obus c iskey L (t35f ps)).
Notation pending := (Sched_plan.pending c iskey L (t35f ps)).
Notation packets := (Sched_plan.packets c iskey L (t35f ps) (opqf ps)).

Lemma pow_slot n : 0 <= n < 8 -> 0 <= 2 ^ n < 256.
Proof. intros H. split; [apply Z.pow_nonneg; lia|]. change 256 with (2 ^ 8). apply Z.pow_lt_mono_r; lia. Qed.
Lemma shape_ranges gs j t : 1 <= j -> let fi := shape c gs j t in
  0 <= fi_refresh fi < 256 /\ (fi_select fi = true -> ic_reorder c = true).
Proof.
  intros Hj. cbv zeta. unfold shape. assert (M : forall x, 0 <= x mod 4 < 8) by (intros x; dlia).
  destruct (ic_reorder c) eqn:Er.
  - split; [|reflexivity]. destruct (ridx c j) as [|[[p|[p|p|]|]|[p|[p|p|]|]|]|p]; cbn [fi_refresh]; try lia; apply pow_slot; first [apply M|lia].
  - cbn [fi_refresh fi_select]. split; [|discriminate]. destruct (switch_at c j); [lia|]. apply pow_slot, M.
Qed.

Lemma entry_fine i fi : snd (pos i) < L -> entry i = Some fi -> Forall (obu_fine c) (frame_obus i fi).
Proof.
  intros HL Ee. unfold Sched_plan.frame_obus. cbv zeta. apply Forall_app. split; [destruct (is_key _); repeat constructor|].
  apply Forall_app. split; [apply Forall_forall; intros x Hx; apply in_map_iff in Hx; destruct Hx as (y & <- & _); exact Coq.Init.Logic.I|].
  constructor; [|constructor]. destruct (is_key (fi_type fi)) eqn:Ek.
  - pose proof (entry_key c scene ps i fi Ee Ek) as (Ei & _).
    unfold Sched_plan.entry, entry_at in Ee. destruct (Z.eqb_spec (Z.of_nat i - fst (pos i)) 0) as [_|E]; [|lia]. injection Ee as <-.
    cbn -[no_slots]. split; [|split; [reflexivity|reflexivity]].
    constructor; cbn; unfold PRIMARY_REF_NONE; try lia; try discriminate; try congruence; repeat split.
  - pose proof (pos_facts c iskey L i) as (Hgo & Hgs & HP). destruct (HP HL) as (Hg & _ & Hrm).
    destruct (entry_shape c scene ps Hc (Hps _ Hfit) i fi HL Ee Ek) as [Hj Esh]. specialize (Hrm Hj).
    destruct (nkf_spec c iskey L (snd (pos i)) ltac:(lia) Hg) as [Hnk _].
    assert (St : cf_still c = false). { destruct (cf_still c); [|reflexivity]. specialize (Hstill eq_refl). exfalso.
      assert (HIg := ILg c iskey (Z.of_nat i - fst (pos i)) Hj). clear - Hstill Hgs HL Hnk Hrm HIg.
      lia. }
    destruct (shape_refs c (snd (pos i)) (Z.of_nat i - fst (pos i)) (Sched_plan.ts c iskey L (t35f ps) i) Hj) as (Hrf & _ & Hl7 & Hmap & _). rewrite <- Esh in Hrf, Hl7, Hmap.
    destruct (shape_primary c (snd (pos i)) (Z.of_nat i - fst (pos i)) (Sched_plan.ts c iskey L (t35f ps) i)) as (Hsw & Her & Hpr). rewrite <- Esh in Hsw, Her, Hpr.
    destruct (shape_ranges (snd (pos i)) (Z.of_nat i - fst (pos i)) (Sched_plan.ts c iskey L (t35f ps) i) Hj) as (Hre & Hse). rewrite <- Esh in Hre, Hse.
    assert (N : fi_type fi <> KEY) by (intros E; rewrite E in Ek; discriminate).
    unfold header_of. cbn [fd_fi]. destruct (fi_sef fi); [exact St|].
    rewrite Ek. cbn [obu_fine pl_slots h_type]. split; [|split; [apply dpb_length|intros E; contradiction]].
    constructor; cbn [finfo_of fi_hint fi_refresh fi_primary fi_map_idx fi_type fi_show fi_error_res fi_select fi_sef fi_refs h_hint h_show h_type h_map_idx h_refresh h_refs h_sef h_error_res h_primary h_select].
    + apply Z.mod_pos_bound. lia.
    + exact Hre.
    + clear - Hpr. lia.
    + lia.
    + intros E. contradiction.
    + intros _. auto.
    + intros E. rewrite E in Her. cbn in Her. apply Z.eqb_eq. exact Her.
    + intros E. rewrite E in Hsw. rewrite !andb_true_iff in Hsw. destruct Hsw as ((_ & H1) & H2). split; [exact H2|apply Z.eqb_eq; exact H1].
    + exact Hse.
Qed.

Lemma plan_fine : forall e, valid c scene ps e -> Forall (obu_fine c) (pending e) /\ Forall (fun p => Forall (obu_fine c) (p_data p)) (packets e).
Proof.
  induction e as [|e IH]; intros Hv; [split; repeat constructor|]. destruct (IH (valid_S c scene ps _ Hv)) as (H1 & H2).
  cbn [Sched_plan.pending Sched_plan.packets]. destruct (entry e) as [fi|] eqn:Ee; [|rewrite app_nil_r; auto].
  pose proof (entry_fine e fi (Hv e ltac:(lia)) Ee) as H3. destruct (fi_show fi).
  - split; [repeat constructor|]. apply Forall_app. split; [exact H2|]. constructor; [|constructor]. cbn [p_data Sched_plan.packet_of]. apply Forall_app. auto.
  - rewrite app_nil_r. split; [apply Forall_app; auto|exact H2].
Qed.
End PLAN.

(** ** Coding decisions along the stream *)
(** [get_initial_segmentation] (encoder.rs:3749-3762): a frame with a primary
    reference frame takes over the segmentation kept with it
    (encoder.rs:3837); [K n] is everything else decided for the n-th header. *)
Definition inherit (segs : list seg_data) (h : header) (k : coding) : coding :=
  if h_primary h =? 7 then k else
  Coding (k_ctx_id k) (k_tsb k) (k_q k) (k_dc k) (k_ac k)
    (nth (Z.to_nat (nth (Z.to_nat (h_primary h)) (h_refs h) 0)) segs [])
    (k_levels k) (k_sharp k) (k_damping k) (k_cdef_bits k) (k_cdef_y k) (k_cdef_uv k) (k_lr_types k) (k_lr_y k) (k_lr_uv k) (k_grain k).
Fixpoint keep_seg (i flags : Z) (x : seg_data) (l : list seg_data) : list seg_data :=
  match l with
  | [] => []
  | y :: r => (if Z.testbit flags i then x else y) :: keep_seg (i + 1) flags x r
  end.
Fixpoint coded_headers (K : nat -> coding) (n : nat) (segs : list seg_data) (l : list obu) : list (obu * coding) :=
  match l with
  | [] => []
  | OFrame h p :: r =>
      let k := inherit segs h (K n) in
      (OFrame h p, k) :: coded_headers K (S n) (keep_seg 0 (h_refresh h) (k_seg k) segs) r
  | OFrameHeader h :: r => (OFrameHeader h, K n) :: coded_headers K (S n) segs r
  | _ :: r => coded_headers K n segs r
  end.

Lemma nth_keep f x : forall l k q, (q < length l)%nat -> nth q (keep_seg k f x l) [] = if Z.testbit f (k + Z.of_nat q) then x else nth q l [].
Proof.
  induction l as [|y l IH]; intros k q Hq; cbn [length] in Hq; [lia|]. cbn [keep_seg]. destruct q as [|q].
  - cbn [nth]. rewrite Z.add_0_r. reflexivity.
  - cbn [nth]. rewrite IH by lia. replace (k + 1 + Z.of_nat q) with (k + Z.of_nat (S q)) by lia. reflexivity.
Qed.
Lemma keep_length f x : forall l k, length (keep_seg k f x l) = length l.
Proof. induction l as [|y l IH]; intros k; cbn; [reflexivity|]. rewrite IH. reflexivity. Qed.
Lemma nth_s_refresh f x : forall l k q, (q < length l)%nat -> nth q (s_refresh k f x l) None = if Z.testbit f (k + Z.of_nat q) then Some x else nth q l None.
Proof.
  induction l as [|y l IH]; intros k q Hq; cbn [length] in Hq; [lia|]. cbn [s_refresh]. destruct q as [|q].
  - cbn [nth]. rewrite Z.add_0_r. reflexivity.
  - cbn [nth]. rewrite IH by lia. replace (k + 1 + Z.of_nat q) with (k + Z.of_nat (S q)) by lia. reflexivity.
Qed.
Lemma s_refresh_length f x : forall l k, length (s_refresh k f x l) = length l.
Proof. induction l as [|y l IH]; intros k; cbn; [reflexivity|]. rewrite IH. reflexivity. Qed.
Lemma list_eqb_at {A B} (f : A -> B -> bool) (a : A) (b : B) : forall l m, list_eqb f l m = true -> length l = length m /\
  (forall n, (n < length l)%nat -> f (nth n l a) (nth n m b) = true).
Proof.
  induction l as [|x l IH]; intros [|y m] H; try discriminate; [split; [reflexivity|cbn; lia]|]. cbn [list_eqb] in H. apply andb_true_iff in H.
  destruct H as (H1 & H2). destruct (IH m H2) as (E & F). split; [cbn; congruence|]. intros [|n] Hn; [exact H1|]. apply F. cbn in Hn. lia.
Qed.
Lemma all_some_in {A B} (f : A -> option B) : forall l r, all_some (map f l) = Some r -> forall x, In x l -> f x <> None.
Proof.
  induction l as [|y l IH]; intros r H x Hx; [contradiction|]. cbn [map all_some] in H. destruct (f y) eqn:E; [|discriminate].
  destruct (all_some (map f l)) eqn:E2; [|discriminate]. destruct Hx as [<-|Hx]; [congruence|exact (IH _ eq_refl x Hx)].
Qed.
Lemma Forall2_nth {A B} (R : A -> B -> Prop) a b : forall l m, length l = length m -> (forall n, (n < length l)%nat -> R (nth n l a) (nth n m b)) -> Forall2 R l m.
Proof.
  induction l as [|x l IH]; intros [|y m] HL H; try discriminate; [constructor|]. constructor; [exact (H 0%nat ltac:(cbn; lia))|].
  apply IH; [cbn in HL; lia|]. intros n Hn. exact (H (S n) ltac:(cbn; lia)).
Qed.

Section STREAM.
Variable cc : config.
Variable c : hconfig.
Variable t : tiling.
Variables sbw sbh : Z.
Variable TI : coding -> tile_info.
Variable kok : coding -> Prop.
Hypothesis O : hc_ok c.
Hypothesis St : cf_still cc = vc_still (hc_v c).
Hypothesis Hti : forall k, kok k -> coding_ok c k /\
  round_trips (w_tile_info t sbw sbh (k_ctx_id k) (k_tsb k)) (p_tile_info (vc_width (hc_v c)) (vc_height (hc_v c))) (TI k).

Definition w_one (x : obu * coding) : wres :=
  match x with
  | (OFrame h p, k) => w_frame_header cc (sequence_of c) t sbw sbh (frame_of c (finfo_of h) k) (rbuf_of c (pl_slots p))
  | (OFrameHeader h, k) => w_frame_header cc (sequence_of c) t sbw sbh (frame_of c (finfo_of h) k) (rbuf_of c no_slots)
  | _ => None
  end.
Definition expect_one (x : obu * coding) : s_header :=
  match x with
  | (OFrame h p, k) => SCoded (view_frame c (finfo_of h) k (pl_slots p) (TI k))
  | (OFrameHeader h, _) => SExisting (h_map_idx h)
  | _ => SExisting 0
  end.

Definition SR (e : option dslot) (x : option s_slot) (sg : seg_data) : Prop :=
  match e, x with
  | Some e, Some x => sl_hint x = ds_hint e /\ (sl_w x = vc_width (hc_v c) /\ sl_h x = vc_height (hc_v c) /\
      sl_rw x = vc_render_w (hc_v c) /\ sl_rh x = vc_render_h (hc_v c)) /\ (hc_seg c = true -> sl_seg x = view_seg sg) /\
      (ds_showable e = true -> sl_type x <> 0)
  | None, None => True
  | _, _ => False
  end.
Definition Rel (ds : list (option dslot)) (d : s_dpb) (segs : list seg_data) : Prop :=
  length ds = 8%nat /\ length d = 8%nat /\ length segs = 8%nat /\ forall n, (n < 8)%nat -> SR (nth n ds None) (nth n d None) (nth n segs []).

Lemma rel_refresh ds d segs f e x sg : Rel ds d segs -> SR (Some e) (Some x) sg ->
  Rel (update 0 f e ds) (s_refresh 0 f x d) (keep_seg 0 f sg segs).
Proof.
  intros (L1 & L2 & L3 & H) S1. split; [rewrite update_length; exact L1|]. split; [rewrite s_refresh_length; exact L2|]. split; [rewrite keep_length; exact L3|].
  intros n Hn. rewrite nth_update, nth_s_refresh, nth_keep by lia. destruct (Z.testbit f (0 + Z.of_nat n)); [exact S1|exact (H n Hn)].
Qed.

Lemma one_frame ds d segs h p K ds' ev : dec_obu (cf_still cc) ds (OFrame h p) = Some (ds', ev) -> obu_fine cc (OFrame h p) ->
  Rel (d_slots ds) d segs -> let k := inherit segs h K in kok k ->
  round_trips (w_one (OFrame h p, k)) (s_uncompressed_header (view_seq c) d) (expect_one (OFrame h p, k)) /\
  Rel (d_slots ds') (s_refresh 0 (h_refresh h) (s_saved (view_frame c (finfo_of h) k (pl_slots p) (TI k))) d) (keep_seg 0 (h_refresh h) (k_seg k) segs).
Proof.
  intros E (Fi & L8 & Hk0) R k Hk. destruct (Hti k Hk) as (Co & Ti). cbn [w_one expect_one].
  assert (SV : forall w cv pc, (h_type h = KEY -> w = false) -> h_hint h mod 64 = h_hint h -> SR (Some (DSlot (h_hint h) pc w cv)) (Some (s_saved (view_frame c (finfo_of h) k (pl_slots p) (TI k)))) (k_seg k)).
  { intros w cv pc Hw Hm. cbn [SR s_saved view_frame sf_start sf_inter sf_seg view_start view_inter st_hint si_size si_render fst snd sl_hint sl_w sl_h sl_rw sl_rh sl_seg sl_type ds_hint ds_showable st_type finfo_of fi_hint fi_type].
    repeat split.
    - destruct (vc_still (hc_v c)) eqn:Ev; [|exact Hm]. symmetry. apply Hk0. assert (D : h_type h = KEY \/ h_type h <> KEY) by (destruct (h_type h); [left; reflexivity|right; discriminate|right; discriminate]). destruct D as [X|X]; [exact X|].
      destruct (fo_inter _ _ Fi X) as (X2 & _). congruence.
    - intros Hs. unfold view_segmentation. rewrite Hs. reflexivity.
    - intros Hsh. destruct (h_type h); [discriminate (eq_trans (eq_sym Hsh) (Hw eq_refl))|discriminate|discriminate]. }
  assert (Esf : h_sef h = false) by (unfold dec_obu in E; destruct (h_sef h); [discriminate|reflexivity]).
  assert (IN : h_type h <> KEY -> forall refs w cv pc, list_eqb same_slot (pl_slots p) (d_slots ds) = true ->
     all_some (map (fun r => nth (Z.to_nat r) (d_slots ds) None) (h_refs h)) = Some refs -> (0 <=? h_hint h) = true -> (h_hint h <? 64) = true ->
     round_trips (w_frame_header cc (sequence_of c) t sbw sbh (frame_of c (finfo_of h) k) (rbuf_of c (pl_slots p))) (s_uncompressed_header (view_seq c) d)
       (SCoded (view_frame c (finfo_of h) k (pl_slots p) (TI k))) /\
     Rel (update 0 (h_refresh h) (DSlot (h_hint h) pc w cv) (d_slots ds))
       (s_refresh 0 (h_refresh h) (s_saved (view_frame c (finfo_of h) k (pl_slots p) (TI k))) d) (keep_seg 0 (h_refresh h) (k_seg k) segs)).
  { intros N refs w cv pc Hsl Hall Hh1 Hh2. apply Z.leb_le in Hh1. apply Z.ltb_lt in Hh2.
    assert (Hm : h_hint h mod 64 = h_hint h) by (apply Z.mod_small; lia).
    destruct (fo_inter _ _ Fi N) as (_ & L7 & F8). cbn [finfo_of fi_refs] in L7, F8.
    destruct (list_eqb_at same_slot None None _ _ Hsl) as (Ls & Hs). rewrite L8 in Hs.
    destruct R as (R1 & R2 & R3 & R4).
    assert (Lv : forall r, In r (h_refs h) -> slot (pl_slots p) r <> None /\ s_at d r <> None /\ (hc_seg c = true -> forall x, s_at d r = Some x -> sl_seg x = view_seg (nth (Z.to_nat r) segs []))).
    { intros r Hr. rewrite Forall_forall in F8. specialize (F8 r Hr). pose proof (all_some_in _ _ _ Hall r Hr) as Hn. cbv beta in Hn.
      specialize (Hs (Z.to_nat r) ltac:(lia)). specialize (R4 (Z.to_nat r) ltac:(lia)). unfold slot, s_at. unfold same_slot in Hs. unfold SR in R4.
      destruct (nth (Z.to_nat r) (d_slots ds) None) as [y|]; [|congruence]. destruct (nth (Z.to_nat r) (pl_slots p) None); [|discriminate].
      destruct (nth (Z.to_nat r) d None) as [z|]; [|contradiction]. split; [discriminate|]. split; [discriminate|]. intros Hsg x [= <-]. apply R4. exact Hsg. }
    split.
    - apply header_rt; auto.
      + intros _. apply (Forall2_nth _ None None); [congruence|]. intros n Hn. rewrite L8 in Hn. specialize (Hs n Hn). specialize (R4 n Hn).
        unfold same_slot in Hs. unfold SR in R4. unfold slot_matches. destruct (nth n (pl_slots p) None) as [e|], (nth n (d_slots ds) None) as [y|]; try discriminate;
          destruct (nth n d None) as [z|]; try contradiction; [|exact Coq.Init.Logic.I].
        apply andb_true_iff in Hs. destruct Hs as (Hs & _). apply Z.eqb_eq in Hs. destruct R4 as (-> & Hsz & _). split; [symmetry; exact Hs|exact Hsz].
      + intros _. apply Forall_forall. intros r Hr. exact (proj1 (Lv r Hr)).
      + intros Hsg Np. cbn [finfo_of fi_primary fi_refs] in Np |- *. unfold s_prev_features. destruct (Z.eqb_spec (h_primary h) 7) as [|_]; [contradiction|].
        pose proof (fo_primary _ _ Fi) as Hp. cbn [finfo_of fi_primary] in Hp.
        destruct (nth_error (h_refs h) (Z.to_nat (h_primary h))) as [r|] eqn:En.
        2:{ apply nth_error_None in En. rewrite L7 in En. lia. }
        assert (Hr : In r (h_refs h)) by (eapply nth_error_In; exact En). destruct (Lv r Hr) as (_ & Hd & Hseg). specialize (Hseg Hsg).
        destruct (s_at d r) as [x|]; [|congruence]. rewrite (Hseg x eq_refl). subst k. unfold inherit. destruct (Z.eqb_spec (h_primary h) 7) as [|_]; [contradiction|].
        cbn [k_seg]. rewrite (nth_error_nth _ _ 0 En). reflexivity.
    - apply rel_refresh; [repeat split; assumption|]. apply SV; [intros X; contradiction|exact Hm]. }
  unfold dec_obu in E. rewrite Esf in E.
  destruct (h_type h) eqn:Et.
  - (* key *)
    destruct (h_show h && (h_refresh h =? 255) && d_seq ds && list_eqb opic_eqb (pl_refs p) []) eqn:Ec in E; [|discriminate].
    rewrite !andb_true_iff in Ec. destruct Ec as (((_ & E255) & _) & _). apply Z.eqb_eq in E255. injection E as <- <-. cbn [d_slots].
    assert (Ek : fi_type (finfo_of h) = KEY) by exact Et.
    split.
    + apply header_rt; auto; try (intros N; contradiction).
      intros _ N. exfalso. apply N. exact (proj1 (proj2 (proj2 (fo_key _ _ Fi Ek)))).
    + rewrite E255. apply rel_refresh; [exact R|]. apply SV; [reflexivity|]. rewrite (Hk0 eq_refl). reflexivity.
  - destruct (negb _) eqn:Eg in E; [discriminate|]. destruct (all_some _) as [refs|] eqn:Ea in E; [|discriminate].
    match type of E with (if ?b then _ else _) = _ => destruct b eqn:Eb end; [|discriminate]. rewrite !andb_true_iff in Eb.
    injection E as <- <-. cbn [d_slots]. apply (IN ltac:(discriminate) refs); [tauto|exact Ea|tauto|tauto].
  - destruct (negb _) eqn:Eg in E; [discriminate|]. destruct (all_some _) as [refs|] eqn:Ea in E; [|discriminate].
    match type of E with (if ?b then _ else _) = _ => destruct b eqn:Eb end; [|discriminate]. rewrite !andb_true_iff in Eb.
    injection E as <- <-. cbn [d_slots]. apply (IN ltac:(discriminate) refs); [tauto|exact Ea|tauto|tauto].
Qed.

Lemma rel_shown ds d segs n x : Rel ds d segs -> nth n ds None = Some x -> Rel (set_nth n (Some (DSlot (ds_hint x) (ds_pic x) false (ds_cvs x))) ds) d segs.
Proof.
  intros (R1 & R2 & R3 & R4) E. split; [rewrite set_nth_length; exact R1|]. split; [exact R2|]. split; [exact R3|]. intros q Hq.
  destruct (Nat.eq_dec n q) as [<-|Hn].
  - rewrite nth_set_nth_eq by lia. specialize (R4 n Hq). rewrite E in R4. unfold SR in *. destruct (nth n d None); [|contradiction]. cbn [ds_hint ds_showable]. intuition discriminate.
  - rewrite nth_set_nth_ne by exact Hn. exact (R4 q Hq).
Qed.

Definition follow (bits tails : list (list bool)) : list (list bool) := map (fun x => fst x ++ snd x) (combine bits tails).

Theorem stream_rt K : forall l n ds d segs ds' ev, dec_obus (cf_still cc) ds l = Some (ds', ev) -> Forall (obu_fine cc) l ->
  Rel (d_slots ds) d segs -> Forall (fun x => kok (snd x)) (coded_headers K n segs l) ->
  exists bits, Forall2 (fun x b => w_one x = Some (b, true)) (coded_headers K n segs l) bits /\
    forall tails, length tails = length bits ->
      s_headers (view_seq c) d (follow bits tails) = Some (combine (map expect_one (coded_headers K n segs l)) tails).
Proof.
  induction l as [|o l IH]; intros n ds d segs ds' ev E F R Hk.
  - exists []. split; [constructor|]. intros tails HL. reflexivity.
  - cbn [dec_obus] in E. destruct (dec_obu (cf_still cc) ds o) as [[ds1 ev1]|] eqn:E1; [|discriminate].
    destruct (dec_obus (cf_still cc) ds1 l) as [[ds2 ev2]|] eqn:E2; [|discriminate].
    pose proof (Forall_inv F) as Fo. pose proof (Forall_inv_tail F) as Fl.
    assert (Skip : d_slots ds1 = d_slots ds -> coded_headers K n segs (o :: l) = coded_headers K n segs l ->
       exists bits, Forall2 (fun x b => w_one x = Some (b, true)) (coded_headers K n segs (o :: l)) bits /\
         forall tails, length tails = length bits ->
           s_headers (view_seq c) d (follow bits tails) = Some (combine (map expect_one (coded_headers K n segs (o :: l))) tails)).
    { intros Ed Ec. rewrite Ec in *. apply (IH n ds1 d segs ds2 ev2); auto. rewrite Ed. exact R. }
    destruct o as [| |x|h|h p]; [apply Skip; [injection E1 as <- _; reflexivity|reflexivity]|apply Skip; [injection E1 as <- _; reflexivity|reflexivity]|
      apply Skip; [injection E1 as <- _; reflexivity|reflexivity]|..]; clear Skip; cbn [coded_headers] in *; cbv zeta in *.
    + (* show existing *)
      cbn [dec_obu] in E1. destruct (h_sef h) eqn:Es; [|discriminate]. cbn [negb] in E1.
      destruct ((0 <=? h_map_idx h) && (h_map_idx h <? 8)) eqn:Em; [|discriminate]. cbn [negb] in E1. apply andb_true_iff in Em. destruct Em as (Em1 & Em2). apply Z.leb_le in Em1. apply Z.ltb_lt in Em2.
      destruct (nth (Z.to_nat (h_map_idx h)) (d_slots ds) None) as [x|] eqn:Ex; [|discriminate]. destruct (ds_showable x) eqn:Esh; [|discriminate]. injection E1 as <- <-.
      destruct (existing_rt cc c (finfo_of h) (K n) no_slots d t sbw sbh Es (eq_trans (eq_sym St) Fo) (conj Em1 Em2)) as (b & Eb & Pb).
      destruct (IH (S n) _ d segs ds2 ev2 E2 Fl (rel_shown _ _ _ _ _ R Ex) (Forall_inv_tail Hk)) as (bits & F2 & Ht).
      exists (b :: bits). split; [constructor; [exact Eb|exact F2]|].
      intros [|tl tails] HL; [discriminate|]. cbn [follow combine map fst snd s_headers expect_one]. rewrite (Pb tl).
      destruct R as (_ & _ & _ & R4). specialize (R4 (Z.to_nat (h_map_idx h)) ltac:(lia)). rewrite Ex in R4. unfold SR in R4.
      change (s_at d (fi_map_idx (finfo_of h))) with (nth (Z.to_nat (h_map_idx h)) d None). destruct (nth (Z.to_nat (h_map_idx h)) d None) as [y|]; [|contradiction].
      destruct R4 as (_ & _ & _ & R4). specialize (R4 Esh). destruct (Z.eqb_spec (sl_type y) KEY_FRAME) as [X|_]; [contradiction|].
      fold (follow bits tails). rewrite (Ht tails (eq_add_S _ _ HL)). reflexivity.
    + destruct (one_frame ds d segs h p (K n) ds1 ev1 E1 Fo R (Forall_inv Hk)) as ((b & Eb & Pb) & R').
      destruct (IH (S n) _ _ _ ds2 ev2 E2 Fl R' (Forall_inv_tail Hk)) as (bits & F2 & Ht).
      exists (b :: bits). split; [constructor; [exact Eb|exact F2]|].
      intros [|tl tails] HL; [discriminate|]. cbn [follow combine map fst snd s_headers]. rewrite (Pb tl). cbn [expect_one].
      change (st_refresh _) with (h_refresh h). fold (follow bits tails). rewrite (Ht tails (eq_add_S _ _ HL)). reflexivity.
Qed.

Lemma rel_init segs : length segs = 8%nat -> Rel (repeat None 8) (repeat None 8) segs.
Proof.
  intros H. split; [reflexivity|]. split; [reflexivity|]. split; [exact H|]. intros n Hn.
  do 8 (destruct n as [|n]; [exact Coq.Init.Logic.I|]). lia.
Qed.
End STREAM.

(** The packets of a history, one after the other *)
Lemma dec_packets_obus still : forall l d d' evs, dec_packets still d l = Some (d', evs) -> exists ev, dec_obus still d (concat (map p_data l)) = Some (d', ev).
Proof.
  induction l as [|p l IH]; intros d d' evs E; [injection E as <- <-; exists []; reflexivity|]. cbn [dec_packets] in E. cbn [map concat].
  destruct (dec_obus still d (p_data p)) as [[d1 e1]|] eqn:E1; [|discriminate]. destruct (dec_packets still d1 l) as [[d2 e2]|] eqn:E2; [|discriminate].
  injection E as <- <-. destruct (IH _ _ _ E2) as (ev & E3). rewrite dec_obus_app, E1, E3. eauto.
Qed.
