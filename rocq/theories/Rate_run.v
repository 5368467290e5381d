(** Second pass over the output of a first pass. *)
From Verif Require Import Base LogExp_model Quant_model Quant_proof Quant_sel Quant_run Obu_proof Rate_model Rate_spec Rate_bytes Rate_summary Rate_window Rate_stream.

Section Run.
Variables (f : Z -> Z) (ms : list metrics) (exps : list Z) (fin : bool) (D : Z).
Let s := summary_of f exps ms.
Let cap := 2 * D + 8.
Hypothesis Vs : valid_summary s.
Hypothesis Hok : Forall (okm f) ms.
Hypothesis Key : 0 < count ms 0.
Hypothesis HD : 1 <= D <= 131072.
Hypothesis Dense : fin = true -> forall a b c, ms = a ++ b ++ c -> zlen b = cap -> Z.min D (shown ms) <= shown b.

(** *** Finite window *)
Definition Fin (r : rc2) (rest : list Z) (used : list metrics) : Prop :=
  exists q rem bs, ms = used ++ q ++ rem /\ Inv f s D cap 0 r used q /\ held (w_des r) bs /\ zlen bs < 8 /\ bs ++ rest = flat_map packet_bytes rem.

(** *** Whole file *)
Record Whole (r : rc2) (used : list metrics) : Prop := {
  H_buf : w_buf r = [];
  H_total : w_total r = s_nframes s;
  H_tt : w_total_total r = s_total s;
  H_left : w_left r = by_type (less (s_nframes s) used);
  H_tleft : w_ntus_left r = s_ntus s - shown used;
  H_nframes : w_nframes r = by_type (less (s_nframes s) used);
  H_sum : w_sum r = by_coded_type (fun i => scales f ms i - scales f used i);
  H_ntus : w_ntus r = - shown used;
  H_done : w_done r = zlen used
}.
Definition Wh (r : rc2) (rest : list Z) (used : list metrics) : Prop :=
  exists rem bs, ms = used ++ rem /\ Whole r used /\ held (w_des r) bs /\ zlen bs < 8 /\
    if w_ready r then exists m rem', rem = m :: rem' /\ w_cur r = m /\ bs = [] /\ rest = flat_map packet_bytes rem'
    else bs ++ rest = flat_map packet_bytes rem.

Definition Live (r : rc2) (rest : list Z) (used : list metrics) : Prop := if fin then Fin r rest used else Wh r rest used.
Definition Start (r : rc2) (rest : list Z) : Prop :=
  exists bs, at_start fin D r bs /\ zlen bs < 68 /\ bs ++ rest = summary_bytes s ++ flat_map packet_bytes ms.

Lemma key_s : 0 < nth 0 (s_nframes s) 0. Proof. exact Key. Qed.
Lemma total_s : s_total s = zlen ms. Proof. reflexivity. Qed.

Lemma key_total r : w_total r = s_nframes s -> at_ (w_total r) 0 = Some (count ms 0).
Proof. intros E. rewrite E. reflexivity. Qed.

(** what a live state says about the counters the dispatcher looks at *)
Lemma live_facts r rest used : Live r rest used -> w_total r = s_nframes s /\ w_total_total r = zlen ms /\ w_done r = zlen used /\
  (exists more, ms = used ++ more) /\ (w_ready r = true -> exists more, ms = used ++ w_cur r :: more).
Proof.
  unfold Live. destruct fin.
  - intros (q & rem & bs & E & I & Hd & Lb & St). pose proof (I_win _ _ _ _ _ _ _ _ I) as W.
    split; [apply W|]. split; [apply W|]. split; [apply W|]. split; [eauto|].
    intros Rd. destruct (I_ready _ _ _ _ _ _ _ _ I Rd) as (m & q' & -> & -> & _). exists (q' ++ rem). exact E.
  - intros (rem & bs & E & W & Hd & Lb & St). split; [apply W|]. split; [apply W|]. split; [apply W|]. split; [eauto|].
    intros Rd. rewrite Rd in St. destruct St as (m & rem' & -> & <- & _). eauto.
Qed.

Lemma used_all r rest used : Live r rest used -> zlen ms <= zlen used -> used = ms.
Proof.
  intros L Le. destruct (live_facts _ _ _ L) as (_ & _ & _ & (more & E) & _). rewrite E, zlen_app in Le.
  pose proof (zlen_nonneg _ more). assert (Z0 : zlen more = 0) by lia. unfold zlen in Z0.
  assert (more = []) by (apply length_zero_iff_nil; lia). subst more. rewrite app_nil_r in E. auto.
Qed.

(** What a query answers *)
Lemma live_ask r rest used : Live r rest used -> exists r' v, twopass_in f r None = Some (r', Ok v) /\ 0 <= v <= zlen rest /\
  (w_ready r = true \/ used = ms -> v = 0) /\ (w_ready r = false -> used <> ms -> 1 <= v).
Proof.
  intros L. pose proof (live_facts _ _ _ L) as (T0 & TT & TD & Pre & Rdy).
  unfold Live in L. destruct fin eqn:Ef.
  - destruct L as (q & rem & bs & E & I & Hd & Lb & St). pose proof (I_win _ _ _ _ _ _ _ _ I) as W.
    pose proof (zlen_nonneg _ rest) as R0. pose proof (zlen_nonneg _ bs) as B0.
    destruct (w_ready r) eqn:Rd.
    + unfold twopass_in. rewrite (key_total _ T0). destruct (Z.eqb_spec (count ms 0) 0); [lia|]. rewrite (key_total _ T0).
      destruct (Z.ltb_spec 0 (count ms 0)); [|lia]. rewrite TT, TD, Rd. cbn [negb].
      destruct (zlen ms <=? zlen used); (eexists _, _; split; [reflexivity|]; split; [lia|]; split; [auto|discriminate]).
    + destruct (ask_ok f s D cap Vs key_s HD eq_refl 0 r used q ltac:(lia) W Rd) as (r' & v & Ev & _ & _ & Vv).
      rewrite Ev. eexists _, _. split; [reflexivity|]. rewrite TT, TD in Vv. destruct Hd as (Fi & _ & _). rewrite Fi in Vv.
      pose proof (f_equal (@zlen Z) St) as SL. rewrite zlen_app, stream_len in SL.
      pose proof (f_equal (@zlen metrics) E) as ML. rewrite !zlen_app in ML.
      pose proof (need_nonneg _ _ _ _ _ _ _ W) as Nn.
      assert (Nu : need s D used q <= zlen rem) by (unfold need; rewrite total_s; lia).
      destruct (Z.leb_spec (zlen ms) (zlen used)) as [Le|Lt].
      * subst v. split; [lia|]. split; [auto|]. intros _ N. exfalso. apply N.
        assert (Zq : zlen q = 0 /\ zlen rem = 0) by (pose proof (zlen_nonneg _ q); pose proof (zlen_nonneg _ rem); lia).
        destruct Zq as [Zq Zr]. unfold zlen in Zq, Zr. assert (q = []) by (apply length_zero_iff_nil; lia). assert (rem = []) by (apply length_zero_iff_nil; lia).
        subst q rem. cbn in E. rewrite app_nil_r in E. auto.
      * destruct (Z.ltb_spec 0 (need s D used q)) as [Pos|Zero].
        -- subst v. split; [lia|]. split; [|intros; lia]. intros [X| ->]; [discriminate|lia].
        -- destruct (I_not _ _ _ _ _ _ _ _ I Rd) as [X|X]; [lia|]. rewrite total_s in X. lia.
  - destruct L as (rem & bs & E & W & Hd & Lb & St).
    pose proof (zlen_nonneg _ rest) as R0. pose proof (zlen_nonneg _ bs) as B0.
    pose proof (f_equal (@zlen metrics) E) as ML. rewrite zlen_app in ML. pose proof (zlen_nonneg _ rem) as M0.
    unfold twopass_in. rewrite (key_total _ T0). destruct (Z.eqb_spec (count ms 0) 0); [lia|]. rewrite (key_total _ T0).
    destruct (Z.ltb_spec 0 (count ms 0)); [|lia]. rewrite TT, TD.
    destruct (Z.leb_spec (zlen ms) (zlen used)) as [Le|Lt].
    + eexists _, _. split; [reflexivity|]. split; [lia|]. split; [auto|]. intros _ N. exfalso. apply N.
      assert (Zr : zlen rem = 0) by lia. unfold zlen in Zr. assert (rem = []) by (apply length_zero_iff_nil; lia). subst rem.
      rewrite app_nil_r in E. auto.
    + destruct (w_ready r) eqn:Rd; cbn [negb].
      * eexists _, _. split; [reflexivity|]. split; [lia|]. split; [auto|discriminate].
      * unfold parse_frame_data. unfold finite. rewrite (H_buf _ _ W). cbn [negb]. destruct Hd as (Fi & _ & _). rewrite Fi.
        pose proof (f_equal (@zlen Z) St) as SL. rewrite zlen_app, stream_len in SL.
        eexists _, _. split; [reflexivity|]. split; [lia|]. split; [|intros; lia]. intros [X| ->]; [discriminate|lia].
Qed.

(** What a call with data does *)
Lemma live_parse chunk tail r used buf c0 : Live r (chunk ++ tail) used -> w_ready r = false -> used <> ms -> skipn (Z.to_nat c0) buf = chunk ->
  exists r' c, parse_frame_data f r (Some buf) c0 = Some (r', Ok (c0 + c)) /\ 0 <= c <= zlen chunk /\ Live r' (skipn (Z.to_nat c) (chunk ++ tail)) used /\
    (chunk <> [] -> 1 <= c) /\ (forall r'' v, twopass_in f r None = Some (r'', Ok v) -> zlen chunk <= v -> c = zlen chunk).
Proof.
  intros L Rd Go Eb. pose proof (live_facts _ _ _ L) as (T0 & TT & TD & Pre & Rdy).
  assert (Lt : zlen used < zlen ms).
  { destruct (Z.lt_ge_cases (zlen used) (zlen ms)); [assumption|]. exfalso. apply Go, (used_all _ _ _ L). lia. }
  assert (Ask : forall v r'', twopass_in f r None = Some (r'', Ok v) -> exists r3, parse_frame_data f r None 0 = Some (r3, Ok v)).
  { intros v r'' A. unfold twopass_in in A. rewrite (key_total _ T0) in A. destruct (Z.eqb_spec (count ms 0) 0); [lia|]. rewrite (key_total _ T0) in A.
    destruct (Z.ltb_spec 0 (count ms 0)); [|lia]. rewrite TT, TD, Rd in A. destruct (Z.leb_spec (zlen ms) (zlen used)); [lia|]. cbn [negb] in A. eauto. }
  unfold Live in L |- *. destruct fin eqn:Ef.
  - destruct L as (q & rem & bs & E & I & Hd & Lb & St). pose proof (I_win _ _ _ _ _ _ _ _ I) as W.
    pose proof (zlen_nonneg _ chunk) as C0. pose proof (zlen_nonneg _ bs) as B0.
    assert (Or : Forall (okm f) rem). { rewrite E in Hok. apply Forall_app in Hok as [_ X]. apply Forall_app in X. apply X. }
    pose proof (f_equal (@zlen metrics) E) as ML. rewrite !zlen_app in ML.
    pose proof (f_equal (@zlen Z) St) as SL. rewrite !zlen_app, stream_len in SL.
    destruct (I_not _ _ _ _ _ _ _ _ I Rd) as [Pos|X]; [|rewrite total_s in X; lia].
    destruct (feed_ok f s D cap Vs HD eq_refl chunk tail r used q rem bs c0 I Or) with (buf := buf) as (r' & x & Ex & Px);
      [rewrite total_s; lia|exact Hd|exact Lb|exact St|exact Rd|rewrite total_s; exact Lt|exact Eb|].
    destruct x as [|c'].
    { exfalso. destruct Px as (taken & rem' & Er & Ec & Np). subst rem. rewrite app_assoc in E.
      pose proof (Dense eq_refl used (q ++ taken) rem' ltac:(rewrite E, <- !app_assoc; reflexivity) Ec) as Dn.
      unfold need, delay in Np. change (s_ntus s) with (shown ms) in Np. lia. }
    destruct Px as (taken & rem' & bs' & Er & I' & Hd' & Lb' & Hc & St' & Dn).
    pose proof (f_equal (@zlen Z) St') as SL'. rewrite !zlen_app, stream_len, zlen_skipn in SL' by lia.
    pose proof (f_equal (@zlen metrics) Er) as RL. rewrite zlen_app in RL. pose proof (zlen_nonneg _ taken) as K0. pose proof (zlen_nonneg _ bs') as B0'.
    assert (Cn : c' - c0 = 8 * zlen taken + zlen bs' - zlen bs) by lia.
    assert (Rn : w_ready r' = true -> need s D used q <= zlen taken).
    { intros Rd'. destruct (I_ready _ _ _ _ _ _ _ _ I' Rd') as (a & l & _ & _ & N0). unfold need in N0 |- *.
      rewrite shown_app, zlen_app in N0. pose proof (shown_range taken). lia. }
    exists r', (c' - c0). replace (c0 + (c' - c0)) with c' by lia. split; [exact Ex|]. split; [lia|]. split; [|split].
    + exists (q ++ taken), rem', bs'. split; [rewrite E, Er, !app_assoc; reflexivity|]. split; [exact I'|]. split; [exact Hd'|]. split; [exact Lb'|].
      rewrite skipn_app. replace (Z.to_nat (c' - c0) - length chunk)%nat with 0%nat by (unfold zlen in Hc; lia). cbn [skipn]. exact St'.
    + intros Ne. destruct Dn as [Rd'|Dn]; [specialize (Rn Rd'); lia|].
      destruct chunk as [|z chunk]; [congruence|]. rewrite zlen_cons in Dn. pose proof (zlen_nonneg _ chunk). lia.
    + intros r'' v A Lv. destruct (Ask v r'' A) as (r3 & Av). unfold parse_frame_data in Av. rewrite (is_finite f s D cap HD eq_refl r used q W) in Av.
      cbn [negb] in Av. destruct (needed_ok f s D cap Vs HD eq_refl _ _ _ W) as (N1 & N2 & _). rewrite N1, N2 in Av.
      destruct (Z.ltb_spec 0 (need s D used q)); [|lia]. assert (Av' : 8 * need s D used q - d_fill (w_des r) = v) by congruence. clear Av. rename Av' into Av. destruct Hd as (Fi & _ & _). rewrite Fi in Av.
      destruct Dn as [Rd'|Dn]; [specialize (Rn Rd'); lia|lia].
  - destruct L as (rem & bs & E & W & Hd & Lb & St). rewrite Rd in St.
    pose proof (zlen_nonneg _ chunk) as C0. pose proof (zlen_nonneg _ bs) as B0.
    pose proof (f_equal (@zlen metrics) E) as ML. rewrite zlen_app in ML.
    destruct (fill_ok chunk _ bs 8 Hd ltac:(lia)) as (d' & Ed & Hd').
    set (c := Z.min (8 - zlen bs) (zlen chunk)) in *.
    assert (Hc : 0 <= c <= zlen chunk) by (unfold c; lia).
    set (bs1 := bs ++ firstn (Z.to_nat c) chunk) in *.
    assert (L1 : zlen bs1 = zlen bs + c) by (unfold bs1; rewrite zlen_app, zlen_firstn by exact Hc; reflexivity).
    assert (Sk : skipn (Z.to_nat c) (chunk ++ tail) = skipn (Z.to_nat c) chunk ++ tail).
    { rewrite skipn_app. replace (Z.to_nat c - length chunk)%nat with 0%nat by (unfold zlen in Hc; lia). reflexivity. }
    assert (Str1 : bs1 ++ skipn (Z.to_nat c) (chunk ++ tail) = flat_map packet_bytes rem).
    { rewrite Sk. unfold bs1. rewrite <- St, <- app_assoc. f_equal. rewrite app_assoc, firstn_skipn. reflexivity. }
    assert (By : Forall byte bs1). { pose proof (stream_bytes rem) as X. rewrite <- Str1 in X. apply Forall_app in X. apply X. }
    assert (C1 : chunk <> [] -> 1 <= c). { intros Ne. destruct chunk as [|z chunk]; [congruence|]. unfold c. rewrite zlen_cons. pose proof (zlen_nonneg _ chunk). lia. }
    assert (Cv : forall r'' v, twopass_in f r None = Some (r'', Ok v) -> zlen chunk <= v -> c = zlen chunk).
    { intros r'' v A Lv. destruct (Ask v r'' A) as (r3 & Av). unfold parse_frame_data, finite in Av. rewrite (H_buf _ _ W) in Av. cbn [negb] in Av.
      assert (Av' : 8 - d_fill (w_des r) = v) by congruence. clear Av. rename Av' into Av. destruct Hd as (Fi & _ & _). rewrite Fi in Av. unfold c. lia. }
    unfold parse_frame_data, finite. rewrite (H_buf _ _ W). cbn [negb]. rewrite Eb, Ed. cbn [fst snd]. cbv zeta.
    pose proof Hd' as (Fi & Rest). rewrite Fi, L1.
    destruct (Z.leb_spec 8 (zlen bs + c)) as [Full|Part].
    + assert (Full' : zlen bs1 = 8) by (unfold c in *; lia).
      destruct (parse_held d' bs1 Hd' By Full') as (d2 & r1 & Ep & Hd2 & R). rewrite Fi, L1 in Ep. rewrite Ep. cbn [fst snd].
      destruct rem as [|m rem]; [rewrite zlen_nil in ML; lia|].
      cbn [flat_map] in Str1. apply app_inj_len in Str1; [|rewrite packet_length; unfold zlen in Full'; lia]. destruct Str1 as [Em St1].
      assert (Om : okm f m). { rewrite E in Hok. apply Forall_app in Hok as [_ X]. exact (Forall_inv X). }
      destruct r1 as [u|m']; [exfalso; apply (R m (proj1 Om)); auto|]. destruct R as [V Em'].
      assert (m' = m) by (apply packet_inj; [exact V|apply Om|congruence]). subst m'.
      eexists _, c. split; [reflexivity|]. split; [exact Hc|]. split; [|split; [exact C1|exact Cv]].
      exists (m :: rem), []. split; [exact E|]. split; [destruct W; constructor; assumption|].
      split; [cbn; apply cleared; apply Hd2|]. split; [rewrite zlen_nil; lia|]. cbn [set_cur w_ready w_cur].
      exists m, rem. repeat split. exact St1.
    + eexists _, c. split; [reflexivity|]. split; [exact Hc|]. split; [|split; [exact C1|exact Cv]].
      exists rem, bs1. split; [exact E|]. split; [destruct W; constructor; assumption|]. split; [exact Hd'|]. split; [lia|].
      cbn [set_des w_ready]. rewrite Rd. exact Str1.
Qed.

Lemma live_feed r rest used k : Live r rest used ->
  exists r' c, twopass_in f r (Some (firstn k rest)) = Some (r', Ok c) /\ 0 <= c <= zlen (firstn k rest) /\ Live r' (skipn (Z.to_nat c) rest) used /\
    (w_ready r = true \/ used = ms -> c = 0) /\
    (w_ready r = false -> used <> ms -> (firstn k rest <> [] -> 1 <= c) /\
       (forall r'' v, twopass_in f r None = Some (r'', Ok v) -> zlen (firstn k rest) <= v -> c = zlen (firstn k rest))).
Proof.
  intros L. pose proof (live_facts _ _ _ L) as (T0 & TT & TD & (more & Pre) & Rdy). pose proof (zlen_nonneg _ (firstn k rest)) as C0.
  assert (Split : rest = firstn k rest ++ skipn k rest) by (symmetry; apply firstn_skipn).
  assert (D1 : w_ready r = true \/ used = ms -> exists r', twopass_in f r (Some (firstn k rest)) = Some (r', Ok 0) /\ Live r' rest used).
  { intros Hd. unfold twopass_in. rewrite (key_total _ T0). destruct (Z.eqb_spec (count ms 0) 0); [lia|]. rewrite (key_total _ T0).
    destruct (Z.ltb_spec 0 (count ms 0)); [|lia]. rewrite TT, TD.
    destruct (Z.leb_spec (zlen ms) (zlen used)) as [Le|Lt].
    - eexists. split; [reflexivity|]. assert (Rf : w_ready r = false).
      { destruct (w_ready r); [|reflexivity]. destruct (Rdy eq_refl) as (mo & Eq). rewrite Eq, zlen_app, zlen_cons in Le. pose proof (zlen_nonneg _ mo). lia. }
      replace (set_ready r false) with r; [exact L|]. destruct r. cbn in Rf |- *. unfold set_ready. cbn. subst. reflexivity.
    - destruct Hd as [Rt| ->]; [|lia]. rewrite Rt. cbn [negb]. eexists. split; [reflexivity|exact L]. }
  destruct (w_ready r) eqn:Rd.
  { destruct (D1 (or_introl eq_refl)) as (r' & E & L'). exists r', 0. split; [exact E|]. split; [lia|]. split; [exact L'|]. split; [auto|discriminate]. }
  assert (Dec : used = ms \/ zlen used < zlen ms).
  { destruct (Z.lt_ge_cases (zlen used) (zlen ms)) as [|Ge]; [auto|left; apply (used_all _ _ _ L); lia]. }
  destruct Dec as [Al|Lt].
  { destruct (D1 (or_intror Al)) as (r' & E & L'). exists r', 0. split; [exact E|]. split; [lia|]. split; [exact L'|]. split; [auto|congruence]. }
  clear D1. assert (Go : used <> ms) by (intros ->; lia).
  rewrite Split in L.
  destruct (live_parse (firstn k rest) (skipn k rest) r used (firstn k rest) 0 L Rd Go eq_refl) as (r' & c & E & Hc & L' & C1 & Cv).
  exists r', c. rewrite Z.add_0_l in E.
  assert (E' : twopass_in f r (Some (firstn k rest)) = Some (r', Ok c)).
  { unfold twopass_in. rewrite (key_total _ T0). destruct (Z.eqb_spec (count ms 0) 0); [lia|]. rewrite (key_total _ T0).
    destruct (Z.ltb_spec 0 (count ms 0)); [|lia]. rewrite TT, TD, Rd. destruct (Z.leb_spec (zlen ms) (zlen used)); [lia|]. cbn [negb]. exact E. }
  split; [exact E'|]. split; [exact Hc|]. split; [rewrite Split; exact L'|]. split; [intros [X|X]; [discriminate|contradiction]|].
  intros _ _. auto.
Qed.

Lemma nframes_bound i : 0 <= i <= 4 -> nth (Z.to_nat i) (s_nframes s) 0 = count ms i.
Proof. apply (five (fun i => nth (Z.to_nat i) (s_nframes s) 0 = count ms i)); reflexivity. Qed.

(** What finishing a frame does *)
Lemma live_pop r rest used : Live r rest used -> w_ready r = true ->
  exists r', pop f r = Some r' /\ Live r' rest (used ++ [w_cur r]).
Proof.
  intros L Rd. pose proof (live_facts _ _ _ L) as (T0 & TT & TD & _ & Rdy).
  pose proof Hok as Ok. unfold Live in L |- *. destruct fin eqn:Ef.
  - destruct L as (q & rem & bs & E & I & Hd & Lb & St). destruct (I_ready _ _ _ _ _ _ _ _ I Rd) as (m & q' & -> & Em & _).
    destruct (pop_ok f s D cap Vs key_s HD eq_refl 0 r used m q' ltac:(lia) I Rd) as (_ & r' & Ep & I' & De).
    exists r'. split; [exact Ep|]. rewrite Em. exists q', rem, bs. split; [rewrite E, <- !app_assoc; reflexivity|]. split; [exact I'|].
    rewrite De. auto.
  - destruct L as (rem & bs & E & W & Hd & Lb & St). rewrite Rd in St. destruct St as (m & rem' & -> & Em & -> & ->).
    pose proof (vs_total s Vs) as [V1 V2]. rewrite total_s in V1, V2.
    pose proof (f_equal (@zlen metrics) E) as ML. rewrite zlen_app, zlen_cons in ML. pose proof (zlen_nonneg _ used). pose proof (zlen_nonneg _ rem').
    assert (Om : okm f m). { rewrite E in Ok. apply Forall_app in Ok as [_ X]. exact (Forall_inv X). } destruct Om as [Vm Fm].
    assert (Orem : Forall (okm f) rem'). { rewrite E in Ok. apply Forall_app in Ok as [_ X]. exact (Forall_inv_tail X). }
    assert (Oused : Forall (okm f) used). { rewrite E in Ok. apply Forall_app in Ok as [X _]. exact X. }
    unfold pop. rewrite Em. cbv zeta. rewrite TD, i64c_ok by lia.
    rewrite (H_left _ _ W), by_type_at by apply Vm. assert (EL : less (s_nframes s) used (m_fti m) = count ms (m_fti m) - count used (m_fti m)) by (unfold less; rewrite nframes_bound by apply Vm; reflexivity). rewrite EL. clear EL.
    pose proof (count_range ms (m_fti m)) as R1. pose proof (count_range used (m_fti m)) as R2.
    rewrite i32c_ok by lia. rewrite by_type_put by apply Vm.
    rewrite (H_nframes _ _ W), by_type_at by apply Vm. assert (EL : less (s_nframes s) used (m_fti m) = count ms (m_fti m) - count used (m_fti m)) by (unfold less; rewrite nframes_bound by apply Vm; reflexivity). rewrite EL. clear EL.
    rewrite i32c_ok by lia. rewrite by_type_put by apply Vm.
    set (sums := if m_fti m <? 4 then _ else _).
    assert (Es : sums = Some (by_coded_type (fun i => scales f ms i - scales f (used ++ [m]) i))).
    { subst sums. rewrite (H_sum _ _ W). destruct (Z.ltb_spec (m_fti m) 4) as [Lt|Ge].
      - rewrite by_coded_at by (try apply Vm; assumption).
        assert (B : scales f ms (m_fti m) < 2 ^ 63).
        { destruct (vs_sum s Vs) as [_ X]. rewrite Forall_forall in X. apply X. unfold s, summary_of, by_coded_type. cbn [s_sum].
          destruct Vm as [Vm _]. assert (m_fti m = 0 \/ m_fti m = 1 \/ m_fti m = 2 \/ m_fti m = 3) as [->|[->|[->| ->]]] by lia; cbn [In]; auto. }
        assert (Sc : scales f ms (m_fti m) = scales f used (m_fti m) + f (m_scale m) + scales f rem' (m_fti m)).
        { rewrite E at 1. rewrite scales_app, scales_cons, Z.eqb_refl. lia. }
        pose proof (scales_nonneg f used (m_fti m) Oused). pose proof (scales_nonneg f rem' (m_fti m) Orem).
        rewrite i64c_ok by lia. rewrite by_coded_put by (try apply Vm; assumption). f_equal. apply by_coded_ext. intros i Hi.
        rewrite scales_app, scales_one. destruct (Z.eqb_spec (m_fti m) i) as [<-|]; lia.
      - f_equal. apply by_coded_ext. intros i Hi. rewrite scales_app, scales_one. destruct (Z.eqb_spec (m_fti m) i); lia. }
    rewrite Es. clear sums Es. pose proof (shown_range used) as Sh. pose proof (shown_range ms) as Shm.
    set (nt := if m_show m then _ else _).
    assert (En : nt = Some (s_ntus s - shown (used ++ [m]), - shown (used ++ [m]))).
    { subst nt. rewrite (H_ntus _ _ W), (H_tleft _ _ W), shown_app, shown_one. change (s_ntus s) with (shown ms).
      destruct (m_show m); cbn [b2z]; rewrite ?i32c_ok by lia; f_equal; f_equal; lia. }
    rewrite En. clear nt En. unfold finite. rewrite (H_buf _ _ W). cbn [fst snd].
    match goal with |- exists r', (do x <- twopass_in f ?y None; _) = _ /\ _ => set (r1 := y) end.
    assert (W1 : Whole r1 (used ++ [m])).
    { subst r1. constructor; cbn [w_des w_buf w_n w_head w_ready w_cur w_delay w_total w_total_total w_left w_ntus_left w_nframes w_sum w_ntus w_done];
        try apply W; try reflexivity.
      - apply by_type_ext. intros i Hi. unfold less. rewrite count_push, nframes_bound by exact Hi. destruct (Z.eqb_spec (m_fti m) i) as [<-|]; lia.
      - apply by_type_ext. intros i Hi. unfold less. rewrite count_push, nframes_bound by exact Hi. destruct (Z.eqb_spec (m_fti m) i) as [<-|]; lia.
      - rewrite zlen_app. reflexivity. }
    assert (Em' : ms = (used ++ [m]) ++ rem') by (rewrite <- app_assoc; exact E).
    assert (Tot : at_ (w_total r1) 0 = Some (count ms 0)) by (apply key_total, (H_total _ _ W1)).
    unfold twopass_in. rewrite Tot. destruct (Z.eqb_spec (count ms 0) 0); [lia|]. rewrite Tot.
    destruct (Z.ltb_spec 0 (count ms 0)); [|lia].
    destruct (w_total_total r1 <=? w_done r1).
    + eexists. split; [reflexivity|]. exists rem', []. split; [exact Em'|]. split; [destruct W1; constructor; assumption|].
      split; [exact Hd|]. split; [exact Lb|]. reflexivity.
    + change (w_ready r1) with false. cbn [negb]. unfold parse_frame_data, finite. rewrite (H_buf _ _ W1). cbn [negb].
      eexists. split; [reflexivity|]. exists rem', []. split; [exact Em'|]. split; [exact W1|].
      split; [exact Hd|]. split; [exact Lb|]. reflexivity.
Qed.

(** The first calls, with the header *)
Lemma start_live d r' : held d [] -> setup_second_pass (rc2_init fin D) s = Some (set_des r' des_init) -> w_des r' = d ->
  Live r' (flat_map packet_bytes ms) [] /\ w_ready r' = false.
Proof.
  intros Hd E De. unfold setup_second_pass in E. destruct (total_i32 (s_nframes s)) as [t|] eqn:Et; [|discriminate].
  assert (T : t = zlen ms).
  { destruct (vs_nframes s Vs) as [L5 N5]. destruct (vs_total s Vs) as [V1 V2]. pose proof (vs_ntus s Vs).
    pose proof (total_less (s_nframes s) [] L5 N5 ltac:(lia) ltac:(constructor) ltac:(rewrite zlen_nil; lia)) as T.
    rewrite zlen_nil, Z.sub_0_r, <- V1 in T. rewrite total_s in T.
    assert (X : by_type (less (s_nframes s) []) = s_nframes s).
    { rewrite (list5 _ L5) at 2. apply by_type_ext. intros i Hi. unfold less. change (count [] i) with 0. lia. }
    rewrite X, Et in T. congruence. }
  assert (Er : r' = set_des (set_des r' des_init) d). { destruct r'. cbn in De |- *. subst. reflexivity. }
  set (r2 := set_des r' des_init) in *. clearbody r2. apply (f_equal (fun o => match o with Some x => x | None => r2 end)) in E. cbv beta iota in E. subst t.
  assert (Nil : forall n, length n = 5%nat -> n = by_type (less n [])).
  { intros n L. rewrite (list5 n L) at 1. apply by_type_ext. intros i Hi. unfold less. change (count [] i) with 0. lia. }
  rewrite Er, <- E. split; [|reflexivity]. unfold Live. destruct fin.
  - assert (Fn : finite (rc2_init true D) = true).
    { unfold finite, rc2_init. cbn [w_buf]. replace (Z.to_nat (D * 2 + 8)) with (S (Z.to_nat (D * 2 + 7))) by lia. reflexivity. }
    exists [], ms, []. split; [reflexivity|]. split; [|split; [exact Hd|split; [rewrite zlen_nil; lia|reflexivity]]].
    constructor.
    + constructor; cbn [set_des w_des w_buf w_n w_head w_ready w_cur w_delay w_total w_total_total w_left w_ntus_left w_nframes w_sum w_ntus w_done rc2_init];
        try reflexivity; try constructor; rewrite ?zlen_nil; try (unfold cap; lia); rewrite ?Fn; try reflexivity.
      * unfold zlen. rewrite repeat_length. unfold cap. lia.
      * apply Nil. reflexivity.
      * change (shown []) with 0. rewrite Z.sub_0_r. reflexivity.
      * pose proof (vs_ntus s Vs). lia.
    + discriminate.
    + intros _. left. unfold need, delay. rewrite zlen_nil. change (shown []) with 0. pose proof (vs_ntus s Vs). lia.
  - exists ms, []. split; [reflexivity|]. split; [|split; [exact Hd|split; [rewrite zlen_nil; lia|reflexivity]]].
    constructor; try reflexivity.
    + apply Nil. reflexivity.
    + cbn [set_des w_ntus_left]. change (shown []) with 0. lia.
    + apply Nil. reflexivity.
    + change (by_coded_type (scales f ms) = by_coded_type (fun i => scales f ms i - scales f [] i)). apply by_coded_ext. intros i Hi.
      change (scales f [] i) with 0. lia.
Qed.

Lemma start_feed r rest k : Start r rest ->
  exists r' c, twopass_in f r (Some (firstn k rest)) = Some (r', Ok c) /\ 0 <= c <= zlen (firstn k rest) /\
    (Start r' (skipn (Z.to_nat c) rest) \/ Live r' (skipn (Z.to_nat c) rest) []) /\ (firstn k rest <> [] -> 1 <= c).
Proof.
  intros (bs & Hs & Lb & St). pose proof (zlen_nonneg _ (firstn k rest)) as C0. pose proof (zlen_nonneg _ bs) as B0.
  destruct (header_ok fin D s r bs (firstn k rest) (skipn k rest) Hs Lb Vs) as (r' & c & E & Hc & P).
  { exists (flat_map packet_bytes ms). rewrite firstn_skipn. exact St. }
  assert (Tw : twopass_in f r (Some (firstn k rest)) =
     match (Some (r', c)) with None => None | Some (r, consumed) =>
      do i0 <- at_ (w_total r) 0;
      if 0 <? i0 then
        if w_total_total r <=? w_done r then Some (set_ready r false, Ok consumed)
        else if negb (w_ready r) then parse_frame_data f r (Some (firstn k rest)) consumed
        else Some (r, Ok consumed)
      else Some (r, Ok consumed) end).
  { unfold twopass_in. destruct Hs as (d & -> & _).
    change (at_ (w_total (set_des (rc2_init fin D) d)) 0) with (Some 0). change (0 =? 0) with true. cbv beta iota zeta. rewrite E. reflexivity. }
  rewrite Tw. clear Tw. destruct P as [(Lt & -> & Hs')|(Ec & Ge & d & Hd & Es & De)].
  - destruct Hs' as (d & Er & Hd). rewrite Er. change (at_ (w_total (set_des (rc2_init fin D) d)) 0) with (Some 0). cbv beta iota.
    change (0 <? 0) with false. cbv iota. eexists _, _. split; [reflexivity|]. split; [lia|]. split.
    + left. exists (bs ++ firstn k rest). split; [exists d; auto|]. split; [rewrite zlen_app; lia|].
      rewrite <- St, <- app_assoc. f_equal. unfold zlen. rewrite Nat2Z.id, firstn_length.
      destruct (Nat.le_ge_cases k (length rest)).
      * rewrite Nat.min_l by assumption. apply firstn_skipn.
      * rewrite Nat.min_r, skipn_all, app_nil_r by assumption. apply firstn_all2. assumption.
    + intros Ne. destruct (firstn k rest) as [|z l]; [congruence|]. rewrite zlen_cons. pose proof (zlen_nonneg _ l). lia.
  - destruct (start_live d r' Hd Es De) as [L Rd].
    assert (Rest : skipn (Z.to_nat c) rest = flat_map packet_bytes ms).
    { rewrite <- (firstn_skipn (Z.to_nat c) rest), app_assoc in St.
      apply app_inj_len in St; [apply St|]. rewrite (summary_length s Vs), app_length, firstn_length.
      assert (zlen (firstn k rest) <= zlen rest) by (unfold zlen; rewrite firstn_length; lia). unfold zlen in *. lia. }
    assert (Sk : skipn (Z.to_nat c) rest = skipn (Z.to_nat c) (firstn k rest) ++ skipn k rest).
    { rewrite <- (firstn_skipn k rest) at 1. rewrite skipn_app. replace (Z.to_nat c - length (firstn k rest))%nat with 0%nat by (unfold zlen in Hc; lia). reflexivity. }
    rewrite <- Rest, Sk in L.
    pose proof (live_facts _ _ _ L) as (T0 & TT & TD & _ & _). pose proof (vs_ntus s Vs) as Nt. rewrite total_s in Nt.
    assert (Go : [] <> ms) by (intros X; rewrite <- X in Nt; rewrite zlen_nil in Nt; lia).
    destruct (live_parse _ _ r' [] (firstn k rest) c L Rd Go eq_refl) as (r2 & c2 & E2 & Hc2 & L2 & _ & _).
    rewrite (key_total _ T0). destruct (Z.ltb_spec 0 (count ms 0)); [|lia]. rewrite TT, TD, Rd, zlen_nil.
    destruct (Z.leb_spec (zlen ms) 0); [lia|]. cbn [negb]. rewrite zlen_skipn in Hc2 by exact Hc.
    exists r2, (c + c2). split; [exact E2|]. split; [lia|]. split; [|intros _; lia].
    right. rewrite <- Sk in L2. rewrite skipn_skipn in L2. match type of L2 with Live _ (skipn ?n _) _ => replace (Z.to_nat (c + c2)) with n by lia end. exact L2.
Qed.
End Run.
