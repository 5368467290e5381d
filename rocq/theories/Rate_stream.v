(** First pass output fed back byte by byte. *)
From Verif Require Import Base LogExp_model Quant_model Quant_proof Quant_sel Quant_run Obu_proof Rate_model Rate_spec Rate_bytes Rate_summary Rate_window.

(** ** First pass *)
Definition stats (f : Z -> Z) (l : list metrics) : pass1 := Pass1 (shown l) (by_type (count l)) (by_coded_type (scales f l)).

Lemma count_range l i : 0 <= count l i <= zlen l.
Proof.
  unfold count. induction l as [|x l IH]; [cbn; lia|]. unfold of_type in *. cbn [filter]. rewrite zlen_cons.
  destruct (m_fti x =? i); rewrite ?zlen_cons; lia.
Qed.
Lemma count_push l m i : count (l ++ [m]) i = if m_fti m =? i then count l i + 1 else count l i.
Proof. rewrite count_app, count_one. destruct (m_fti m =? i); lia. Qed.
Lemma scales_nonneg f l i : Forall (okm f) l -> 0 <= scales f l i.
Proof. intros F. apply (scales_range f l i F). Qed.

Lemma emit_ok f l m : Forall (okm f) l -> okm f m -> zlen l + 1 < 2 ^ 31 - 1 -> (forall i, 0 <= i < 4 -> scales f (l ++ [m]) i < 2 ^ 63) ->
  emit_frame_data f (stats f l) (zlen l + 1) m = Some (stats f (l ++ [m]), packet_bytes m).
Proof.
  intros Fl [V B] L S. pose proof (count_range l (m_fti m)) as C. pose proof (zlen_nonneg _ l).
  unfold emit_frame_data, stats. cbn [p_nframes p_sum p_ntus]. rewrite by_type_at by apply V.
  destruct (Z.ltb_spec (count l (m_fti m)) (2 ^ 31 - 1)); [|lia]. rewrite by_type_put by apply V.
  set (sums := if m_fti m <? 4 then _ else _).
  assert (Es : sums = Some (by_coded_type (scales f (l ++ [m])))).
  { subst sums. destruct (Z.ltb_spec (m_fti m) 4) as [Lt|Ge].
    - pose proof (S (m_fti m) ltac:(destruct V; lia)) as Sm. rewrite scales_app, scales_one, Z.eqb_refl in Sm.
      pose proof (scales_nonneg f l (m_fti m) Fl).
      rewrite by_coded_at by (try apply V; assumption). rewrite i64c_ok by lia.
      rewrite by_coded_put by (try apply V; assumption). f_equal. apply by_coded_ext. intros i Hi.
      rewrite scales_app, scales_one. destruct (Z.eqb_spec (m_fti m) i) as [<-|]; lia.
    - f_equal. apply by_coded_ext. intros i Hi. rewrite scales_app, scales_one. destruct (Z.eqb_spec (m_fti m) i); lia. }
  rewrite Es. clear sums Es. pose proof (shown_range l) as Sh.
  set (ntus := if m_show m then _ else _).
  assert (En : ntus = Some (shown (l ++ [m]))).
  { subst ntus. rewrite shown_app, shown_one. destruct (m_show m); cbn [b2z]; [apply i32c_ok; lia|f_equal; lia]. }
  rewrite En. clear ntus En. destruct (Z.leb_spec (2 ^ 31 - 1) (zlen l + 1)); [lia|]. f_equal. f_equal.
  - f_equal. apply by_type_ext. intros i Hi. rewrite count_push. destruct (Z.eqb_spec (m_fti m) i) as [<-|]; reflexivity.
  - unfold packet_bytes. rewrite !buffer_val_le. f_equal. f_equal.
    destruct V as [V _]. destruct (m_show m); cbn [b2z].
    + rewrite Z.lor_comm, lor_add by lia. lia.
    + rewrite Z.lor_0_l. lia.
Qed.

Lemma pass1_ok f ms : forall l, Forall (okm f) (l ++ ms) -> zlen (l ++ ms) < 2 ^ 31 - 1 -> (forall i, 0 <= i < 4 -> scales f (l ++ ms) i < 2 ^ 63) ->
  run_pass1 f (stats f l) (zlen l) ms = Some (stats f (l ++ ms), map packet_bytes ms).
Proof.
  induction ms as [|m ms IH]; intros l F L S; cbn [run_pass1 map]; [rewrite app_nil_r; reflexivity|].
  replace (l ++ m :: ms) with ((l ++ [m]) ++ ms) in * by (rewrite <- app_assoc; reflexivity).
  pose proof F as F0. apply Forall_app in F0 as [F1 F2]. pose proof F1 as F3. apply Forall_app in F3 as [F3 F4].
  rewrite zlen_app in L. pose proof (zlen_nonneg _ ms).
  rewrite emit_ok; [|exact F3|exact (Forall_inv F4)|rewrite zlen_app in L; change (zlen [m]) with 1 in L; lia|].
  - cbn [fst snd]. specialize (IH (l ++ [m]) F ltac:(rewrite zlen_app; exact L) S). rewrite zlen_app in IH. change (zlen [m]) with 1 in IH. rewrite IH. reflexivity.
  - intros i Hi. specialize (S i Hi). rewrite scales_app in S. pose proof (scales_nonneg f ms i F2). lia.
Qed.
Lemma emit_summary_ok f ms exps : emit_summary (stats f ms) exps = summary_bytes (summary_of f exps ms).
Proof.
  unfold emit_summary, summary_bytes, stats, summary_of. cbn [p_ntus p_nframes p_sum s_ntus s_nframes s_exp s_sum].
  rewrite !buffer_val_le. unfold MAGIC, VERSION.
  rewrite (flat_map_ext (fun n => buffer_val n 4) (le 4)) by (intros a; apply buffer_val_le).
  rewrite (flat_map_ext (fun n => buffer_val n 1) (le 1)) by (intros a; apply buffer_val_le).
  rewrite (flat_map_ext (fun n => buffer_val n 8) (le 8)) by (intros a; apply buffer_val_le). reflexivity.
Qed.

(** ** Summaries are determined by their bytes *)
Lemma flat1 l : Forall byte l -> flat_map (le 1) l = l.
Proof.
  induction 1 as [|b l B F IH]; [reflexivity|]. change (flat_map (le 1) (b :: l)) with ([b mod 256] ++ flat_map (le 1) l).
  rewrite IH, Z.mod_small by exact B. reflexivity.
Qed.
Lemma flat8_inj l : forall l', flat_map (le 8) l = flat_map (le 8) l' -> length l = length l' ->
  Forall (fun n => 0 <= n < 2 ^ 63) l -> Forall (fun n => 0 <= n < 2 ^ 63) l' -> l = l'.
Proof.
  induction l as [|a l IH]; intros [|b l'] A L F F'; try discriminate; [reflexivity|].
  cbn [flat_map] in A. apply app_inj_len in A; [|rewrite !le_length; reflexivity]. destruct A as [A1 A2].
  pose proof (Forall_inv F) as F0. apply Forall_inv_tail in F. pose proof (Forall_inv F') as F0'. apply Forall_inv_tail in F'. cbv beta in F0, F0'.
  apply (f_equal (fun l => sw 64 (le_val l))) in A1. rewrite !sw64_back in A1 by lia. subst b. f_equal. apply IH; auto.
Qed.
Lemma summary_inj s s' : valid_summary s -> valid_summary s' -> summary_bytes s = summary_bytes s' -> s = s'.
Proof.
  intros [A1 [A2 A2'] [A3 A3'] [A4 A4'] [A5 A5']] [B1 [B2 B2'] [B3 B3'] [B4 B4'] [B5 B5']] E.
  destruct s as [n nf ex sm tot], s' as [n' nf' ex' sm' tot']. cbn [s_ntus s_nframes s_exp s_sum s_total] in *. unfold summary_bytes in E.
  cbn [s_ntus s_nframes s_exp s_sum s_total] in E.
  apply app_inj_len in E; [|rewrite !le_length; reflexivity]. destruct E as [_ E].
  apply app_inj_len in E; [|rewrite !le_length; reflexivity]. destruct E as [_ E].
  apply app_inj_len in E; [|rewrite !le_length; reflexivity]. destruct E as [E1 E].
  apply app_inj_len in E; [|rewrite !flat_le_len; lia]. destruct E as [E2 E].
  apply app_inj_len in E; [|rewrite !flat_le_len; lia]. destruct E as [E3 E4].
  apply (f_equal (fun l => sw 32 (le_val l))) in E1. rewrite !sw_le_back in E1 by lia. subst n'.
  apply flat_le4_inj in E2; auto; try lia. subst nf'. rewrite !flat1 in E3 by assumption. subst ex'.
  apply flat8_inj in E4; auto; try lia. subst sm'. f_equal. lia.
Qed.

(** ** The header *)
Definition at_start (fin : bool) (D : Z) (r : rc2) (bs : list Z) : Prop :=
  exists d, r = set_des (rc2_init fin D) d /\ held d bs.

Lemma header_ok fin D s r bs chunk tail : at_start fin D r bs -> zlen bs < 68 -> valid_summary s ->
  (exists more, bs ++ chunk ++ tail = summary_bytes s ++ more) ->
  exists r' c, twopass_parse_summary (set_ready r false) chunk = Some (r', Ok c) /\ 0 <= c <= zlen chunk /\
    ((zlen bs + zlen chunk < 68 /\ c = zlen chunk /\ at_start fin D r' (bs ++ chunk)) \/
     (c = 68 - zlen bs /\ 68 <= zlen bs + zlen chunk /\
      exists d, held d [] /\ setup_second_pass (rc2_init fin D) s = Some (set_des r' (des_init)) /\ w_des r' = d)).
Proof.
  intros (d & -> & Hd) Lb Vs (more & Str). pose proof (zlen_nonneg _ chunk). pose proof (zlen_nonneg _ bs).
  unfold twopass_parse_summary. change (w_des (set_ready (set_des (rc2_init fin D) d) false)) with d.
  destruct (fill_ok chunk d bs 68 Hd ltac:(lia)) as (d' & E & Hd'). rewrite E. cbn [fst snd]. cbv zeta.
  set (c := Z.min (68 - zlen bs) (zlen chunk)) in *.
  assert (Hc : 0 <= c <= zlen chunk) by (unfold c; lia).
  assert (L1 : zlen (bs ++ firstn (Z.to_nat c) chunk) = zlen bs + c) by (rewrite zlen_app, zlen_firstn by exact Hc; reflexivity).
  pose proof Hd' as (Fi & Le & rest & Eq). rewrite Fi, L1.
  destruct (Z.leb_spec 68 (zlen bs + c)) as [Full|Part].
  - assert (Sb : bs ++ firstn (Z.to_nat c) chunk = summary_bytes s).
    { assert (X : (bs ++ firstn (Z.to_nat c) chunk) ++ (skipn (Z.to_nat c) chunk ++ tail) = summary_bytes s ++ more).
      { rewrite <- Str, <- app_assoc. f_equal. rewrite app_assoc, firstn_skipn. reflexivity. }
      apply app_inj_len in X; [apply X|]. rewrite (summary_length s Vs). assert (X68 : zlen (bs ++ firstn (Z.to_nat c) chunk) = 68) by (unfold c in *; lia).
      unfold zlen in X68. lia. }
    assert (rest = []).
    { apply length_zero_iff_nil. rewrite Eq, zlen_app, L1 in Le. pose proof (zlen_nonneg _ rest). assert (X0 : zlen rest = 0) by lia. unfold zlen in X0. lia. }
    subst rest. rewrite app_nil_r, Sb in Eq. rewrite Eq.
    destruct (parse_summary_ok (summary_bytes s) (zlen bs + c) (summary_is_bytes s) (summary_length s Vs)) as (d2 & x & Ep & F2 & B2 & Px).
    rewrite Ep. cbn [fst snd]. destruct x as [u|s']; [exfalso; apply (Px s Vs); reflexivity|]. destruct Px as [Vs' Es].
    apply summary_inj in Es; [|assumption..]. subst s'.
    assert (T : total_i32 (s_nframes s) = Some (s_total s)).
    { destruct (vs_nframes s Vs) as [L5 N5]. destruct (vs_total s Vs) as [V1 V2]. pose proof (vs_ntus s Vs).
      pose proof (total_less (s_nframes s) [] L5 N5 ltac:(lia) ltac:(constructor) ltac:(rewrite zlen_nil; lia)) as T.
      rewrite zlen_nil, Z.sub_0_r, <- V1 in T. rewrite <- T. f_equal. rewrite (list5 _ L5) at 1.
      apply by_type_ext. intros i Hi. unfold less. change (count [] i) with 0. lia. }
    unfold setup_second_pass. rewrite T. eexists _, _. split; [reflexivity|]. split; [exact Hc|]. right.
    split; [unfold c in *; lia|]. split; [unfold c in *; lia|]. eexists. split; [|split; [reflexivity|reflexivity]].
    cbn. apply cleared. rewrite B2. unfold zlen. rewrite (summary_length s Vs). reflexivity.
  - assert (Ec : c = zlen chunk) by (unfold c in *; lia).
    eexists _, _. split; [reflexivity|]. split; [exact Hc|]. left. split; [lia|]. split; [exact Ec|].
    exists d'. split; [reflexivity|]. rewrite Ec, firstn_all2 in Hd' by (unfold zlen; lia). exact Hd'.
Qed.
