(** The second pass window is a queue. *)
From Verif Require Import Base LogExp_model Quant_model Quant_proof Quant_sel Quant_run Obu_proof Rate_model Rate_spec Rate_bytes Rate_summary.

(** ** The circular buffer *)
Lemma at_gen {A} (l : list A) i d : 0 <= i < zlen l -> at_ l i = Some (nth (Z.to_nat i) l d).
Proof. intros H. unfold at_. destruct (Z.leb_spec 0 i); [|lia]. apply nth_error_nth'. unfold zlen in H. lia. Qed.
Lemma put_gen {A} (l : list A) i v d : 0 <= i < zlen l ->
  exists l', put l i v = Some l' /\ zlen l' = zlen l /\ forall j, nth j l' d = if Nat.eqb j (Z.to_nat i) then v else nth j l d.
Proof.
  intros H. unfold put. destruct (Z.leb_spec 0 i); [|lia].
  destruct (set_nth_ok l (Z.to_nat i) v d) as (l' & A1 & B & C); [unfold zlen in H; lia|].
  exists l'. unfold zlen. rewrite B. auto.
Qed.
Lemma wrap cap a : 0 <= a < 2 * cap -> (if cap <=? a then a - cap else a) = a mod cap.
Proof.
  intros H. destruct (Z.leb_spec cap a).
  - rewrite <- (Z_mod_plus_full a (-1)). symmetry. rewrite Z.mod_small by lia. lia.
  - symmetry. apply Z.mod_small. lia.
Qed.
Lemma ring_length buf h n : 0 <= n -> zlen (ring buf h n) = n.
Proof. intros H. unfold ring, zlen. rewrite map_length, seq_length. lia. Qed.
Lemma ring_push buf h n m buf' : 0 <= h < zlen buf -> 0 <= n < zlen buf -> zlen buf' = zlen buf ->
  (forall j, nth j buf' no_metrics = if Nat.eqb j (Z.to_nat ((h + n) mod zlen buf)) then m else nth j buf no_metrics) ->
  ring buf' h (n + 1) = ring buf h n ++ [m].
Proof.
  intros Hh Hn L N. unfold ring. replace (Z.to_nat (n + 1)) with (Z.to_nat n + 1)%nat by lia.
  rewrite seq_app, map_app. cbn [seq map]. rewrite L. f_equal.
  - apply map_ext_in. intros k Hk. apply in_seq in Hk. rewrite N.
    destruct (Nat.eqb_spec (Z.to_nat ((h + Z.of_nat k) mod zlen buf)) (Z.to_nat ((h + n) mod zlen buf))) as [E|]; [|reflexivity].
    exfalso. rewrite <- !wrap in E by lia.
    destruct (Z.leb_spec (zlen buf) (h + Z.of_nat k)); destruct (Z.leb_spec (zlen buf) (h + n)); lia.
  - f_equal. rewrite N. rewrite Nat.add_0_l, Z2Nat.id by lia. rewrite Nat.eqb_refl. reflexivity.
Qed.
Lemma ring_pop buf h n : 0 <= h < zlen buf -> 0 < n <= zlen buf ->
  ring buf h n = nth (Z.to_nat h) buf no_metrics :: ring buf ((h + 1) mod zlen buf) (n - 1).
Proof.
  intros Hh Hn. unfold ring. replace (Z.to_nat n) with (S (Z.to_nat (n - 1))) by lia.
  cbn [seq map]. rewrite Z.add_0_r, (Z.mod_small h) by lia. f_equal.
  rewrite <- seq_shift, map_map. apply map_ext. intros k.
  rewrite Zplus_mod_idemp_l. do 3 f_equal. lia.
Qed.

(** ** Counts *)
Lemma count_app a b i : count (a ++ b) i = count a i + count b i.
Proof. unfold count, of_type. rewrite filter_app, zlen_app. reflexivity. Qed.
Lemma count_one m i : count [m] i = if m_fti m =? i then 1 else 0.
Proof. unfold count, of_type. cbn [filter]. destruct (m_fti m =? i); reflexivity. Qed.
Lemma count_nonneg l i : 0 <= count l i. Proof. apply zlen_nonneg. Qed.
Lemma count_cons m l i : count (m :: l) i = (if m_fti m =? i then 1 else 0) + count l i.
Proof. change (m :: l) with ([m] ++ l). rewrite count_app, count_one. reflexivity. Qed.
Lemma count_total l : Forall valid_metrics l -> count l 0 + count l 1 + count l 2 + count l 3 + count l 4 = zlen l.
Proof.
  induction 1 as [|m l V F IH]; [reflexivity|]. rewrite !count_cons, zlen_cons. destruct V as [V _].
  destruct (Z.eqb_spec (m_fti m) 0); destruct (Z.eqb_spec (m_fti m) 1); destruct (Z.eqb_spec (m_fti m) 2);
    destruct (Z.eqb_spec (m_fti m) 3); destruct (Z.eqb_spec (m_fti m) 4); lia.
Qed.
Lemma sum_app a b : sum (a ++ b) = sum a + sum b.
Proof. unfold sum. induction a; cbn [app fold_right]; lia. Qed.
Lemma scales_app f a b i : scales f (a ++ b) i = scales f a i + scales f b i.
Proof. unfold scales, of_type. rewrite filter_app, map_app, sum_app. reflexivity. Qed.
Lemma scales_one f m i : scales f [m] i = if m_fti m =? i then f (m_scale m) else 0.
Proof. unfold scales, of_type. cbn [filter]. destruct (m_fti m =? i); cbn [map sum fold_right]; lia. Qed.
Lemma scales_cons f m l i : scales f (m :: l) i = (if m_fti m =? i then f (m_scale m) else 0) + scales f l i.
Proof. change (m :: l) with ([m] ++ l). rewrite scales_app, scales_one. reflexivity. Qed.
Lemma shown_app a b : shown (a ++ b) = shown a + shown b.
Proof. unfold shown. rewrite filter_app, zlen_app. reflexivity. Qed.
Lemma shown_one m : shown [m] = b2z (m_show m).
Proof. unfold shown. cbn [filter]. destruct (m_show m); reflexivity. Qed.
Lemma shown_cons m l : shown (m :: l) = b2z (m_show m) + shown l.
Proof. change (m :: l) with ([m] ++ l). rewrite shown_app, shown_one. reflexivity. Qed.
Lemma shown_range l : 0 <= shown l <= zlen l.
Proof.
  induction l as [|m l IH]; [unfold shown; cbn; lia|]. rewrite shown_cons, zlen_cons. destruct (m_show m); cbn [b2z]; lia.
Qed.
Definition okm (f : Z -> Z) (m : metrics) : Prop := valid_metrics m /\ 0 <= f (m_scale m) <= 2 ^ 44.
Lemma okm_valid f l : Forall (okm f) l -> Forall valid_metrics l.
Proof. apply Forall_impl. intros m [V _]. exact V. Qed.
Lemma scales_range f l i : Forall (okm f) l -> 0 <= scales f l i <= zlen l * 2 ^ 44.
Proof.
  induction 1 as [|m l [V B] F IH]; [unfold scales; cbn; lia|]. rewrite scales_cons, zlen_cons.
  destruct (m_fti m =? i); lia.
Qed.

(** ** Vectors indexed by frame type *)
Lemma five (P : Z -> Prop) : P 0 -> P 1 -> P 2 -> P 3 -> P 4 -> forall t, 0 <= t <= 4 -> P t.
Proof. intros A B C D E t H. assert (t = 0 \/ t = 1 \/ t = 2 \/ t = 3 \/ t = 4) as [->|[->|[->|[->| ->]]]] by lia; assumption. Qed.
Lemma by_type_at g t : 0 <= t <= 4 -> at_ (by_type g) t = Some (g t).
Proof. revert t. apply five; reflexivity. Qed.
Lemma by_type_put g t v : 0 <= t <= 4 -> put (by_type g) t v = Some (by_type (fun i => if t =? i then v else g i)).
Proof. revert t. apply five; reflexivity. Qed.
Lemma by_coded_at g t : 0 <= t <= 4 -> t < 4 -> at_ (by_coded_type g) t = Some (g t).
Proof. revert t. apply (five (fun t => t < 4 -> at_ (by_coded_type g) t = Some (g t))); intros; try reflexivity. lia. Qed.
Lemma by_coded_put g t v : 0 <= t <= 4 -> t < 4 -> put (by_coded_type g) t v = Some (by_coded_type (fun i => if t =? i then v else g i)).
Proof.
  revert t. apply (five (fun t => t < 4 -> put (by_coded_type g) t v = Some (by_coded_type (fun i => if t =? i then v else g i))));
  intros; try reflexivity. lia.
Qed.
Lemma by_type_ext g h : (forall i, 0 <= i <= 4 -> g i = h i) -> by_type g = by_type h.
Proof. intros E. unfold by_type. rewrite !E by lia. reflexivity. Qed.
Lemma by_coded_ext g h : (forall i, 0 <= i < 4 -> g i = h i) -> by_coded_type g = by_coded_type h.
Proof. intros E. unfold by_coded_type. rewrite !E by lia. reflexivity. Qed.
Lemma total_by_type g : (forall k, In k [g 0; g 0 + g 1; g 0 + g 1 + g 2; g 0 + g 1 + g 2 + g 3; g 0 + g 1 + g 2 + g 3 + g 4] ->
  - 2 ^ 31 <= k < 2 ^ 31) -> total_i32 (by_type g) = Some (g 0 + g 1 + g 2 + g 3 + g 4).
Proof.
  intros H. unfold total_i32, by_type. cbn [fold_left]. rewrite Z.add_0_l.
  rewrite (i32c_ok (g 0)) by (apply H; cbn; auto). rewrite (i32c_ok (g 0 + g 1)) by (apply H; cbn; auto).
  rewrite (i32c_ok (g 0 + g 1 + g 2)) by (apply H; cbn; auto). rewrite (i32c_ok (g 0 + g 1 + g 2 + g 3)) by (apply H; cbn; auto 6).
  apply i32c_ok, H. cbn. auto 7.
Qed.
Lemma list5 (l : list Z) : length l = 5%nat -> l = by_type (fun i => nth (Z.to_nat i) l 0).
Proof. destruct l as [|a [|b [|c [|d [|e [|x l]]]]]]; intros H; try discriminate H. reflexivity. Qed.
Lemma list4 (l : list Z) : length l = 4%nat -> l = by_coded_type (fun i => nth (Z.to_nat i) l 0).
Proof. destruct l as [|a [|b [|c [|d [|e l]]]]]; intros H; try discriminate H. reflexivity. Qed.
Lemma sum5 g : sum (by_type g) = g 0 + g 1 + g 2 + g 3 + g 4. Proof. unfold sum, by_type. cbn [fold_right]. lia. Qed.
Lemma total_count l : Forall valid_metrics l -> zlen l < 2 ^ 31 -> total_i32 (by_type (count l)) = Some (zlen l).
Proof.
  intros F L. pose proof (count_total l F) as T.
  pose proof (count_nonneg l 0). pose proof (count_nonneg l 1). pose proof (count_nonneg l 2). pose proof (count_nonneg l 3). pose proof (count_nonneg l 4).
  rewrite total_by_type; [f_equal; lia|]. cbn [In]. intros k Hk. lia.
Qed.
Definition less (n : list Z) (l : list metrics) (i : Z) : Z := nth (Z.to_nat i) n 0 - count l i.
Lemma total_less n l : length n = 5%nat -> Forall (fun x => 0 <= x) n -> sum n < 2 ^ 31 -> Forall valid_metrics l -> zlen l < 2 ^ 31 ->
  total_i32 (by_type (less n l)) = Some (sum n - zlen l).
Proof.
  intros L N S F Z. pose proof (count_total l F) as T.
  pose proof (count_nonneg l 0). pose proof (count_nonneg l 1). pose proof (count_nonneg l 2). pose proof (count_nonneg l 3). pose proof (count_nonneg l 4).
  rewrite (list5 n L) in S. rewrite sum5 in S.
  assert (P : forall i, 0 <= i <= 4 -> 0 <= nth (Z.to_nat i) n 0).
  { intros i Hi. rewrite Forall_forall in N. apply N, nth_In. lia. }
  pose proof (P 0 ltac:(lia)). pose proof (P 1 ltac:(lia)). pose proof (P 2 ltac:(lia)). pose proof (P 3 ltac:(lia)). pose proof (P 4 ltac:(lia)).
  rewrite total_by_type; unfold less.
  - f_equal. rewrite (list5 n L) at 6. rewrite sum5. lia.
  - cbn [In]. intros k Hk. lia.
Qed.

(** ** Buffered bytes *)
(** the deserializer holds the bytes [bs] *)
Definition held (d : des) (bs : list Z) : Prop :=
  d_fill d = zlen bs /\ zlen (d_buf d) = 68 /\ exists rest, d_buf d = bs ++ rest.

Lemma fill_ok chunk : forall d bs goal, held d bs -> zlen bs <= goal <= 68 ->
  exists d', buffer_fill d chunk goal = Some (d', Z.min (goal - zlen bs) (zlen chunk)) /\
    held d' (bs ++ firstn (Z.to_nat (Z.min (goal - zlen bs) (zlen chunk))) chunk).
Proof.
  induction chunk as [|b chunk IH]; intros d bs goal (Fi & Le & rest & Eq) G.
  - cbn [buffer_fill]. exists d. rewrite zlen_nil. replace (Z.min (goal - zlen bs) 0) with 0 by lia. cbn [Z.to_nat firstn].
    rewrite app_nil_r. split; [reflexivity|]. split; [exact Fi|]. split; [exact Le|]. exists rest. exact Eq.
  - cbn [buffer_fill]. rewrite Fi. pose proof (zlen_nonneg _ chunk). pose proof (zlen_nonneg _ bs). rewrite zlen_cons.
    destruct (Z.ltb_spec (zlen bs) goal) as [Lt|Ge].
    + destruct rest as [|x rest]; [rewrite app_nil_r in Eq; rewrite Eq in Le; lia|].
      assert (P : put (d_buf d) (zlen bs) b = Some (bs ++ b :: rest)).
      { rewrite Eq. unfold put. destruct (Z.leb_spec 0 (zlen bs)); [|lia]. unfold zlen. rewrite Nat2Z.id.
        clear. induction bs as [|y bs IH]; cbn [length set_nth app]; [reflexivity|]. rewrite IH. reflexivity. }
      rewrite P.
      destruct (IH (Des (d_pos d) (zlen bs + 1) (bs ++ b :: rest)) (bs ++ [b]) goal) as (d' & E & Hd).
      { split; [cbn [d_fill]; rewrite zlen_app; reflexivity|]. cbn [d_buf]. split.
        - rewrite <- Le, Eq, !zlen_app, !zlen_cons. reflexivity.
        - exists rest. rewrite <- app_assoc. reflexivity. }
      { rewrite zlen_app. change (zlen [b]) with 1. lia. }
      rewrite E. cbn [fst snd]. exists d'. rewrite zlen_app in *. change (zlen [b]) with 1 in *.
      replace (Z.min (goal - zlen bs) (zlen chunk + 1)) with (Z.min (goal - (zlen bs + 1)) (zlen chunk) + 1) by lia.
      split; [reflexivity|]. replace (Z.to_nat (Z.min (goal - (zlen bs + 1)) (zlen chunk) + 1)) with (S (Z.to_nat (Z.min (goal - (zlen bs + 1)) (zlen chunk)))) by lia.
      cbn [firstn]. rewrite <- app_assoc in Hd. exact Hd.
    + exists d. replace (Z.min (goal - zlen bs) (zlen chunk + 1)) with 0 by lia. cbn [Z.to_nat firstn].
      rewrite app_nil_r. split; [reflexivity|]. split; [exact Fi|]. split; [exact Le|]. exists rest. exact Eq.
Qed.
Lemma cleared p b : zlen b = 68 -> held (Des p 0 b) [].
Proof. intros L. split; [reflexivity|]. split; [exact L|]. exists b. reflexivity. Qed.

(** the deserializer is stuck on eight bytes that are not a packet *)
Definition stuck (d : des) : Prop :=
  exists bs, held d bs /\ Forall byte bs /\ zlen bs = 8 /\ forall m, valid_metrics m -> packet_bytes m <> bs.

Lemma parse_held d bs : held d bs -> Forall byte bs -> zlen bs = 8 ->
  exists d' r, parse_metrics (Des 0 (d_fill d) (d_buf d)) = Some (d', r) /\ held d' bs /\
    match r with inr m => valid_metrics m /\ packet_bytes m = bs | inl _ => forall m, valid_metrics m -> packet_bytes m <> bs end.
Proof.
  intros (Fi & Le & rest & Eq) B L. rewrite Fi, Eq.
  destruct (parse_metrics_ok bs rest (zlen bs) B) as (d' & r & E & F' & B' & R); [unfold zlen in L; lia|lia|].
  exists d', r. split; [exact E|]. split; [|exact R]. split; [exact F'|]. split; [rewrite B', <- Eq; exact Le|]. exists rest. exact B'.
Qed.

Lemma stream_bytes rem : Forall byte (flat_map packet_bytes rem).
Proof. induction rem as [|m rem IH]; cbn [flat_map]; [constructor|]. apply Forall_app. split; [apply packet_is_bytes|exact IH]. Qed.
Lemma stream_len rem : zlen (flat_map packet_bytes rem) = 8 * zlen rem.
Proof.
  induction rem as [|m rem IH]; cbn [flat_map]; [reflexivity|]. rewrite zlen_app, IH, zlen_cons. unfold zlen at 1. rewrite packet_length. lia.
Qed.
Lemma zlen_firstn {A} (l : list A) c : 0 <= c <= zlen l -> zlen (firstn (Z.to_nat c) l) = c.
Proof. intros H. unfold zlen in *. rewrite firstn_length. lia. Qed.
Lemma zlen_skipn {A} (l : list A) c : 0 <= c <= zlen l -> zlen (skipn (Z.to_nat c) l) = zlen l - c.
Proof. intros H. unfold zlen in *. rewrite skipn_length. lia. Qed.

(** ** The window *)
Section Window.
Variables (f : Z -> Z) (s : summary) (D cap : Z).
Hypothesis Vs : valid_summary s.
Hypothesis Key : 0 < nth 0 (s_nframes s) 0.
Hypothesis HD : 1 <= D <= 131072.
Hypothesis Hcap : cap = 2 * D + 8.

Definition delay : Z := Z.min D (s_ntus s).
Definition need (popped q : list metrics) : Z := Z.min (Z.max (delay - shown q) 0) (s_total s - zlen popped - zlen q).

Record Win (r : rc2) (popped q : list metrics) : Prop := {
  W_cap : zlen (w_buf r) = cap;
  W_head : 0 <= w_head r < cap;
  W_n : w_n r = zlen q;
  W_fit : zlen q <= cap;
  W_ring : ring (w_buf r) (w_head r) (zlen q) = q;
  W_q : Forall (okm f) q;
  W_p : Forall (okm f) popped;
  W_nframes : w_nframes r = by_type (count q);
  W_sum : w_sum r = by_coded_type (scales f q);
  W_ntus : w_ntus r = shown q;
  W_left : w_left r = by_type (less (s_nframes s) popped);
  W_tleft : w_ntus_left r = s_ntus s - shown popped;
  W_total : w_total r = s_nframes s;
  W_tt : w_total_total r = s_total s;
  W_done : w_done r = zlen popped;
  W_room : zlen popped + zlen q <= s_total s;
  W_delay : w_delay r = delay
}.
(** When the window is ready the frame to encode is its first; when it is not,
    more data is needed or all frames are done.  [e]: how many frames may still be
    missing when it is ready. *)
Record Inv (e : Z) (r : rc2) (popped q : list metrics) : Prop := {
  I_win : Win r popped q;
  I_ready : w_ready r = true -> exists m q', q = m :: q' /\ w_cur r = m /\ need popped q <= e;
  I_not : w_ready r = false -> 0 < need popped q \/ zlen popped = s_total s
}.

Lemma total_bound : 1 <= s_ntus s <= s_total s /\ s_total s < 2 ^ 31 /\ sum (s_nframes s) = s_total s.
Proof. destruct (vs_ntus s Vs), (vs_total s Vs). lia. Qed.

Lemma is_finite r p q : Win r p q -> finite r = true.
Proof. intros W. pose proof (W_cap _ _ _ W) as C. unfold finite. destruct (w_buf r); [rewrite zlen_nil in C; lia|reflexivity]. Qed.

Lemma needed_ok r p q : Win r p q -> frames_needed r = Some (need p q) /\
  total_i32 (w_left r) = Some (s_total s - zlen p) /\ total_i32 (w_nframes r) = Some (zlen q).
Proof.
  intros W. destruct total_bound as (T1 & T2 & T3). pose proof (W_room _ _ _ W) as R. pose proof (zlen_nonneg _ p). pose proof (zlen_nonneg _ q).
  unfold frames_needed. rewrite (is_finite _ _ _ W). cbn [negb].
  rewrite (W_nframes _ _ _ W), (W_left _ _ _ W), (W_delay _ _ _ W), (W_ntus _ _ _ W).
  rewrite total_count by (try apply (okm_valid f), (W_q _ _ _ W); lia).
  destruct (vs_nframes s Vs) as [L5 N5].
  rewrite (total_less (s_nframes s) p) by (try assumption; try apply (okm_valid f), (W_p _ _ _ W); lia).
  rewrite T3. pose proof (shown_range q) as Sq. split; [|split; reflexivity].
  assert (1 <= delay < 2 ^ 31) by (unfold delay; lia).
  rewrite !i32c_ok by lia. unfold clampc. destruct (Z.ltb_spec (s_total s - zlen p - zlen q) 0); [lia|]. reflexivity.
Qed.

Lemma set_des_win r p q d : Win r p q -> Win (set_des r d) p q.
Proof. intros W. destruct W. constructor; assumption. Qed.
Lemma set_ready_win r p q b : Win r p q -> Win (set_ready r b) p q.
Proof. intros W. destruct W. constructor; assumption. Qed.
Lemma set_cur_win r p q m : Win r p q -> Win (set_cur r m) p q.
Proof. intros W. destruct W. constructor; assumption. Qed.

Lemma push_ok r p q m : Win r p q -> okm f m -> zlen p + zlen q < s_total s ->
  exists x, push f r m = Some x /\
    match x with
    | inl _ => zlen q = cap
    | inr r' => Win r' p (q ++ [m]) /\ zlen q < cap /\ w_des r' = w_des r /\ w_ready r' = w_ready r /\ w_cur r' = w_cur r
    end.
Proof.
  intros W [Vm Fm] Room. destruct total_bound as (T1 & T2 & T3). pose proof (zlen_nonneg _ p). pose proof (zlen_nonneg _ q).
  unfold push. rewrite (W_cap _ _ _ W), (W_n _ _ _ W). pose proof (W_fit _ _ _ W). pose proof (W_head _ _ _ W).
  destruct (Z.leb_spec cap (zlen q)); [eexists; split; [reflexivity|]; cbv beta iota; lia|].
  cbv zeta. rewrite wrap by lia. pose proof (Z.mod_pos_bound (w_head r + zlen q) cap ltac:(lia)) as M.
  destruct (put_gen (w_buf r) ((w_head r + zlen q) mod cap) m no_metrics) as (buf & Eb & Lb & Nb); [rewrite (W_cap _ _ _ W); exact M|].
  rewrite Eb, (W_nframes _ _ _ W), by_type_at by apply Vm.
  assert (C : 0 <= count q (m_fti m) <= zlen q).
  { unfold count. clear. induction q as [|x q IH]; [cbn; lia|]. unfold of_type in *. cbn [filter]. rewrite zlen_cons.
    destruct (m_fti x =? m_fti m); rewrite ?zlen_cons; lia. }
  rewrite i32c_ok by lia. rewrite by_type_put by apply Vm.
  pose proof (scales_range f q (m_fti m) (W_q _ _ _ W)) as Sr.
  set (sums := if m_fti m <? 4 then _ else _).
  assert (Es : sums = Some (by_coded_type (scales f (q ++ [m])))).
  { subst sums. rewrite (W_sum _ _ _ W). destruct (Z.ltb_spec (m_fti m) 4) as [Lt|Ge].
    - rewrite by_coded_at by (try apply Vm; assumption). rewrite i64c_ok by lia.
      rewrite by_coded_put by (try apply Vm; assumption). f_equal. apply by_coded_ext. intros i Hi.
      rewrite scales_app, scales_one. destruct (Z.eqb_spec (m_fti m) i) as [<-|]; lia.
    - f_equal. apply by_coded_ext. intros i Hi. rewrite scales_app, scales_one. destruct (Z.eqb_spec (m_fti m) i); lia. }
  rewrite Es. clear sums Es. rewrite (W_ntus _ _ _ W). pose proof (shown_range q) as Sh.
  set (ntus := if m_show m then _ else _).
  assert (En : ntus = Some (shown (q ++ [m]))).
  { subst ntus. rewrite shown_app, shown_one. destruct (m_show m); cbn [b2z]; [apply i32c_ok; lia|f_equal; lia]. }
  rewrite En. clear ntus En. eexists. split; [reflexivity|]. cbv beta iota.
  split; [|cbn; repeat split; auto; lia].
  constructor; cbn [w_des w_buf w_n w_head w_ready w_cur w_delay w_total w_total_total w_left w_ntus_left w_nframes w_sum w_ntus w_done];
    try apply W; rewrite ?zlen_app; change (zlen [m]) with 1; try lia.
  - rewrite Lb. apply W.
  - pose proof (W_ring _ _ _ W) as Rg. rewrite (ring_push (w_buf r) (w_head r) (zlen q) m buf).
    + rewrite Rg. reflexivity.
    + rewrite (W_cap _ _ _ W). lia.
    + rewrite (W_cap _ _ _ W). lia.
    + exact Lb.
    + rewrite (W_cap _ _ _ W). exact Nb.
  - apply Forall_app. split; [apply W|]. constructor; [split; assumption|constructor].
  - apply by_type_ext. intros i Hi. rewrite count_app, count_one. destruct (Z.eqb_spec (m_fti m) i) as [<-|]; lia.
  - reflexivity.
Qed.

(** the first frame of the window *)
Lemma head_ok r p q : Win r p q -> q <> [] -> at_ (w_buf r) (w_head r) = Some (hd no_metrics q).
Proof.
  intros W N. pose proof (W_head _ _ _ W). pose proof (W_cap _ _ _ W) as C. pose proof (W_ring _ _ _ W) as R. pose proof (W_fit _ _ _ W).
  assert (0 < zlen q) by (destruct q; [congruence|rewrite zlen_cons; pose proof (zlen_nonneg _ q); lia]).
  rewrite ring_pop in R by lia. rewrite <- R. cbn [hd]. apply at_gen. lia.
Qed.

Lemma need_room p q : 0 < need p q -> zlen p + zlen q < s_total s.
Proof. unfold need. lia. Qed.
Lemma need_push p q m : 0 < need p q -> need p q - 1 <= need p (q ++ [m]) <= need p q.
Proof.
  unfold need. rewrite shown_app, shown_one, zlen_app. change (zlen [m]) with 1. destruct (m_show m); cbn [b2z]; lia.
Qed.
Lemma need_nonneg r p q : Win r p q -> 0 <= need p q.
Proof. intros W. pose proof (W_room _ _ _ W). unfold need. lia. Qed.
Lemma need_done r p q : Win r p q -> zlen p < s_total s -> need p q = 0 -> q <> [].
Proof.
  intros W L N ->. unfold need in N. rewrite zlen_nil in N. change (shown []) with 0 in N.
  destruct total_bound as (T1 & _). unfold delay in N. lia.
Qed.

Lemma key_at r p q : Win r p q -> at_ (w_total r) 0 = Some (nth 0 (s_nframes s) 0).
Proof.
  intros W. rewrite (W_total _ _ _ W). apply (at_gen _ 0 0). destruct (vs_nframes s Vs) as [L _]. unfold zlen. lia.
Qed.

(** a query without data makes the window ready when it can be *)
Lemma ask_ok e r p q : 0 <= e -> Win r p q -> w_ready r = false ->
  exists r' v, twopass_in f r None = Some (r', Ok v) /\ Inv e r' p q /\ w_des r' = w_des r /\
    (v = if w_total_total r <=? w_done r then 0 else 8 * need p q - (if 0 <? need p q then d_fill (w_des r) else 0)).
Proof.
  intros He W Rd. unfold twopass_in. rewrite (key_at _ _ _ W). destruct (Z.eqb_spec (nth 0 (s_nframes s) 0) 0) as [|_]; [lia|].
  rewrite (key_at _ _ _ W). destruct (Z.ltb_spec 0 (nth 0 (s_nframes s) 0)) as [_|]; [|lia].
  rewrite (W_tt _ _ _ W), (W_done _ _ _ W).
  pose proof (W_room _ _ _ W) as Room. pose proof (zlen_nonneg _ q) as Q0.
  destruct (Z.leb_spec (s_total s) (zlen p)) as [Fin|Go].
  - eexists _, _. split; [reflexivity|]. split; [|split; reflexivity].
    constructor; [apply set_ready_win, W|discriminate|]. intros _. right. lia.
  - rewrite Rd. cbn [negb]. unfold parse_frame_data. rewrite (is_finite _ _ _ W). cbn [negb].
    destruct (needed_ok _ _ _ W) as (N1 & N2 & N3). rewrite N1, N2.
    pose proof (need_nonneg _ _ _ W) as Nn.
    destruct (Z.ltb_spec 0 (need p q)) as [Pos|Zero].
    + eexists _, _. split; [reflexivity|]. split; [|split; reflexivity].
      constructor; [exact W|congruence|]. auto.
    + pose proof (need_done _ _ _ W Go ltac:(lia)) as Ne. rewrite (head_ok _ _ _ W Ne).
      eexists _, _. split; [reflexivity|]. split; [|split; [reflexivity|lia]].
      constructor; [apply set_cur_win, W| |discriminate].
      intros _. destruct q as [|m q']; [congruence|]. exists m, q'. repeat split. lia.
Qed.

(** finishing a frame takes the first entry out of the window *)
Lemma pop_ok e r p m q : 0 <= e -> Inv e r p (m :: q) -> w_ready r = true ->
  w_cur r = m /\ exists r', pop f r = Some r' /\ Inv e r' (p ++ [m]) q /\ w_des r' = w_des r.
Proof.
  intros He [W I _] Rd. destruct (I Rd) as (m' & q' & E & Cur & _). injection E as <- <-. split; [exact Cur|].
  destruct total_bound as (T1 & T2 & T3). pose proof (zlen_nonneg _ p). pose proof (zlen_nonneg _ q).
  pose proof (W_room _ _ _ W) as Room. rewrite zlen_cons in Room.
  pose proof (Forall_inv (W_q _ _ _ W)) as [Vm Fm]. pose proof (Forall_inv_tail (W_q _ _ _ W)) as Fq.
  destruct (vs_nframes s Vs) as [L5 N5].
  unfold pop. rewrite Cur. cbv zeta. rewrite (W_done _ _ _ W), i64c_ok by lia.
  rewrite (W_left _ _ _ W), by_type_at by apply Vm.
  assert (CP : forall l, 0 <= count l (m_fti m) <= zlen l).
  { clear. intros l. unfold count. induction l as [|x l IH]; [cbn; lia|]. unfold of_type in *. cbn [filter]. rewrite zlen_cons.
    destruct (m_fti x =? m_fti m); rewrite ?zlen_cons; lia. }
  pose proof (CP p) as Cp. pose proof (CP q) as Cq. clear CP.
  assert (NB : 0 <= nth (Z.to_nat (m_fti m)) (s_nframes s) 0 <= s_total s).
  { rewrite <- T3. clear - L5 N5 Vm. destruct Vm as [Vm _].
    revert Vm. generalize (m_fti m). destruct (s_nframes s) as [|a [|b [|c [|d [|e [|x l]]]]]]; try discriminate L5.
    apply Forall_cons_iff in N5 as [A N5]. apply Forall_cons_iff in N5 as [B N5]. apply Forall_cons_iff in N5 as [C N5].
    apply Forall_cons_iff in N5 as [Dd N5]. apply Forall_cons_iff in N5 as [E _]. unfold sum. cbn [fold_right].
    intros t Ht. assert (t = 0 \/ t = 1 \/ t = 2 \/ t = 3 \/ t = 4) as [->|[->|[->|[->| ->]]]] by lia; simpl nth; lia. }
  unfold less at 1. rewrite i32c_ok by lia. rewrite by_type_put by apply Vm.
  rewrite (W_nframes _ _ _ W), by_type_at by apply Vm. rewrite count_cons, Z.eqb_refl. rewrite i32c_ok by lia.
  rewrite by_type_put by apply Vm.
  pose proof (scales_range f q (m_fti m) Fq) as Sr. pose proof (W_fit _ _ _ W) as Fit. rewrite zlen_cons in Fit.
  set (sums := if m_fti m <? 4 then _ else _).
  assert (Es : sums = Some (by_coded_type (scales f q))).
  { subst sums. rewrite (W_sum _ _ _ W). destruct (Z.ltb_spec (m_fti m) 4) as [Lt|Ge].
    - rewrite by_coded_at by (try apply Vm; assumption). rewrite scales_cons, Z.eqb_refl, i64c_ok by lia.
      rewrite by_coded_put by (try apply Vm; assumption). f_equal. apply by_coded_ext. intros i Hi.
      rewrite scales_cons. destruct (Z.eqb_spec (m_fti m) i) as [<-|]; lia.
    - f_equal. apply by_coded_ext. intros i Hi. rewrite scales_cons. destruct (Z.eqb_spec (m_fti m) i); lia. }
  rewrite Es. clear sums Es. pose proof (shown_range q) as Sh. pose proof (shown_range p) as Shp.
  set (nt := if m_show m then _ else _).
  assert (En : nt = Some (s_ntus s - shown (p ++ [m]), shown q)).
  { subst nt. rewrite (W_ntus _ _ _ W), (W_tleft _ _ _ W), shown_cons, shown_app, shown_one.
    destruct (m_show m); cbn [b2z]; rewrite ?i32c_ok by lia; f_equal; f_equal; lia. }
  rewrite En. clear nt En. rewrite (is_finite _ _ _ W), (W_n _ _ _ W), zlen_cons, (W_cap _ _ _ W).
  destruct (Z.leb_spec (zlen q + 1) 0); [lia|]. cbn [fst snd].
  pose proof (W_head _ _ _ W) as Hh.
  set (head := if cap <=? w_head r + 1 then _ else _).
  assert (Eh : head = (w_head r + 1) mod cap).
  { subst head. rewrite <- wrap by lia. destruct (Z.leb_spec cap (w_head r + 1)); lia. }
  clearbody head.
  match goal with |- exists r', (do x <- twopass_in f ?y None; _) = _ /\ _ => set (r1 := y) end.
  assert (W1 : Win r1 (p ++ [m]) q).
  { pose proof (W_ring _ _ _ W) as Rg. rewrite zlen_cons, ring_pop in Rg by (rewrite (W_cap _ _ _ W); lia).
    injection Rg as R1 R2. rewrite (W_cap _ _ _ W) in R2.
    subst r1. constructor; cbn [w_des w_buf w_n w_head w_ready w_cur w_delay w_total w_total_total w_left w_ntus_left w_nframes w_sum w_ntus w_done];
      try apply W; rewrite ?zlen_app; change (zlen [m]) with 1; try lia.
    - subst head. replace (zlen q + 1 - 1) with (zlen q) in R2 by lia. exact R2.
    - exact Fq.
    - apply Forall_app. split; [apply W|]. constructor; [split; assumption|constructor].
    - apply by_type_ext. intros i Hi. rewrite count_cons. destruct (Z.eqb_spec (m_fti m) i) as [<-|]; lia.
    - reflexivity.
    - apply by_type_ext. intros i Hi. unfold less. rewrite count_app, count_one. destruct (Z.eqb_spec (m_fti m) i) as [<-|]; lia. }
  destruct (ask_ok e r1 (p ++ [m]) q He W1 eq_refl) as (r' & v & E & I' & De & _). rewrite E. exists r'. auto.
Qed.

(** ** Packets one at a time *)
Lemma inv_set_des e r p q d : Inv e r p q -> Inv e (set_des r d) p q.
Proof. intros [W I N]. constructor; [apply set_des_win, W|exact I|exact N]. Qed.

Lemma stuck_packet r buf : stuck (w_des r) -> exists r' , parse_packet f r buf = Some (r', Err) /\ (r' = r \/ exists d, r' = set_des r d /\ stuck d).
Proof.
  intros (bs & Hd & B & L & No). unfold parse_packet. destruct (Z.eqb_spec (zlen buf) 8) as [L8|]; cbn [negb]; [|eauto].
  destruct (fill_ok buf _ bs 8 Hd ltac:(lia)) as (d' & E & Hd'). rewrite E. cbn [fst]. cbv zeta.
  replace (Z.min (8 - zlen bs) (zlen buf)) with 0 in Hd' by lia. cbn [Z.to_nat firstn] in Hd'. rewrite app_nil_r in Hd'.
  destruct (parse_held _ _ Hd' B L) as (d'' & r1 & E' & Hd'' & R). rewrite E'. cbn [fst snd].
  destruct r1 as [u|m]; [|exfalso; destruct R as [V Q]; apply (No m V Q)].
  eexists. split; [reflexivity|]. right. exists d''. split; [reflexivity|]. exists bs. auto.
Qed.

Lemma packet_ok r p q buf : Inv 1 r p q -> held (w_des r) [] -> Forall byte buf ->
  (forall m, valid_metrics m -> packet_bytes m = buf -> 0 <= f (m_scale m) <= 2 ^ 44) ->
  exists r' res, parse_packet f r buf = Some (r', res) /\
    ((exists m, okm f m /\ packet_bytes m = buf /\
        (if (0 <? need p q) && (zlen q <? cap) then res = Ok 0 /\ Inv 1 r' p (q ++ [m]) else res = Err /\ Inv 1 r' p q) /\ held (w_des r') []) \/
     (res = Err /\ (forall m, valid_metrics m -> packet_bytes m <> buf) /\ Inv 1 r' p q /\
        (if zlen buf =? 8 then stuck (w_des r') else held (w_des r') []))).
Proof.
  intros I Hd B Hf. unfold parse_packet. destruct (Z.eqb_spec (zlen buf) 8) as [L8|N8]; cbn [negb].
  2: { eexists _, _. split; [reflexivity|]. right. split; [reflexivity|]. split; [|split; [exact I|exact Hd]].
       intros m _ E. apply N8. rewrite <- E. unfold zlen. rewrite packet_length. reflexivity. }
  destruct (fill_ok buf _ [] 8 Hd ltac:(rewrite zlen_nil; lia)) as (d' & E & Hd'). rewrite E. cbn [fst]. cbv zeta.
  rewrite zlen_nil, L8 in Hd'. change (Z.to_nat (Z.min (8 - 0) 8)) with 8%nat in Hd'. cbn [app] in Hd'.
  rewrite firstn_all2 in Hd' by (unfold zlen in L8; lia).
  destruct (parse_held _ _ Hd' B L8) as (d'' & r1 & E' & Hd'' & R). rewrite E'. cbn [fst snd].
  destruct r1 as [u|m].
  { eexists _, _. split; [reflexivity|]. right. split; [reflexivity|]. split; [exact R|]. split; [apply inv_set_des, I|].
    exists buf. auto. }
  destruct R as [V Em]. assert (Om : okm f m) by (split; auto).
  set (r1 := set_des r _). assert (I1 : Inv 1 r1 p q) by apply inv_set_des, I.
  assert (H1 : held (w_des r1) []). { cbn. apply cleared. destruct Hd'' as (_ & L & _). exact L. }
  clearbody r1. rewrite (is_finite _ _ _ (I_win _ _ _ _ I1)). cbn [negb].
  destruct (needed_ok _ _ _ (I_win _ _ _ _ I1)) as (N1 & _ & _). rewrite N1.
  pose proof (W_fit _ _ _ (I_win _ _ _ _ I1)) as Fit.
  destruct (Z.ltb_spec 0 (need p q)) as [Pos|Zero]; cbn [andb].
  2: { eexists _, _. split; [reflexivity|]. left. exists m. auto. }
  destruct (push_ok _ _ _ m (I_win _ _ _ _ I1) Om (need_room _ _ Pos)) as (x & Ex & Px). rewrite Ex.
  destruct x as [u|r2].
  { rewrite Px, Z.ltb_irrefl. eexists _, _. split; [reflexivity|]. left. exists m. auto. }
  destruct Px as (W2 & Lt & De & Re & Cu). destruct (Z.ltb_spec (zlen q) cap); [|lia].
  destruct (Z.eqb_spec (need p q) 1) as [One|Many].
  - pose proof (need_push p q m Pos) as NP. rewrite (head_ok _ _ _ W2) by (intro X; apply app_eq_nil in X; destruct X; discriminate).
    eexists _, _. split; [reflexivity|]. left. exists m. split; [exact Om|]. split; [exact Em|]. split; [split; [reflexivity|]|cbn [set_cur w_des]; rewrite De; exact H1].
    constructor; [apply set_cur_win, W2| |discriminate]. intros _.
    destruct (q ++ [m]) as [|a l] eqn:Ea; [apply app_eq_nil in Ea; destruct Ea; discriminate|].
    exists a, l. split; [reflexivity|]. split; [reflexivity|]. lia.
  - eexists _, _. split; [reflexivity|]. left. exists m. split; [exact Om|]. split; [exact Em|]. split; [split; [reflexivity|]|rewrite De; exact H1].
    pose proof (need_push p q m Pos) as NP. constructor; [exact W2| |].
    + intros Rd. rewrite Re in Rd. destruct (I_ready _ _ _ _ I1 Rd) as (a & l & Q1 & Q2 & Q3). lia.
    + intros _. left. lia.
Qed.

(** ** A stream of bytes *)
Lemma loop_ok tail p : forall fuel chunk r q rem bs c0, Win r p q -> Forall (okm f) rem ->
  zlen p + zlen q + zlen rem = s_total s -> held (w_des r) bs -> zlen bs < 8 ->
  bs ++ chunk ++ tail = flat_map packet_bytes rem -> (length chunk < fuel)%nat ->
  exists r' x, parse_loop f fuel (s_total s - zlen p) r chunk c0 (need p q) = Some (r', x) /\
    match x with
    | inl _ => exists taken rem', rem = taken ++ rem' /\ zlen (q ++ taken) = cap /\ 0 < need p (q ++ taken)
    | inr (c', nd) => exists taken rem' bs', rem = taken ++ rem' /\ Win r' p (q ++ taken) /\ held (w_des r') bs' /\ zlen bs' < 8 /\
        c0 <= c' <= c0 + zlen chunk /\ bs' ++ skipn (Z.to_nat (c' - c0)) chunk ++ tail = flat_map packet_bytes rem' /\
        nd = need p (q ++ taken) /\ (nd = 0 \/ c' = c0 + zlen chunk) /\
        c' - c0 <= 8 * zlen rem - zlen bs /\ w_ready r' = w_ready r
    end.
Proof.
  induction fuel as [|fuel IH]; intros chunk r q rem bs c0 W Frem Tot Hd Lb Str Fuel; [lia|].
  pose proof (zlen_nonneg _ chunk) as C0. pose proof (zlen_nonneg _ bs) as B0. pose proof (need_nonneg _ _ _ W) as Nn.
  pose proof (f_equal (@zlen Z) Str) as SL. rewrite !zlen_app, stream_len in SL. pose proof (zlen_nonneg _ tail) as T0.
  cbn [parse_loop]. destruct (Z.ltb_spec 0 (need p q)) as [Pos|Zero].
  2: { eexists _, _. split; [reflexivity|]. cbv beta iota. exists [], rem, bs. rewrite app_nil_r, Z.sub_diag. cbn [Z.to_nat skipn app].
       repeat (split; [first [assumption|reflexivity|lia]|]). first [assumption|reflexivity|lia]. }
  destruct (fill_ok chunk _ bs 8 Hd ltac:(lia)) as (d' & E & Hd'). rewrite E. cbn [fst snd]. cbv zeta.
  set (c := Z.min (8 - zlen bs) (zlen chunk)) in *.
  assert (Hc : 0 <= c <= zlen chunk) by (unfold c; lia).
  set (bs1 := bs ++ firstn (Z.to_nat c) chunk) in *.
  assert (L1 : zlen bs1 = zlen bs + c) by (unfold bs1; rewrite zlen_app, zlen_firstn by exact Hc; reflexivity).
  assert (Str1 : bs1 ++ skipn (Z.to_nat c) chunk ++ tail = flat_map packet_bytes rem).
  { unfold bs1. rewrite <- Str, <- app_assoc. f_equal. rewrite app_assoc, firstn_skipn. reflexivity. }
  assert (By : Forall byte bs1). { pose proof (stream_bytes rem) as X. rewrite <- Str1 in X. apply Forall_app in X. apply X. }
  destruct Hd' as (Fi & Rest). rewrite Fi, L1.
  destruct (Z.leb_spec 8 (zlen bs + c)) as [Full|Part].
  - assert (Full' : zlen bs1 = 8) by (unfold c in *; lia). clear Full.
    destruct (parse_held d' bs1 (conj Fi Rest) By Full') as (d2 & r1 & Ep & Hd2 & R).
    rewrite Fi, L1 in Ep. rewrite Ep. cbn [fst snd].
    destruct rem as [|m rem]. { exfalso. pose proof (need_room _ _ Pos). rewrite zlen_nil in Tot. lia. }
    cbn [flat_map] in Str1. apply app_inj_len in Str1; [|rewrite packet_length; unfold zlen in Full'; lia]. destruct Str1 as [Eb Str1].
    pose proof (Forall_inv Frem) as Om. pose proof (Forall_inv_tail Frem) as Frem'.
    destruct r1 as [u|m']; [exfalso; apply (R m (proj1 Om)); auto|]. destruct R as [V Em].
    assert (m' = m) by (apply packet_inj; [exact V|apply Om|congruence]). subst m'.
    destruct (push_ok _ _ _ m (set_des_win _ _ _ d2 W) Om (need_room _ _ Pos)) as (x & Ex & Px). rewrite Ex.
    destruct x as [u|r2].
    { eexists _, _. split; [reflexivity|]. cbv beta iota. exists [], (m :: rem). rewrite app_nil_r. auto. }
    destruct Px as (W2 & Lt & De & Re & Cu).
    destruct (needed_ok _ _ _ W2) as (N1 & N2 & N3). rewrite N3.
    destruct total_bound as (T1 & T2 & T3). pose proof (W_room _ _ _ W2) as Room2. pose proof (zlen_nonneg _ p). pose proof (zlen_nonneg _ (q ++ [m])).
    rewrite (W_delay _ _ _ W2), (W_ntus _ _ _ W2). pose proof (shown_range (q ++ [m])).
    assert (1 <= delay < 2 ^ 31) by (unfold delay; lia).
    rewrite !i32c_ok by lia. unfold clampc. destruct (Z.ltb_spec (s_total s - zlen p - zlen (q ++ [m])) 0) as [|_]; [lia|].
    change (Z.min (Z.max (delay - shown (q ++ [m])) 0) (s_total s - zlen p - zlen (q ++ [m]))) with (need p (q ++ [m])).
    rewrite De. cbn [set_des w_des].
    set (r3 := set_des r2 _).
    assert (H3 : held (w_des r3) []). { cbn. apply cleared. destruct Hd2 as (_ & L & _). exact L. }
    assert (W3 : Win r3 p (q ++ [m])) by apply set_des_win, W2.
    assert (R3 : w_ready r3 = w_ready r) by (cbn; rewrite Re; reflexivity). clearbody r3.
    assert (C1 : 1 <= c) by lia. rewrite zlen_cons in Tot, SL.
    destruct (IH (skipn (Z.to_nat c) chunk) r3 (q ++ [m]) rem [] (c0 + c) W3 Frem') as (r' & y & Ey & Py).
    + rewrite zlen_app. change (zlen [m]) with 1. lia.
    + exact H3.
    + rewrite zlen_nil. lia.
    + exact Str1.
    + rewrite skipn_length. assert (Lc : 1 <= Z.of_nat (length chunk)) by (fold (zlen chunk); lia). clear - Lc C1 Fuel. lia.
    + rewrite Ey. eexists _, _. split; [reflexivity|]. destruct y as [u|[c' nd]].
      * destruct Py as (taken & rem' & E1 & E2 & E3). exists (m :: taken), rem'. rewrite <- app_assoc in E2, E3. cbn [app] in E2, E3.
        split; [cbn [app]; congruence|]. auto.
      * destruct Py as (taken & rem' & bs' & E1 & E2 & E3 & E4 & E5 & E6 & E7 & E8 & E9 & E10).
        exists (m :: taken), rem', bs'. rewrite <- app_assoc in E2, E7. cbn [app] in E2, E7.
        rewrite zlen_skipn in E5, E8 by exact Hc. rewrite zlen_nil in E9. rewrite zlen_cons.
        split; [cbn [app]; congruence|]. split; [exact E2|]. split; [exact E3|]. split; [exact E4|]. split; [lia|].
        split; [|split; [exact E7|split; [lia|split; [lia|congruence]]]].
        rewrite <- E6. f_equal. f_equal. rewrite skipn_skipn. f_equal. lia.
  - eexists _, _. split; [reflexivity|]. cbv beta iota.
    assert (Ec : c = zlen chunk) by (unfold c in *; lia).
    exists [], rem, bs1. rewrite app_nil_r.
    split; [reflexivity|]. split; [apply set_des_win, W|]. split; [split; [exact Fi|exact Rest]|]. split; [lia|]. split; [lia|].
    split; [|split; [reflexivity|split; [lia|split; [lia|reflexivity]]]].
    replace (c0 + c - c0) with c by lia. exact Str1.
Qed.

(** What one call with data does in the middle of the stream. *)
Lemma feed_ok chunk tail r p q rem bs c0 : Inv 0 r p q -> Forall (okm f) rem ->
  zlen p + zlen q + zlen rem = s_total s -> held (w_des r) bs -> zlen bs < 8 ->
  bs ++ chunk ++ tail = flat_map packet_bytes rem -> w_ready r = false -> zlen p < s_total s ->
  forall buf, skipn (Z.to_nat c0) buf = chunk ->
  exists r' x, parse_frame_data f r (Some buf) c0 = Some (r', x) /\
    match x with
    | Err => exists taken rem', rem = taken ++ rem' /\ zlen (q ++ taken) = cap /\ 0 < need p (q ++ taken)
    | Ok c' => exists taken rem' bs', rem = taken ++ rem' /\ Inv 0 r' p (q ++ taken) /\ held (w_des r') bs' /\ zlen bs' < 8 /\
        c0 <= c' <= c0 + zlen chunk /\ bs' ++ skipn (Z.to_nat (c' - c0)) chunk ++ tail = flat_map packet_bytes rem' /\
        (w_ready r' = true \/ c' = c0 + zlen chunk)
    end.
Proof.
  intros I Frem Tot Hd Lb Str Rd Go buf Eb. pose proof (I_win _ _ _ _ I) as W.
  unfold parse_frame_data. rewrite (is_finite _ _ _ W). cbn [negb].
  destruct (needed_ok _ _ _ W) as (N1 & N2 & N3). rewrite N1, N2. cbv zeta. rewrite Eb.
  destruct (loop_ok tail p (S (S (length chunk))) chunk r q rem bs c0 W Frem Tot Hd Lb Str ltac:(lia)) as (r' & x & E & P).
  rewrite E. destruct x as [u|[c' nd]]; [eexists _, _; split; [reflexivity|exact P]|].
  destruct P as (taken & rem' & bs' & E1 & W' & E3 & E4 & E5 & E6 & E7 & E8 & E9 & E10).
  pose proof (need_nonneg _ _ _ W') as Nn. rewrite <- E7 in Nn.
  destruct (Z.leb_spec nd 0) as [Zero|Pos].
  - assert (Ne : q ++ taken <> []) by (apply (need_done _ _ _ W' Go); lia).
    rewrite (head_ok _ _ _ W' Ne). eexists _, _. split; [reflexivity|]. cbv beta iota.
    exists taken, rem', bs'. split; [exact E1|]. split; [|repeat (split; [assumption|]); auto].
    constructor; [apply set_cur_win, W'| |discriminate]. intros _. destruct (q ++ taken) as [|a l] eqn:Ea; [congruence|].
    exists a, l. split; [reflexivity|]. split; [reflexivity|]. lia.
  - eexists _, _. split; [reflexivity|]. cbv beta iota. exists taken, rem', bs'. split; [exact E1|].
    split; [|repeat (split; [assumption|]); right; destruct E8; [lia|assumption]].
    constructor; [exact W'|rewrite E10, Rd; discriminate|]. intros _. left. lia.
Qed.
End Window.
