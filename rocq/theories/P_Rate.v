(** Two-pass rate control data: C28, C29. *)
From Verif Require Import Base LogExp_model Quant_model Quant_proof Quant_sel Quant_run Obu_proof Rate_model Rate_spec Rate_bytes Rate_summary Rate_window Rate_stream Rate_run.

(** ** The byte interface *)
(** A caller has the bytes of a first pass and in any order offers the next [k]
    of them, or lets the encoder finish a frame when rate control is ready
    (api/internal.rs:1273-1295). *)
Inductive event := Feed (k : nat) | Frame.
Inductive outcome := Taken (n : Z) | Failed | Coded (m : metrics) | NotReady.
Definition act (f : Z -> Z) (st : rc2 * list Z) (e : event) : option (rc2 * list Z * outcome) :=
  let (r, rest) := st in
  match e with
  | Feed k =>
      do x <- twopass_in f r (Some (firstn k rest));
      match snd x with
      | Err => Some (fst x, rest, Failed)
      | Ok n => Some (fst x, skipn (Z.to_nat n) rest, Taken n)
      end
  | Frame => if w_ready r then do r' <- pop f r; Some (r', rest, Coded (w_cur r)) else Some (r, rest, NotReady)
  end.
Fixpoint play (f : Z -> Z) (st : rc2 * list Z) (evs : list event) : option (rc2 * list Z * list outcome) :=
  match evs with
  | [] => Some (st, [])
  | e :: evs => do x <- act f st e; do y <- play f (fst x) evs; Some (fst y, snd x :: snd y)
  end.
(** the statistics used for the frames finished *)
Definition coded (outs : list outcome) : list metrics :=
  flat_map (fun o => match o with Coded m => [m] | _ => [] end) outs.

(** a first pass within the limits of its counters, with a key frame and a shown frame *)
Definition honest (f : Z -> Z) (exps : list Z) (ms : list metrics) : Prop :=
  valid_summary (summary_of f exps ms) /\ Forall (okm f) ms /\ 0 < count ms 0 /\ zlen ms < 2 ^ 31 - 1.
(** a window of the size the encoder allocates always covers enough shown frames *)
Definition dense (D : Z) (ms : list metrics) : Prop :=
  forall a b c, ms = a ++ b ++ c -> zlen b = 2 * D + 8 -> Z.min D (shown ms) <= shown b.

Lemma play_ok f ms exps fin D evs : honest f exps ms -> 1 <= D <= 131072 -> (fin = true -> dense D ms) ->
  forall r rest used, (used = [] /\ Start f ms exps fin D r rest) \/ Live f ms exps fin D r rest used ->
  exists r' rest' outs, play f (r, rest) evs = Some (r', rest', outs) /\ ~ In Failed outs /\
    ((used = [] /\ coded outs = [] /\ Start f ms exps fin D r' rest') \/ Live f ms exps fin D r' rest' (used ++ coded outs)).
Proof.
  intros (Vs & Hok & Key & Len) HD Dn. induction evs as [|e evs IH]; intros r rest used St.
  - exists r, rest, []. split; [reflexivity|]. split; [auto|]. cbn [coded flat_map app]. rewrite ?app_nil_r. destruct St as [[A B]|B]; auto.
  - assert (Hact : exists r' rest' o, act f (r, rest) e = Some (r', rest', o) /\ o <> Failed /\
        ((used = [] /\ coded [o] = [] /\ Start f ms exps fin D r' rest') \/ Live f ms exps fin D r' rest' (used ++ coded [o]))).
    { destruct e as [k|]; unfold act.
      - destruct St as [[-> St]|L].
        + destruct (start_feed f ms exps fin D Vs Hok Key HD Dn r rest k St) as (r' & c & E & Hc & P & _). rewrite E. cbn [fst snd].
          eexists _, _, _. split; [reflexivity|]. split; [discriminate|]. cbn [coded flat_map app]. rewrite ?app_nil_r. destruct P; auto.
        + destruct (live_feed f ms exps fin D Vs Hok Key HD Dn r rest used k L) as (r' & c & E & Hc & L' & _). rewrite E. cbn [fst snd].
          eexists _, _, _. split; [reflexivity|]. split; [discriminate|]. right. cbn [coded flat_map app]. rewrite ?app_nil_r. exact L'.
      - destruct (w_ready r) eqn:Rd.
        + destruct St as [[-> (bs & (d & -> & _) & _)]|L]; [discriminate Rd|].
          destruct (live_pop f ms exps fin D Vs Hok Key HD Dn r rest used L Rd) as (r' & E & L'). rewrite E.
          eexists _, _, _. split; [reflexivity|]. split; [discriminate|]. right. exact L'.
        + eexists _, _, _. split; [reflexivity|]. split; [discriminate|]. cbn [coded flat_map app]. rewrite ?app_nil_r. destruct St as [[A B]|B]; [left|right; exact B]. split; [exact A|]. split; [reflexivity|exact B]. }
    destruct Hact as (r1 & rest1 & o & Ea & No & P1). cbn [play]. rewrite Ea. cbn [fst snd].
    destruct (IH r1 rest1 (used ++ coded [o])) as (r2 & rest2 & outs & Ep & Nf & P2).
    { destruct P1 as [(A & B & C)|C]; [left; rewrite A, B; auto|auto]. }
    rewrite Ep. cbn [fst snd]. exists r2, rest2, (o :: outs). split; [reflexivity|].
    split; [intros [X|X]; [congruence|auto]|].
    assert (Cd : coded (o :: outs) = coded [o] ++ coded outs) by (unfold coded; cbn [flat_map]; rewrite app_nil_r; reflexivity).
    rewrite Cd, app_assoc. destruct P2 as [(A & B & C)|C]; [|auto].
    left. apply app_eq_nil in A as [A1 A2]. rewrite A2, B. auto.
Qed.

Lemma start_state f ms exps fin D pk p : honest f exps ms -> run_pass1 f pass1_init 0 ms = Some (p, pk) ->
  Start f ms exps fin D (rc2_init fin D) (emit_summary p exps ++ concat pk).
Proof.
  intros (Vs & Hok & Key & Len) E.
  pose proof (pass1_ok f ms [] Hok ltac:(exact Len)) as P. rewrite zlen_nil in P. change (stats f []) with pass1_init in P.
  rewrite P in E.
  - injection E as <- <-. exists []. split; [exists des_init; split; [reflexivity|apply cleared; reflexivity]|]. split; [rewrite zlen_nil; lia|].
    cbn [app]. rewrite emit_summary_ok. f_equal. symmetry. apply flat_map_concat_map.
  - intros i Hi. destruct (vs_sum _ Vs) as [_ X]. rewrite Forall_forall in X. apply X. unfold summary_of, by_coded_type. cbn [s_sum app].
    assert (i = 0 \/ i = 1 \/ i = 2 \/ i = 3) as [->|[->|[->| ->]]] by lia; cbn [In]; auto.
Qed.
Lemma pass1_runs f ms exps : honest f exps ms -> exists p pk, run_pass1 f pass1_init 0 ms = Some (p, pk).
Proof.
  intros (Vs & Hok & Key & Len). pose proof (pass1_ok f ms [] Hok ltac:(exact Len)) as P. rewrite zlen_nil in P. change (stats f []) with pass1_init in P.
  eexists _, _. apply P. intros i Hi. destruct (vs_sum _ Vs) as [_ X]. rewrite Forall_forall in X. apply X. unfold summary_of, by_coded_type. cbn [s_sum app].
  assert (i = 0 \/ i = 1 \/ i = 2 \/ i = 3) as [->|[->|[->| ->]]] by lia; cbn [In]; auto.
Qed.

(** C28: however the output of a first pass is cut up and whenever frames are
    finished, nothing is rejected, the second pass uses the statistics of the
    first pass in order, and it only lacks data while data remains. *)
Theorem C28_two_pass f ms exps fin D : honest f exps ms -> 1 <= D <= 131072 -> (fin = true -> dense D ms) ->
  exists p pk, run_pass1 f pass1_init 0 ms = Some (p, pk) /\
  forall evs, exists r rest outs,
    play f (rc2_init fin D, emit_summary p exps ++ concat pk) evs = Some (r, rest, outs) /\
    ~ In Failed outs /\
    (exists more, ms = coded outs ++ more) /\
    (w_ready r = true -> exists more, ms = coded outs ++ w_cur r :: more) /\
    (coded outs <> ms -> w_ready r = false ->
       rest <> [] /\ forall k, k <> 0%nat -> exists r' n, twopass_in f r (Some (firstn k rest)) = Some (r', Ok n) /\ 1 <= n).
Proof.
  intros H HD Dn. destruct (pass1_runs f ms exps H) as (p & pk & E). exists p, pk. split; [exact E|]. intros evs.
  destruct (play_ok f ms exps fin D evs H HD Dn (rc2_init fin D) (emit_summary p exps ++ concat pk) []) as (r & rest & outs & Ep & Nf & St).
  { left. split; [reflexivity|]. apply (start_state f ms exps fin D pk p H E). }
  exists r, rest, outs. split; [exact Ep|]. split; [exact Nf|]. cbn [app] in St.
  destruct H as (Vs & Hok & Key & Len). assert (NE : forall (k : nat) (l : list Z), k <> 0%nat -> l <> [] -> firstn k l <> []).
  { intros [|k] [|x l]; try congruence. discriminate. }
  destruct St as [(_ & Cn & St)|L].
  - rewrite Cn. split; [exists ms; reflexivity|]. pose proof St as (bs & (d & -> & Hd) & Lb & Sb). split; [discriminate|]. intros _ _.
    assert (Nr : rest <> []).
    { intros ->. rewrite app_nil_r in Sb. apply (f_equal (@zlen Z)) in Sb. rewrite zlen_app in Sb. unfold zlen in Sb at 2.
      rewrite (summary_length _ Vs) in Sb. pose proof (zlen_nonneg _ (flat_map packet_bytes ms)). lia. }
    split; [exact Nr|]. intros k Hk.
    destruct (start_feed f ms exps fin D Vs Hok Key HD Dn _ rest k St) as (r' & c & Ec & _ & _ & C1).
    exists r', c. split; [exact Ec|]. apply C1, NE; assumption.
  - destruct (live_facts f ms exps fin D Dn r rest (coded outs) L) as (_ & _ & _ & Pre & Rdy). split; [exact Pre|]. split; [exact Rdy|].
    intros Go Rd. destruct (live_ask f ms exps fin D Vs Key HD Dn r rest _ L) as (ra & v & _ & Hv & _ & V1). specialize (V1 Rd Go).
    assert (Nr : rest <> []) by (intros ->; rewrite zlen_nil in Hv; lia).
    split; [exact Nr|]. intros k Hk.
    destruct (live_feed f ms exps fin D Vs Hok Key HD Dn r rest _ k L) as (r' & c & Ec & _ & _ & _ & C1).
    exists r', c. split; [exact Ec|]. apply (C1 Rd Go), NE; assumption.
Qed.

(** C28: a header that is not the serialization of a consistent summary is refused. *)
Theorem C28_header_rejected f fin D bs : Forall byte bs -> length bs = 68%nat ->
  (forall s, valid_summary s -> summary_bytes s <> bs) ->
  exists r, twopass_in f (rc2_init fin D) (Some bs) = Some (r, Err).
Proof.
  intros B L No. unfold twopass_in. change (at_ (w_total (rc2_init fin D)) 0) with (Some 0). change (0 =? 0) with true. cbv iota beta.
  unfold twopass_parse_summary. cbv zeta. change (w_des (set_ready (rc2_init fin D) false)) with des_init.
  assert (L' : zlen bs = 68) by (unfold zlen; lia).
  destruct (fill_ok bs des_init [] 68) as (d & E & Fi & Le & rest & Eq); [apply cleared; reflexivity|rewrite zlen_nil; lia|].
  rewrite E. cbn [fst snd]. rewrite zlen_nil in Fi, Eq. change (Z.min (68 - 0) (zlen bs)) with (Z.min 68 (zlen bs)) in *.
  rewrite L' in Fi, Eq. change (Z.to_nat (Z.min 68 68)) with 68%nat in Fi, Eq. rewrite firstn_all2 in Fi, Eq by lia. cbn [app] in Fi, Eq.
  rewrite Fi, L'. change (68 <=? 68) with true. cbv iota.
  assert (rest = []). { apply length_zero_iff_nil. rewrite Eq, zlen_app in Le. unfold zlen in Le. lia. } subst rest. rewrite app_nil_r in Eq. rewrite Eq.
  destruct (parse_summary_ok bs 68 B L) as (d2 & x & Ep & _ & _ & Px). rewrite Ep. cbn [fst snd].
  destruct x as [u|s]; [eexists; reflexivity|]. exfalso. destruct Px as [V Q]. apply (No s V Q).
Qed.

(** C29 for the byte interface: once the header is read, the window is a queue of
    the statistics not yet used, within its capacity, with the right sums; rate control is
    ready only with enough shown frames in the window (or all that remain); and the
    number of bytes asked for is there and is what will be consumed. *)
Theorem C29_byte_window f ms exps D : honest f exps ms -> 1 <= D <= 131072 -> dense D ms ->
  forall p pk, run_pass1 f pass1_init 0 ms = Some (p, pk) ->
  forall evs r rest outs, play f (rc2_init true D, emit_summary p exps ++ concat pk) evs = Some (r, rest, outs) ->
  nth 0 (w_total r) 0 <> 0 ->
  exists q more, ms = coded outs ++ q ++ more /\
    w_n r = zlen q /\ zlen q <= zlen (w_buf r) /\ ring (w_buf r) (w_head r) (w_n r) = q /\
    w_nframes r = by_type (count q) /\ w_sum r = by_coded_type (scales f q) /\ w_ntus r = shown q /\
    (w_ready r = true -> Z.min D (shown ms) <= shown q \/ more = []).
Proof.
  intros H HD Dn p pk E evs r rest outs Ep T.
  destruct (play_ok f ms exps true D evs H HD (fun _ => Dn) (rc2_init true D) (emit_summary p exps ++ concat pk) []) as (r' & rest' & outs' & Ep' & Nf & St).
  { left. split; [reflexivity|]. apply (start_state f ms exps true D pk p H E). }
  rewrite Ep in Ep'. injection Ep' as <- <- <-. destruct St as [(_ & _ & bs & (d & -> & _) & _)|L]; [exfalso; apply T; reflexivity|].
  cbn [app] in L. destruct L as (q & rem & bs & Em & I & Hd & Lb & Sb). pose proof (I_win _ _ _ _ _ _ _ _ I) as W.
  exists q, rem. split; [exact Em|]. rewrite (W_n _ _ _ _ _ _ _ W). split; [reflexivity|]. rewrite (W_cap _ _ _ _ _ _ _ W).
  split; [apply W|]. split; [apply W|]. split; [apply W|]. split; [apply W|]. split; [apply W|].
  intros Rd. destruct (I_ready _ _ _ _ _ _ _ _ I Rd) as (m & q' & Eq & _ & N0). unfold need, delay in N0.
  change (s_ntus (summary_of f exps ms)) with (shown ms) in N0. change (s_total (summary_of f exps ms)) with (zlen ms) in N0.
  apply (f_equal (@zlen metrics)) in Em. rewrite !zlen_app in Em. pose proof (zlen_nonneg _ rem).
  destruct (Z.lt_ge_cases (shown q) (Z.min D (shown ms))); [|lia]. right. apply length_zero_iff_nil.
  assert (Zr : zlen rem = 0) by lia. unfold zlen in Zr. lia.
Qed.
Theorem C29_bytes_asked f ms exps fin D : honest f exps ms -> 1 <= D <= 131072 -> (fin = true -> dense D ms) ->
  forall p pk, run_pass1 f pass1_init 0 ms = Some (p, pk) ->
  forall evs r rest outs, play f (rc2_init fin D, emit_summary p exps ++ concat pk) evs = Some (r, rest, outs) ->
  nth 0 (w_total r) 0 <> 0 ->
  exists r' v, twopass_in f r None = Some (r', Ok v) /\ 0 <= v <= zlen rest /\
    (v = 0 <-> w_ready r = true \/ coded outs = ms) /\
    forall k, Z.of_nat k <= v -> exists r'', twopass_in f r (Some (firstn k rest)) = Some (r'', Ok (Z.of_nat k)).
Proof.
  intros H HD Dn p pk E evs r rest outs Ep T.
  destruct (play_ok f ms exps fin D evs H HD Dn (rc2_init fin D) (emit_summary p exps ++ concat pk) []) as (r' & rest' & outs' & Ep' & Nf & St).
  { left. split; [reflexivity|]. apply (start_state f ms exps fin D pk p H E). }
  rewrite Ep in Ep'. injection Ep' as <- <- <-. destruct St as [(_ & _ & bs & (d & -> & _) & _)|L]; [exfalso; apply T; reflexivity|].
  cbn [app] in L. destruct H as (Vs & Hok & Key & Len).
  destruct (live_ask f ms exps fin D Vs Key HD Dn r rest _ L) as (ra & v & Ev & Hv & V0 & V1).
  exists ra, v. split; [exact Ev|]. split; [exact Hv|].
  assert (Dec : coded outs = ms \/ coded outs <> ms).
  { destruct (Z.lt_ge_cases (zlen (coded outs)) (zlen ms)); [right; intros X; rewrite X in *; lia|left; apply (used_all f ms exps fin D Dn r rest _ L); lia]. }
  split.
  - split; [|auto]. intros ->. destruct (w_ready r) eqn:Rd; [auto|]. destruct Dec as [X|X]; [auto|]. specialize (V1 eq_refl X). lia.
  - intros k Hk. destruct (live_feed f ms exps fin D Vs Hok Key HD Dn r rest _ k L) as (r' & c & Ec & _ & _ & C0 & C1).
    assert (Lk : zlen (firstn k rest) = Z.of_nat k) by (unfold zlen in *; rewrite firstn_length; lia). rewrite Lk in C1.
    exists r'. rewrite Ec. do 3 f_equal.
    destruct (w_ready r) eqn:Rd; [rewrite C0 by auto; rewrite V0 in Hk by auto; lia|].
    destruct Dec as [X|X]; [rewrite C0 by auto; rewrite V0 in Hk by auto; lia|]. apply (proj2 (C1 eq_refl X) ra v Ev Hk).
Qed.

(** ** The packet interface *)
Inductive pevent := Packet (bs : list Z) | PFrame.
Inductive poutcome := Accepted | Refused | PCoded (m : metrics) | PWait.
Definition pact (f : Z -> Z) (r : rc2) (e : pevent) : option (rc2 * poutcome) :=
  match e with
  | Packet bs => do x <- parse_packet f r bs; Some (fst x, match snd x with Err => Refused | Ok _ => Accepted end)
  | PFrame => if w_ready r then do r' <- pop f r; Some (r', PCoded (w_cur r)) else Some (r, PWait)
  end.
Fixpoint pplay (f : Z -> Z) (r : rc2) (evs : list pevent) : option (rc2 * list poutcome) :=
  match evs with
  | [] => Some (r, [])
  | e :: evs => do x <- pact f r e; do y <- pplay f (fst x) evs; Some (fst y, snd x :: snd y)
  end.

(** The queue it should be: frames done, frames in the window, and whether an
    ill-formed packet has been received (after which no packet is accepted). *)
Record qstate := Qs { q_done : list metrics; q_win : list metrics; q_dead : bool }.
Section Spec.
Variables (s : summary) (D : Z).
(** frames the window lacks *)
Definition lacks (x : qstate) : Z :=
  Z.min (Z.max (Z.min D (s_ntus s) - shown (q_win x)) 0) (s_total s - zlen (q_done x) - zlen (q_win x)).
Inductive qstep : qstate -> pevent -> poutcome -> qstate -> Prop :=
| q_accept x m : valid_metrics m -> q_dead x = false -> 0 < lacks x -> zlen (q_win x) < 2 * D + 8 ->
    qstep x (Packet (packet_bytes m)) Accepted (Qs (q_done x) (q_win x ++ [m]) false)
| q_refuse x m : valid_metrics m -> q_dead x = false -> (lacks x <= 0 \/ zlen (q_win x) = 2 * D + 8) ->
    qstep x (Packet (packet_bytes m)) Refused x
| q_bad x bs : (forall m, valid_metrics m -> packet_bytes m <> bs) -> q_dead x = false ->
    qstep x (Packet bs) Refused (Qs (q_done x) (q_win x) (zlen bs =? 8))
| q_stuck x bs : q_dead x = true -> qstep x (Packet bs) Refused x
| q_code x m q : q_win x = m :: q -> lacks x <= 1 -> qstep x PFrame (PCoded m) (Qs (q_done x ++ [m]) q (q_dead x))
| q_wait x : (0 < lacks x \/ zlen (q_done x) = s_total s) -> qstep x PFrame PWait x.
Inductive qrun : qstate -> list pevent -> list poutcome -> qstate -> Prop :=
| qr_nil x : qrun x [] [] x
| qr_cons x e o y es os z : qstep x e o y -> qrun y es os z -> qrun x (e :: es) (o :: os) z.
End Spec.

(** packets with scales in the range a first pass produces *)
Definition tame (f : Z -> Z) (e : pevent) : Prop :=
  match e with
  | Packet bs => Forall byte bs /\ forall m, valid_metrics m -> packet_bytes m = bs -> 0 <= f (m_scale m) <= 2 ^ 44
  | PFrame => True
  end.

(** C29 for the packet interface: any packets, well formed or not, and any frames;
    the encoder behaves as the queue, with the window's contents and sums its own. *)
Theorem C29_packet_window f s D : valid_summary s -> 0 < nth 0 (s_nframes s) 0 -> 1 <= D <= 131072 ->
  exists r0, setup_second_pass (rc2_init true D) s = Some r0 /\
  forall evs, Forall (tame f) evs -> exists r outs x,
    pplay f r0 evs = Some (r, outs) /\ qrun s D (Qs [] [] false) evs outs x /\
    w_n r = zlen (q_win x) /\ zlen (q_win x) <= zlen (w_buf r) /\ ring (w_buf r) (w_head r) (w_n r) = q_win x /\
    w_nframes r = by_type (count (q_win x)) /\ w_sum r = by_coded_type (scales f (q_win x)) /\ w_ntus r = shown (q_win x) /\
    w_ntus_left r = s_ntus s - shown (q_done x) /\ w_left r = by_type (fun i => nth (Z.to_nat i) (s_nframes s) 0 - count (q_done x) i).
Proof.
  intros Vs Key HD.
  assert (I0 : exists r0, setup_second_pass (rc2_init true D) s = Some r0 /\ Inv f s D (2 * D + 8) 1 r0 [] [] /\ held (w_des r0) []).
  { destruct (vs_nframes s Vs) as [L5 N5]. destruct (vs_total s Vs) as [V1 V2]. pose proof (vs_ntus s Vs) as V3.
    pose proof (total_less (s_nframes s) [] L5 N5 ltac:(lia) ltac:(constructor) ltac:(rewrite zlen_nil; lia)) as T.
    rewrite zlen_nil, Z.sub_0_r, <- V1 in T.
    assert (X : s_nframes s = by_type (less (s_nframes s) [])).
    { rewrite (list5 _ L5) at 1. apply by_type_ext. intros i Hi. unfold less. change (count [] i) with 0. lia. }
    rewrite <- X in T. unfold setup_second_pass. rewrite T. eexists. split; [reflexivity|].
    assert (Fn : finite (rc2_init true D) = true).
    { unfold finite, rc2_init. cbn [w_buf]. replace (Z.to_nat (D * 2 + 8)) with (S (Z.to_nat (D * 2 + 7))) by lia. reflexivity. }
    split; [|apply cleared; reflexivity].
    constructor.
    - constructor; cbn [w_des w_buf w_n w_head w_ready w_cur w_delay w_total w_total_total w_left w_ntus_left w_nframes w_sum w_ntus w_done rc2_init];
        try reflexivity; try constructor; rewrite ?zlen_nil; try lia; rewrite ?Fn; try reflexivity; try exact X.
      + unfold zlen. rewrite repeat_length. lia.
      + change (shown []) with 0. lia.
    - discriminate.
    - intros _. left. unfold need, delay. rewrite zlen_nil. change (shown []) with 0. lia. }
  destruct I0 as (r0 & E0 & I0 & H0). exists r0. split; [exact E0|]. clear E0. intros evs.
  assert (G : forall evs, Forall (tame f) evs -> forall r x, Inv f s D (2 * D + 8) 1 r (q_done x) (q_win x) ->
    (if q_dead x then stuck (w_des r) else held (w_des r) []) ->
    exists r' outs x', pplay f r evs = Some (r', outs) /\ qrun s D x evs outs x' /\ Win f s D (2 * D + 8) r' (q_done x') (q_win x')).
  { clear evs r0 I0 H0. induction evs as [|e evs IH]; intros F r x I Hd.
    { exists r, [], x. split; [reflexivity|]. split; [constructor|apply I]. }
    pose proof (Forall_inv F) as Te. pose proof (Forall_inv_tail F) as Fr.
    assert (Step : exists r1 o x1, pact f r e = Some (r1, o) /\ qstep s D x e o x1 /\ Inv f s D (2 * D + 8) 1 r1 (q_done x1) (q_win x1) /\
       (if q_dead x1 then stuck (w_des r1) else held (w_des r1) [])).
    { destruct e as [bs|]; unfold pact.
      - destruct Te as [Bb Fb]. destruct (q_dead x) eqn:Dd.
        + destruct (stuck_packet f (2 * D + 8) r bs Hd) as (r' & E & P). rewrite E. cbn [fst snd]. eexists _, _, x.
          split; [reflexivity|]. split; [apply q_stuck, Dd|]. rewrite Dd.
          destruct P as [-> |(d & -> & Sd)]; [auto|]. split; [apply inv_set_des, I|exact Sd].
        + destruct (packet_ok f s D (2 * D + 8) Vs HD eq_refl r _ _ bs I Hd Bb Fb) as (r' & res & E & P). rewrite E. cbn [fst snd].
          destruct P as [(m & Om & Em & P & H')|(-> & No & I' & H')].
          * change (need s D (q_done x) (q_win x)) with (lacks s D x) in P. subst bs.
            destruct (Z.ltb_spec 0 (lacks s D x)) as [Pos|Zero]; cbn [andb] in P.
            -- pose proof (W_fit _ _ _ _ _ _ _ (I_win _ _ _ _ _ _ _ _ I)) as Fit.
               destruct (Z.ltb_spec (zlen (q_win x)) (2 * D + 8)) as [Lt|Ge].
               ++ destruct P as [-> I']. eexists _, _, _. split; [reflexivity|]. split; [apply q_accept; auto; apply Om|]. auto.
               ++ destruct P as [-> I']. eexists _, _, _. split; [reflexivity|]. split; [apply q_refuse; auto; [apply Om|right; lia]|]. rewrite Dd. auto.
            -- destruct P as [-> I']. eexists _, _, _. split; [reflexivity|]. split; [apply q_refuse; auto; apply Om|]. rewrite Dd. auto.
          * eexists _, _, _. split; [reflexivity|]. split; [apply q_bad; auto|]. auto.
      - destruct (w_ready r) eqn:Rd.
        + destruct (I_ready _ _ _ _ _ _ _ _ I Rd) as (m & q' & Eq & _ & Nd). pose proof I as I1. rewrite Eq in I1.
          destruct (pop_ok f s D (2 * D + 8) Vs Key HD eq_refl 1 r _ m q' ltac:(lia) I1 Rd) as (Ec & r' & Ep & I' & De). rewrite Ep, Ec.
          eexists _, _, _. split; [reflexivity|]. split; [apply q_code; [exact Eq|exact Nd]|]. cbn [q_done q_win q_dead]. rewrite De. auto.
        + eexists _, _, x. split; [reflexivity|]. split; [|auto]. apply q_wait. destruct (I_not _ _ _ _ _ _ _ _ I Rd) as [X|X]; [left; exact X|auto]. }
    destruct Step as (r1 & o & x1 & Ea & Q & I1 & H1). destruct (IH Fr r1 x1 I1 H1) as (r2 & outs & x2 & Ep & Q2 & W2).
    cbn [pplay]. rewrite Ea. cbn [fst snd]. rewrite Ep. cbn [fst snd]. exists r2, (o :: outs), x2. split; [reflexivity|].
    split; [econstructor; eassumption|exact W2]. }
  intros F. destruct (G evs F r0 (Qs [] [] false) I0 H0) as (r & outs & x & E & Q & W).
  exists r, outs, x. split; [exact E|]. split; [exact Q|]. rewrite (W_n _ _ _ _ _ _ _ W). split; [reflexivity|]. rewrite (W_cap _ _ _ _ _ _ _ W).
  split; [apply W|]. split; [apply W|]. split; [apply W|]. split; [apply W|]. split; [apply W|]. split; [apply W|]. apply W.
Qed.

Ltac all_in := match goal with |- Forall ?P ?l => let l' := eval vm_compute in l in change (Forall P l') end;
  repeat apply Forall_cons; try apply Forall_nil; cbv beta.
Ltac all_valid := constructor;
  [vm_compute; split; discriminate
  |split; [reflexivity|all_in; lia]
  |split; [reflexivity|reflexivity]
  |split; [reflexivity|all_in; lia]
  |split; [reflexivity|all_in; lia]].

(** The packet interface may start a frame one temporal unit early: when it lacks
    one and the packet received is of a frame that is not shown
    (rate.rs:1506-1509 tests the number needed before the packet). *)
Theorem C29_early_ready_refuted :
  ~ (forall f s D evs r0 r outs, valid_summary s -> 0 < nth 0 (s_nframes s) 0 -> 1 <= D <= 131072 -> Forall (tame f) evs ->
       setup_second_pass (rc2_init true D) s = Some r0 -> pplay f r0 evs = Some (r, outs) -> w_ready r = true ->
       Z.min D (s_ntus s) <= w_ntus r \/ w_n r = s_total s).
Proof.
  intros H. set (s := Summary 2 [1; 2; 0; 0; 0] [1; 1; 1; 1] [0; 0; 0; 0] 3).
  assert (V : valid_summary s).
  { all_valid. }
  specialize (H (fun _ => 0) s 2 [Packet (packet_bytes (Metrics 0 0 true)); Packet (packet_bytes (Metrics 0 1 false))]).
  destruct (setup_second_pass (rc2_init true 2) s) as [r0|] eqn:E0; [|discriminate E0].
  set (evs := [Packet (packet_bytes (Metrics 0 0 true)); Packet (packet_bytes (Metrics 0 1 false))]) in H.
  destruct (pplay (fun _ => 0) r0 evs) as [[r outs]|] eqn:E1.
  2: { exfalso. injection E0 as <-. vm_compute in E1. discriminate E1. }
  assert (T : Forall (tame (fun _ => 0)) evs).
  { repeat constructor; cbn [tame]; try (apply packet_is_bytes); intros; lia. }
  specialize (H r0 r outs V ltac:(cbn; lia) ltac:(lia) T eq_refl E1).
  injection E0 as <-. vm_compute in E1. injection E1 as <- <-. specialize (H eq_refl). vm_compute in H.
  destruct H as [H|H]; [apply H; reflexivity|discriminate H].
Qed.

(** ** Examples *)
(** five frames: a key frame, a hidden P frame, two B frames, and the P frame shown later *)
Definition five_frames : list metrics :=
  [Metrics 1000 0 true; Metrics (-20) 1 false; Metrics 7 3 true; Metrics 8 2 true; Metrics 0 4 true].
Example five_honest : honest Z.abs [1; 2; 3; 255] five_frames.
Proof.
  split; [|split; [|split; reflexivity]].
  - all_valid.
  - all_in. all: vm_compute; repeat split; discriminate.
Qed.
Example five_dense : dense 2 five_frames.
Proof.
  intros a b c E L. apply (f_equal (@zlen metrics)) in E. rewrite !zlen_app in E. change (zlen five_frames) with 5 in E.
  pose proof (zlen_nonneg _ a). pose proof (zlen_nonneg _ c). lia.
Qed.
Definition five_bytes : list Z :=
  match run_pass1 Z.abs pass1_init 0 five_frames with
  | Some (p, pk) => emit_summary p [1; 2; 3; 255] ++ concat pk
  | None => []
  end.
(** one byte at a time, trying a frame after every byte *)
Example five_byte_by_byte :
  match play Z.abs (rc2_init true 2, five_bytes) (flat_map (fun _ => [Feed 1; Frame]) (seq 0 120)) with
  | Some (_, rest, outs) => rest = [] /\ coded outs = five_frames
  | None => False
  end.
Proof. vm_compute. split; reflexivity. Qed.
Example five_whole_file :
  match play Z.abs (rc2_init false 12, five_bytes) [Feed 70; Feed 3; Frame; Feed 100; Frame; Feed 8; Feed 9; Frame; Frame; Feed 8; Frame; Feed 8; Frame; Feed 8; Frame; Frame] with
  | Some (_, rest, outs) => rest = [] /\ coded outs = five_frames /\ last outs Failed = NotReady
  | None => False
  end.
Proof. vm_compute. repeat split; reflexivity. Qed.
(** without enough shown frames in a window the finite buffer gives up *)
Example too_many_hidden :
  let ms := Metrics 5 0 true :: repeat (Metrics 5 1 false) 20 ++ [Metrics 5 1 true] in
  honest Z.abs [1; 2; 3; 4] ms /\ ~ dense 2 ms /\
  match run_pass1 Z.abs pass1_init 0 ms with
  | Some (p, pk) =>
      match play Z.abs (rc2_init true 2, emit_summary p [1; 2; 3; 4] ++ concat pk) [Feed 1000] with
      | Some (_, _, outs) => outs = [Failed]
      | None => False
      end
  | None => False
  end.
Proof.
  split; [|split].
  - split; [|split; [|split; reflexivity]].
    + all_valid.
    + all_in. all: vm_compute; repeat split; discriminate.
  - intros H. specialize (H [Metrics 5 0 true] (repeat (Metrics 5 1 false) 12) (repeat (Metrics 5 1 false) 8 ++ [Metrics 5 1 true]) eq_refl eq_refl).
    vm_compute in H. apply H. reflexivity.
  - vm_compute. reflexivity.
Qed.
Example bad_magic : exists r, twopass_in Z.abs (rc2_init true 12) (Some (87 :: tl (firstn 68 five_bytes))) = Some (r, Err).
Proof. vm_compute. eexists. reflexivity. Qed.
(** the packet interface after a malformed packet *)
Example stuck_after_bad_packet :
  match setup_second_pass (rc2_init true 2) (summary_of Z.abs [1; 2; 3; 255] five_frames) with
  | Some r => option_map snd (pplay Z.abs r (map Packet [packet_bytes (hd no_metrics five_frames); [9; 0; 0; 0; 0; 0; 0; 0]; packet_bytes (Metrics 7 3 true)]))
  | None => None
  end = Some [Accepted; Refused; Refused].
Proof. vm_compute. reflexivity. Qed.
Example five_packets :
  match setup_second_pass (rc2_init true 2) (summary_of Z.abs [1; 2; 3; 255] five_frames) with
  | Some r => option_map snd (pplay Z.abs r
      ([PFrame] ++ map (fun m => Packet (packet_bytes m)) (firstn 3 five_frames) ++ [Packet (packet_bytes no_metrics); PFrame; PFrame; PFrame; Packet (packet_bytes (nth 3 five_frames no_metrics)); PFrame]))
  | None => None
  end = Some [PWait; Accepted; Accepted; Accepted; Refused; PCoded (nth 0 five_frames no_metrics); PWait; PWait; Accepted; PCoded (nth 1 five_frames no_metrics)].
Proof. vm_compute. reflexivity. Qed.

Print Assumptions C28_two_pass.
Print Assumptions C28_header_rejected.
Print Assumptions C29_byte_window.
Print Assumptions C29_bytes_asked.
Print Assumptions C29_packet_window.
Print Assumptions C29_early_ready_refuted.
