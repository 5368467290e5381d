(** Properties C22, C23, C26 and C36: sizes, OBU framing, tile groups, IVF. *)
From Verif Require Import Base Bits Obu_model Obu_spec Obu_proof.

(** ** C22 *)
(** Every 32-bit size is written in as few bytes as possible, never more than
    five, and read back by leb128( ) from exactly these bytes. *)
Theorem C22 : forall v rest, 0 <= v < 2 ^ 32 ->
  exists l, write_uleb128 v = Some l /\ bytes l /\ s_leb128 (l ++ rest) = Some (v, rest) /\
    1 <= zlen l <= 5 /\ forall l', s_leb128 l' = Some (v, []) -> zlen l <= zlen l'.
Proof.
  intros v rest H. destruct (leb_ok v H) as (l & E & B & L & P). exists l. split; [exact E|]. split; [exact B|]. split; [apply P|].
  pose proof (log2_32 v H) as Lg. split; [rewrite L; clear - Lg; dlia|].
  intros l' Hl'. rewrite L.
  assert (G : forall n i acc l' r, s_leb_loop n i acc l' = Some (v, r) -> 0 <= i -> 0 <= acc < 2 ^ (7 * i) -> v < 2 ^ (7 * (i + zlen l' - zlen r))).
  { clear. induction n as [|n IH]; intros i acc l' r H Hi Ha; cbn [s_leb_loop] in H.
    - injection H as <- <-. replace (7 * (i + zlen l' - zlen l')) with (7 * i) by lia. lia.
    - destruct l' as [|b l']; [discriminate|]. rewrite Z.shiftl_mul_pow2 in H by lia. rewrite (Z.mul_comm i 7), land127 in H.
      pose proof (Z.mod_pos_bound b 128 ltac:(lia)) as M. rewrite lor_add in H by lia.
      assert (P7 : 2 ^ (7 * (i + 1)) = 128 * 2 ^ (7 * i)) by (replace (7 * (i + 1)) with (7 + 7 * i) by lia; rewrite Z.pow_add_r by lia; reflexivity).
      assert (A' : 0 <= acc + b mod 128 * 2 ^ (7 * i) < 2 ^ (7 * (i + 1))) by (rewrite P7; nia).
      rewrite zlen_cons. destruct (Z.land b 128 =? 0).
      + assert (Ev : v = acc + b mod 128 * 2 ^ (7 * i)) by congruence. assert (Er : r = l') by congruence. rewrite Er.
        replace (i + (zlen l' + 1) - zlen l') with (i + 1) by lia. lia.
      + apply (IH (i + 1)) in H; [|lia|exact A']. replace (i + (zlen l' + 1) - zlen r) with (i + 1 + zlen l' - zlen r) by lia. exact H. }
  unfold s_leb128 in Hl'. destruct (s_leb_loop 8 0 0 l') as [[v' r']|] eqn:El; [|discriminate].
  destruct (v' <? 2 ^ 32); [|discriminate]. injection Hl' as -> ->.
  specialize (G 8%nat 0 0 l' [] El ltac:(lia) ltac:(cbn; lia)). rewrite zlen_nil in G. replace (0 + zlen l' - 0) with (zlen l') in G by lia.
  pose proof (zlen_nonneg _ l') as Np.
  destruct (Z.eq_dec v 0) as [->|Nv].
  { cbn. destruct l'; [discriminate El|]. rewrite zlen_cons. pose proof (zlen_nonneg _ l'). lia. }
  apply Z.log2_lt_pow2 in G; [|lia]. clear - G. dlia.
Qed.
Print Assumptions C22.
Example C22_example : write_uleb128 300000 = Some [224; 167; 18] /\ s_leb128 [224; 167; 18; 255; 1] = Some (300000, [255; 1]).
Proof. vm_compute. auto. Qed.
(** Sizes of 2^32 and more are cut: an OBU of 4 GiB would announce zero bytes. *)
Example C22_truncation : write_uleb128 (2 ^ 32) = Some [0]. Proof. vm_compute. reflexivity. Qed.

(** ** C23 *)

(** What the OBUs of one frame must be for a decoder: type and payload. *)
Definition is_sequence_obu (bits : list bool) (o : Z * list Z) : Prop :=
  fst o = 1 /\ bytes (snd o) /\ exists n, (n < 8)%nat /\ bytes_bits (snd o) = bits ++ true :: repeat false n.
Definition is_metadata_obu (m : metadata) (o : Z * list Z) : Prop :=
  fst o = 5 /\ s_metadata_obu (snd o) = Some (view_metadata m).
Definition is_header_obu (bits : list bool) (o : Z * list Z) : Prop :=
  fst o = 3 /\ bytes (snd o) /\ exists n, (n < 8)%nat /\ bytes_bits (snd o) = bits ++ true :: repeat false n.
Definition is_frame_obu (bits : list bool) (tiles : list Z) (o : Z * list Z) : Prop :=
  fst o = 6 /\ exists n h, (n < 8)%nat /\ snd o = h ++ tiles /\ bytes h /\ bytes_bits h = bits ++ repeat false n.
Definition obus_of (c : coded) (os : list (Z * list Z)) : Prop :=
  exists ks ms fo, os = ks ++ ms ++ [fo] /\
    match cd_key c with
    | None => ks = []
    | Some (bits, metas) => exists s km, ks = s :: km /\ is_sequence_obu bits s /\ Forall2 is_metadata_obu metas km
    end /\
    Forall2 is_metadata_obu (cd_t35 c) ms /\
    match cd_tiles c with
    | Some t => is_frame_obu (cd_header c) t fo
    | None => is_header_obu (cd_header c) fo
    end.
(** Field types, and sizes that fit in 32 bits *)
Definition coded_ok (c : coded) : Prop :=
  match cd_key c with None => True | Some (bits, metas) => zlen bits < 2 ^ 32 /\ Forall metadata_ok metas end /\
  Forall metadata_ok (cd_t35 c) /\
  match cd_tiles c with
  | Some t => bytes t /\ zlen (cd_header c) + 8 * zlen t < 2 ^ 32
  | None => zlen (cd_header c) < 2 ^ 32
  end.

Lemma app_true_pad bits n : (bits ++ [true]) ++ repeat false n = bits ++ true :: repeat false n.
Proof. now rewrite <- app_assoc. Qed.

Lemma metas_ok l : Forall metadata_ok l -> exists os, yields (concat_opt (map write_metadata_obu l)) os /\ Forall2 is_metadata_obu l os.
Proof.
  intros F. destruct (yields_concat write_metadata_obu (fun m os => exists o, os = [o] /\ is_metadata_obu m o) l) as (oss & Y & F2).
  - intros m Hm. rewrite Forall_forall in F. destruct (metadata_obu_ok m (F m Hm)) as (b & o & E & Fr & T & S).
    exists [o]. split; [rewrite E; apply yields_one, Fr|]. exists o. split; [reflexivity|]. split; assumption.
  - exists (concat oss). split; [exact Y|]. clear - F2. induction F2 as [|m os l oss (o & -> & H) F2 IH]; constructor; assumption.
Qed.

Lemma frame_ok c : coded_ok c -> exists os, yields (encode_frame_bytes c) os /\ obus_of c os.
Proof.
  intros (Hk & Ht & Hf). unfold encode_frame_bytes.
  assert (K : exists ks, yields (match cd_key c with None => Some [] | Some (s, m) => write_key_frame_obus s m end) ks /\
    match cd_key c with
    | None => ks = []
    | Some (bits, metas) => exists s km, ks = s :: km /\ is_sequence_obu bits s /\ Forall2 is_metadata_obu metas km
    end).
  { destruct (cd_key c) as [[bits metas]|]; [|exists []; split; [apply yields_nil|reflexivity]].
    destruct Hk as (Lb & Fm). destruct (metas_ok metas Fm) as (km & Y & F2). unfold write_key_frame_obus.
    change (Some (bits, true) >>> w_bit true) with (Some (bits ++ [true], true)).
    destruct (aligned_ok (bits ++ [true])) as (n & b & Hn & E & Bb & Eb & Lbb). rewrite E. rewrite zlen_app in Lbb. change (zlen [true]) with 1 in Lbb.
    destruct (emit_obu_ok OBU_SEQUENCE_HEADER b Bb ltac:(lia)) as (e & Ee & Fe). rewrite Ee.
    eexists. split; [apply yields_app; [apply yields_one, Fe|exact Y]|]. eexists _, km. split; [reflexivity|]. split; [|exact F2].
    split; [reflexivity|]. split; [exact Bb|]. exists n. split; [exact Hn|]. cbn [snd]. rewrite Eb. apply app_true_pad. }
  destruct K as (ks & Yk & Pk). destruct (metas_ok _ Ht) as (ms & Ym & Fm).
  assert (Fo : exists fo, yields (match cd_tiles c with
     | Some t => match unwrap_bytes (w_align (Some (cd_header c, true))) with Some b => emit_obu OBU_FRAME (b ++ t) | None => None end
     | None => match unwrap_bytes (w_align (Some (cd_header c, true) >>> w_bit true)) with Some b => emit_obu OBU_FRAME_HEADER b | None => None end
     end) [fo] /\
     match cd_tiles c with Some t => is_frame_obu (cd_header c) t fo | None => is_header_obu (cd_header c) fo end).
  { destruct (cd_tiles c) as [t|].
    - destruct Hf as (Bt & Lt). destruct (aligned_ok (cd_header c)) as (n & b & Hn & E & Bb & Eb & Lbb). rewrite E.
      destruct (emit_obu_ok OBU_FRAME (b ++ t)) as (e & Ee & Fe).
      { apply Forall_app. split; assumption. } { rewrite zlen_app. pose proof (zlen_nonneg _ t). lia. }
      rewrite Ee. eexists. split; [apply yields_one, Fe|]. split; [reflexivity|]. exists n, b. auto.
    - change (Some (cd_header c, true) >>> w_bit true) with (Some (cd_header c ++ [true], true)).
      destruct (aligned_ok (cd_header c ++ [true])) as (n & b & Hn & E & Bb & Eb & Lbb). rewrite E. rewrite zlen_app in Lbb. change (zlen [true]) with 1 in Lbb.
      destruct (emit_obu_ok OBU_FRAME_HEADER b Bb ltac:(lia)) as (e & Ee & Fe). rewrite Ee. eexists. split; [apply yields_one, Fe|].
      split; [reflexivity|]. split; [exact Bb|]. exists n. split; [exact Hn|]. cbn [snd]. rewrite Eb. apply app_true_pad. }
  destruct Fo as (fo & Yf & Pf). exists (ks ++ ms ++ [fo]). split; [apply yields_app; [exact Yk|]; apply yields_app; assumption|].
  exists ks, ms, fo. auto.
Qed.

(** A packet is a sequence of OBUs from which a parser recovers, in order, the
    temporal delimiter and for every frame the sequence header (key frames),
    each metadata with the user's values, and the frame header and tile data,
    with nothing left over. *)
Theorem C23 : forall l, Forall coded_ok l ->
  exists b oss, packet_bytes l = Some b /\ bytes b /\ s_temporal_unit b = Some ((2, []) :: concat oss) /\ Forall2 obus_of l oss.
Proof.
  intros l F. destruct (yields_concat encode_frame_bytes obus_of l) as (oss & Y & F2).
  { intros c Hc. rewrite Forall_forall in F. exact (frame_ok c (F c Hc)). }
  assert (T : framed TEMPORAL_DELIMITER (2, [])).
  { split; [discriminate|]. split; [repeat constructor; unfold is_byte; lia|]. intros rest. unfold s_obu, TEMPORAL_DELIMITER. cbn [app].
    change (s_obu_header (bits_of 8 18)) with (Some ((2, false, true), @nil bool)). cbn iota.
    change (s_leb128 (0 :: rest)) with (Some (0, rest)). cbn iota. pose proof (zlen_nonneg _ rest). destruct (Z.leb_spec 0 (zlen rest)); [reflexivity|lia]. }
  destruct (yields_app _ _ _ _ (yields_one _ _ T) Y) as (bs & E & F3).
  exists (concat bs), oss. unfold packet_bytes. split; [exact E|].
  destruct (obus_framed bs _ (length (concat bs)) F3 (le_n _)) as (S & B). split; [exact B|]. split; [exact S|exact F2].
Qed.
Print Assumptions C23.
Definition C23_sample : coded :=
  Coded (Some ([true; false; true], [CLL 1000 400; MDCV [(1, 2); (3, 4); (5, 6)] (7, 8) 9 10])) [T35 181 0 [0; 60; 128; 0]; T35 255 3 []]
        [true; true; false; false; true; false; true; false; true] (Some [1; 2; 3]).
Example C23_example : coded_ok C23_sample /\
  (exists b, packet_bytes [C23_sample; Coded None [] [true; false] None] = Some b /\ zlen b = 66 /\
   option_map (map (fun o => (fst o, zlen (snd o)))) (s_temporal_unit b) = Some [(2, 0); (1, 1); (5, 6); (5, 26); (5, 7); (5, 4); (6, 5); (3, 1)]).
Proof.
  split.
  - split; [|split]; cbn.
    + split; [lia|]. constructor; [split; unfold u16_ok; lia|]. constructor; [|constructor].
      split; [reflexivity|]. split; [repeat constructor; unfold u16_ok; cbn; lia|]. split; [split; unfold u16_ok; cbn; lia|lia].
    + constructor; [|constructor; [|constructor]]; (split; [unfold is_byte; lia|]; split; [unfold is_byte; lia|]; split; [repeat constructor; unfold is_byte; lia|vm_compute; reflexivity]).
    + split; [repeat constructor; unfold is_byte; lia|lia].
  - eexists. split; [vm_compute; reflexivity|]. vm_compute. auto.
Qed.

(** ** C26 *)
(** The tile group gives back the tiles; the announced number of bytes of the
    size fields is between one and four, and the tile whose probabilities are
    kept is the last of the largest ones (the first tile if none are kept). *)
Theorem C26 : forall end_update tiles, tiles <> [] -> Forall bytes tiles -> Forall (fun t => 1 <= zlen t < 2 ^ 32) tiles ->
  exists id tsb b, tile_group end_update tiles = Some (id, tsb, b) /\ 1 <= tsb <= 4 /\ 0 <= id < zlen tiles /\ bytes b /\
    s_tile_group (zlen tiles) tsb b = Some tiles /\
    (end_update = true -> exists t, nth_error tiles (Z.to_nat id) = Some t /\ Forall (fun u => zlen u <= zlen t) tiles) /\
    (end_update = false -> id = 0).
Proof.
  intros up tiles Ne Fb Fl. unfold tile_group.
  destruct (max_by_key_ok (map zlen tiles) 0) as (j & m & E & Hj & Nj & Mx & _); [destruct tiles; [contradiction|discriminate]|].
  rewrite E. rewrite zlen_map in Hj. rewrite nth_error_map in Nj. rewrite Z.sub_0_r in Nj.
  destruct (nth_error tiles (Z.to_nat j)) as [t|] eqn:Et; [|discriminate]. injection Nj as <-.
  assert (Lt : 1 <= zlen t < 2 ^ 32) by (rewrite Forall_forall in Fl; apply Fl; exact (nth_error_In _ _ Et)).
  assert (Lg : 0 <= Z.log2 (zlen t) < 32) by (apply log2_32; lia).
  unfold ilog. destruct (Z.leb_spec (zlen t) 0); [lia|].
  set (tsb := (Z.log2 (zlen t) + 1 + 7) / 8). assert (Ht : 1 <= tsb <= 4 /\ Z.log2 (zlen t) < 8 * tsb) by (unfold tsb; clear - Lg; dlia).
  destruct Ht as (Ht & Hl). clearbody tsb. destruct (Z.ltb_spec 0 tsb); [|lia]. destruct (Z.leb_spec tsb 4); [|lia]. cbn [andb].
  assert (Mx' : Forall (fun u => zlen u <= zlen t) tiles) by (apply Forall_forall; intros u Hu; rewrite Forall_forall in Mx; apply (Mx (zlen u)), in_map, Hu).
  destruct (tiles_ok tsb ltac:(lia) tiles) as (b & Eb & Sb & Bb).
  { apply Forall_forall. intros u Hu. rewrite Forall_forall in Fl, Mx'. specialize (Fl u Hu). specialize (Mx' u Hu). split; [lia|].
    apply Z.log2_lt_pow2 in Hl; lia. } { exact Ne. }
  unfold build_raw_tile_group. rewrite Eb.
  assert (Nl : Z.to_nat (zlen tiles) = length tiles) by (unfold zlen; lia).
  destruct (Z.ltb_spec 1 (zlen tiles)) as [G|G].
  - change (unwrap_bytes (w_align (w_if true (w_bit false)))) with (Some [0]). rewrite o_app_some.
    exists (if up then j else 0), tsb, ([0] ++ b). split; [reflexivity|]. split; [lia|]. split; [destruct up; lia|].
    split; [constructor; [unfold is_byte; lia|apply Bb, Fb]|]. split.
    { unfold s_tile_group. destruct (Z.ltb_spec 1 (zlen tiles)); [|lia]. cbn [app]. rewrite Nl. exact Sb. }
    split; [intros ->; exists t; auto|intros ->; reflexivity].
  - change (unwrap_bytes (w_align (w_if false (w_bit false)))) with (Some (@nil Z)). rewrite o_app_some.
    exists (if up then j else 0), tsb, ([] ++ b). split; [reflexivity|]. split; [lia|]. split; [destruct up; lia|].
    split; [apply Bb, Fb|]. split.
    { unfold s_tile_group. destruct (Z.ltb_spec 1 (zlen tiles)); [lia|]. cbn [app]. rewrite Nl. exact Sb. }
    split; [intros ->; exists t; auto|intros ->; reflexivity].
Qed.
Print Assumptions C26.
Example C26_example : tile_group true [[1; 2]; repeat 7 300; [5]; repeat 9 300] =
  Some (3, 2, [0; 1; 0; 1; 2; 43; 1] ++ repeat 7 300 ++ [0; 0; 5] ++ repeat 9 300).
Proof. vm_compute. reflexivity. Qed.

(** ** C36 *)
Fixpoint read_packets (n : nat) (l : list Z) : option (list (Z * list Z) * list Z) :=
  match n with
  | O => Some ([], l)
  | S n => match read_ivf_packet l with
           | Some (p, l) => match read_packets n l with Some (ps, r) => Some (p :: ps, r) | None => None end
           | None => None
           end
  end.
(** A file made of a header and any number of packets gives them all back; the
    time base read is the inverse of the frame rate written; reading on at the
    end of the file is an error. *)
Theorem C36 : forall w h num den ps rest, 0 <= w < 2 ^ 16 -> 0 <= h < 2 ^ 16 -> 0 <= num < 2 ^ 32 -> 0 <= den < 2 ^ 32 ->
  Forall (fun p => 0 <= fst p < 2 ^ 64 /\ zlen (snd p) < 2 ^ 32) ps ->
  exists l, read_ivf_header (write_ivf_header w h num den ++ flat_map (fun p => write_ivf_frame (fst p) (snd p)) ps ++ rest) =
      Some (IvfHeader [65; 86; 48; 49] w h den num, l) /\
    read_packets (length ps) l = Some (ps, rest) /\ (rest = [] -> read_ivf_packet rest = None).
Proof.
  intros w h num den ps rest Hw Hh Hn Hd F. eexists. split; [|split].
  - unfold write_ivf_header. rewrite (u16_id w Hw), (u16_id h Hh), (u32_id num Hn), (u32_id den Hd).
    unfold read_ivf_header. rewrite <- !app_assoc. rewrite (take_bytes_app [68; 75; 73; 70] _).
    destruct (list_eq_dec Z.eq_dec [68; 75; 73; 70] [68; 75; 73; 70]); [|contradiction].
    rewrite (take_le_ok 2 0) by (cbn; lia). rewrite (take_le_ok 2 32) by (cbn; lia). rewrite (take_bytes_app [65; 86; 48; 49] _).
    rewrite (take_le_ok 2 w), (take_le_ok 2 h) by (cbn; lia). rewrite (take_le_ok 4 num), (take_le_ok 4 den), !(take_le_ok 4 0) by (cbn; lia).
    reflexivity.
  - induction F as [|[pts data] ps (Hp & Hl) F IH]; [reflexivity|]. cbn [fst snd] in *.
    cbn [flat_map length read_packets]. unfold write_ivf_frame at 1. cbn [fst snd]. rewrite <- !app_assoc.
    pose proof (zlen_nonneg _ data). rewrite u32_id by lia. rewrite u64_id by lia.
    unfold read_ivf_packet. rewrite (take_le_ok 4 (zlen data)) by (cbn; lia). rewrite (take_le_ok 8 pts) by (cbn; lia).
    rewrite take_bytes_app, IH. reflexivity.
  - intros ->. reflexivity.
Qed.
Print Assumptions C36.
Example C36_example : read_ivf_header (write_ivf_header 640 480 30000 1001 ++ write_ivf_frame 5 [9; 8; 7] ++ write_ivf_frame 6 []) =
  Some (IvfHeader [65; 86; 48; 49] 640 480 1001 30000, write_ivf_frame 5 [9; 8; 7] ++ write_ivf_frame 6 []) /\
  read_packets 2 (write_ivf_frame 5 [9; 8; 7] ++ write_ivf_frame 6 []) = Some ([(5, [9; 8; 7]); (6, [])], []).
Proof. vm_compute. auto. Qed.
