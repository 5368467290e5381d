(** The loops over levels and signs. *)
From Coq Require Import Sorted.
From Verif Require Import Coef_model Coef_spec Quant_scan Coef_proof Coef_levels.
Open Scope string_scope.
Open Scope Z_scope.
Open Scope list_scope.

Lemma wnil_app w : wnil +++ w = w.
Proof. destruct w; reflexivity. Qed.
Lemma app_wnil w : w +++ wnil = w.
Proof. destruct w; cbn; [rewrite app_nil_r|]; reflexivity. Qed.

Lemma class_table ty : 0 <= ty < 16 -> at_ tx_type_to_class ty = Some (class_of ty).
Proof.
  intros H. assert (exists k, (k < 16)%nat /\ ty = Z.of_nat k) as [k [Hk ->]] by (exists (Z.to_nat ty); lia).
  do 16 (destruct k as [|k]; [reflexivity|]). lia.
Qed.

Definition offsets_okb : bool :=
  forallb (fun x =>
    let wl := fst (snd x) in let hl := snd (snd x) in
    forallb (fun r => forallb (fun c =>
      negb ((r <? coded_dim hl) && (c <? coded_dim wl) && negb ((r =? 0) && (c =? 0))) ||
      match at_ av1_nz_map_ctx_offset (fst x) with
      | Some tb => match at_ tb r with
                   | Some row => match at_ row c with Some v => v =? base_ctx_offset wl hl r c | None => false end
                   | None => false end
      | None => false end) (upto 5)) (upto 5))
  (combine (map Z.of_nat (seq 0 19)) tx_dims).
Lemma offsets_checked : offsets_okb = true.
Proof. vm_compute. reflexivity. Qed.

Lemma base_offset t wl hl r c : 0 <= t < 19 -> nth_error tx_dims (Z.to_nat t) = Some (wl, hl) ->
  0 <= r < coded_dim hl -> 0 <= c < coded_dim wl -> ~ (r = 0 /\ c = 0) ->
  (do tb <- at_ av1_nz_map_ctx_offset t; do row <- at_ tb (Z.min r 4); at_ row (Z.min c 4))
  = Some (base_ctx_offset wl hl r c).
Proof.
  intros Ht E Hr Hc N. pose proof (at_dims_cases t wl hl Ht E) as I.
  pose proof offsets_checked as C. unfold offsets_okb in C. rewrite forallb_forall in C.
  specialize (C _ I). cbv zeta in C. cbn [fst snd] in C. rewrite forallb_forall in C.
  specialize (C (Z.min r 4) ltac:(apply in_upto; lia)). rewrite forallb_forall in C.
  specialize (C (Z.min c 4) ltac:(apply in_upto; lia)). apply orb_true_iff in C. destruct C as [C|C].
  { exfalso. apply negb_true_iff in C.
    replace ((Z.min r 4 <? coded_dim hl) && (Z.min c 4 <? coded_dim wl) && negb ((Z.min r 4 =? 0) && (Z.min c 4 =? 0)))
      with true in C by lia. discriminate. }
  destruct (at_ av1_nz_map_ctx_offset t) as [tb|]; [|discriminate].
  destruct (at_ tb (Z.min r 4)) as [row|]; [|discriminate].
  destruct (at_ row (Z.min c 4)) as [v|]; [|discriminate].
  f_equal. apply Z.eqb_eq in C. rewrite C. unfold base_ctx_offset.
  replace (Z.min r 4 <? 2) with (r <? 2) by lia. replace (Z.min c 4 <? 2) with (c <? 2) by lia.
  replace (Z.min r 4 + Z.min c 4 <? 2) with (r + c <? 2) by lia.
  replace (Z.min r 4 + Z.min c 4 <? 4) with (r + c <? 4) by lia. reflexivity.
Qed.

Lemma offset_1d i : 0 <= i < 32 -> at_ nz_map_ctx_offset_1d i = Some (pos_ctx_offset i).
Proof.
  intros H. assert (exists k, (k < 32)%nat /\ i = Z.of_nat k) as [k [Hk ->]] by (exists (Z.to_nat i); lia).
  do 32 (destruct k as [|k]; [reflexivity|]). lia.
Qed.

Section Block.
Variables (t wl hl ty ptype eob : Z) (coeffs : list Z) (scan tl : list (Z * Z)).
Notation w := (coded_dim wl).
Notation h := (coded_dim hl).
Notation cls := (class_of ty).
Notation cf := (cf hl coeffs).
Hypothesis Ht : 0 <= t < 19.
Hypothesis Hdim : nth_error tx_dims (Z.to_nat t) = Some (wl, hl).
Hypothesis Hwl : 2 <= wl <= 6.
Hypothesis Hhl : 2 <= hl <= 6.
Hypothesis Hlen : zlen coeffs = w * h.
Hypothesis Hscan : scan_of wl hl ty = scan ++ tl.
Hypothesis Heob : zlen scan = eob.
Notation lv := (level_at h coeffs).
Notation bhl := (Z.min hl 5).
Notation area := (w * h).
Notation txs := (txSzCtx wl hl).
Notation pn := (fun p : Z * Z => fst p * h + snd p).
Notation ecoef := (encode_coeff lv bhl area eob t cls txs ptype).

Lemma base_ctx_same q pre c r rest :
  scan_of wl hl ty = pre ++ (c, r) :: rest -> known hl coeffs q rest ->
  get_nz_map_ctx lv (c * h + r) bhl area (zlen pre) false t cls = Some (coeff_base_ctx wl hl cls q (c, r)).
Proof.
  intros E K. unfold get_nz_map_ctx. rewrite hdim.
  assert (Ip : In (c, r) (scan_of wl hl ty)) by (rewrite E; apply in_app_iff; right; left; reflexivity).
  apply scan_range in Ip. destruct Ip as [Hc Hr].
  pose proof (dim_bounds wl Hwl) as Bw. pose proof (dim_bounds hl Hhl) as Bh.
  assert (Ed : (c * h + r) / h = c) by (symmetry; apply Z.div_unique with (r := r); lia).
  rewrite Ed. replace (c * h + r + c * 4) with (c * (h + 4) + r) by ring.
  rewrite (nz_mag_same wl hl coeffs Hwl Hhl Hlen ty q pre c r rest E K).
  unfold get_nz_map_ctx_from_stats, coeff_base_ctx. cbv zeta. rewrite hdim, Ed.
  replace (c * h + r - c * h) with r by lia. cbn [fst snd].
  assert (L : (Z.lor cls (c * h + r) =? 0) = (cls =? 0) && ((c =? 0) && (r =? 0))).
  { apply eq_true_iff_eq. rewrite !andb_true_iff, !Z.eqb_eq, Z.lor_eq_0_iff.
    assert (c * h + r = 0 <-> c = 0 /\ r = 0) by nia. tauto. }
  rewrite L.
  destruct (class_cases ty) as [Ec|[Ec|Ec]]; rewrite Ec; cbn [Z.eqb Pos.eqb andb].
  - destruct ((c =? 0) && (r =? 0)) eqn:Q; [reflexivity|].
    rewrite (base_offset t wl hl r c Ht Hdim Hr Hc) by lia. reflexivity.
  - rewrite offset_1d by lia. reflexivity.
  - rewrite offset_1d by lia. reflexivity.
Qed.

Lemma br_read n : forall idx base ctx, (n <= 4)%nat -> idx = 3 * (4 - Z.of_nat n) -> idx <= base ->
  reads (read_br n txs ptype ctx (3 + idx)) (br_loop (S n) idx base txs ptype ctx) (Z.min 15 (3 + base)).
Proof.
  induction n as [|n IH]; intros idx base ctx Hn Hi Hb; cbn [read_br br_loop].
  - replace (12 <=? idx) with true by lia. eapply reads_val; [apply reads_ret|]. lia.
  - replace (12 <=? idx) with false by lia. cbv zeta.
    eapply reads_bind; [apply reads_sym; lia|]. cbv beta.
    destruct (Z.min (base - idx) 3 <? 3) eqn:Q.
    + eapply reads_val; [apply reads_ret|]. lia.
    + replace (3 + idx + Z.min (base - idx) 3) with (3 + (idx + 3)) by lia. apply IH; lia.
Qed.

Lemma coeff_read q pre c r rest :
  scan_of wl hl ty = pre ++ (c, r) :: rest -> known hl coeffs q rest ->
  (zlen pre = eob - 1 -> cf (c, r) <> 0) ->
  reads (read_level wl hl cls ptype eob q (zlen pre) (c, r)) (ecoef (zlen pre) (pn (c, r)) (cf (c, r)))
    (Z.min 15 (Z.abs (cf (c, r)))).
Proof.
  intros E K Hlast. unfold read_level, encode_coeff. cbv zeta. cbn [fst snd].
  assert (B : reads (if 2 <? Z.min (Z.abs (cf (c, r))) 3 then read_br 4 txs ptype (coeff_br_ctx wl hl cls q (c, r)) (Z.min (Z.abs (cf (c, r))) 3) else ret (Z.min (Z.abs (cf (c, r))) 3))
    (wif (2 <? Z.abs (cf (c, r))) (wdo bctx <- get_br_ctx lv (c * h + r) bhl cls; br_loop 5 0 (Z.abs (cf (c, r)) - 3) txs ptype bctx))
    (Z.min 15 (Z.abs (cf (c, r))))).
  { destruct (2 <? Z.abs (cf (c, r))) eqn:Q; cbn [wif].
    - replace (2 <? Z.min (Z.abs (cf (c, r))) 3) with true by lia.
      rewrite (br_ctx_same wl hl coeffs Hwl Hhl Hlen ty q pre c r rest E K). cbn [wbind].
      replace (Z.min (Z.abs (cf (c, r))) 3) with (3 + 0) by lia.
      eapply reads_val; [apply br_read; lia|]. lia.
    - replace (2 <? Z.min (Z.abs (cf (c, r))) 3) with false by lia.
      eapply reads_val; [apply reads_ret|]. lia. }
  destruct (zlen pre =? eob - 1) eqn:Q.
  - apply Z.eqb_eq in Q. specialize (Hlast Q).
    cbn [get_nz_map_ctx wbind].
    replace (0 <? Z.abs (cf (c, r))) with true by lia. cbn [wguard].
    eapply reads_bind; [|exact B].
    eapply reads_val; [apply (reads_last _ _ _ (fun s => s + 1)); apply reads_sym; lia|]. lia.
  - rewrite (base_ctx_same q pre c r rest E K). cbn [wbind].
    eapply reads_bind; [|exact B]. apply reads_sym. lia.
Qed.

Lemma upd_same q p v : upd q p v p = v.
Proof. unfold upd. now rewrite !Z.eqb_refl. Qed.
Lemma upd_other q p v x : x <> p -> upd q p v x = q x.
Proof.
  intros N. unfold upd. destruct ((fst x =? fst p) && (snd x =? snd p)) eqn:Q; [|reflexivity].
  exfalso. apply N. destruct x, p; cbn [fst snd] in *. f_equal; lia.
Qed.

(** The last coefficient of the block is not zero. *)
Definition last_nonzero (l : list (Z * Z)) : Prop := forall p l', l = l' ++ [p] -> cf p <> 0.

Lemma levels_read l : forall pre q, scan = pre ++ l -> known hl coeffs q tl -> last_nonzero l ->
  exists q', reads (read_levels (read_level wl hl cls ptype eob) (zlen pre) l q)
               (encode_coeffs ecoef (zlen pre) (map (fun p => (pn p, cf p)) l)) q' /\
             known hl coeffs q' (l ++ tl).
Proof.
  induction l as [|[c r] l IH]; intros pre q Es K L.
  - exists q. split; [apply reads_ret|exact K].
  - destruct (IH (pre ++ [(c, r)]) q) as [q' [R K']].
    { rewrite Es, <- app_assoc. reflexivity. }
    { exact K. }
    { intros p l' ->. apply (L p ((c, r) :: l')). reflexivity. }
    assert (Z1 : zlen (pre ++ [(c, r)]) = zlen pre + 1) by (rewrite zlen_app; reflexivity).
    rewrite Z1 in R.
    exists (upd q' (c, r) (Z.min 15 (Z.abs (cf (c, r))))). split.
    + cbn [read_levels encode_coeffs map]. eapply reads_bind; [exact R|]. cbv beta.
      apply (reads_last _ _ _ (fun v => upd q' (c, r) v)). cbn [fst snd].
      apply (coeff_read q' pre c r (l ++ tl)).
      * rewrite Hscan, Es, <- app_assoc. reflexivity.
      * exact K'.
      * intros Q. apply (L (c, r) []). rewrite <- Heob, Es in Q. rewrite zlen_app in Q.
        destruct l as [|x l]; [reflexivity|]. exfalso. clear - Q. unfold zlen in Q. cbn [length] in Q. lia.
    + intros p [<-|I]; [apply upd_same|].
      destruct (Z.eq_dec (fst p) c) as [E1|E1]; [destruct (Z.eq_dec (snd p) r) as [E2|E2]|].
      * assert (p = (c, r)) as -> by (destruct p; cbn [fst snd] in *; congruence). apply upd_same.
      * rewrite upd_other by (destruct p; cbn [fst snd] in *; congruence). apply K', I.
      * rewrite upd_other by (destruct p; cbn [fst snd] in *; congruence). apply K', I.
Qed.

(** ** Signs *)
Definition dc_cat (l : list (Z * Z)) (dc : Z) : Z :=
  fold_left (fun d p => if (fst p =? 0) && (snd p =? 0) && negb (cf p =? 0) then if cf p <? 0 then 1 else 2 else d) l dc.

Lemma signs_read dcx l : forall k q cul dc, NoDup l -> (forall p, In p l -> Z.abs (cf p) < 2 ^ 20) ->
  known hl coeffs q l ->
  exists q', reads (read_signs ptype dcx k l q cul dc) (encode_coeff_signs ptype dcx k (map cf l))
               (q', (cul + fold_right Z.add 0 (map Z.abs (map cf l)), dc_cat l dc)) /\
             (forall p, In p l -> q' p = cf p) /\ (forall p, ~ In p l -> q' p = q p).
Proof.
  induction l as [|p l IH]; intros k q cul dc N B K.
  - exists q. split; [|split; [intros p []|intros; reflexivity]].
    cbn [read_signs encode_coeff_signs map dc_cat fold_left fold_right]. rewrite Z.add_0_r. apply reads_ret.
  - inversion N as [|? ? N1 N2]; subst.
    pose proof (K p (or_introl eq_refl)) as Kp. pose proof (B p (or_introl eq_refl)) as Bp.
    set (v := cf p) in *.
    destruct (IH (k + 1) (upd q p v) (cul + Z.abs v)
                (if (fst p =? 0) && (snd p =? 0) && negb (v =? 0) then if v <? 0 then 1 else 2 else dc) N2)
      as [q' [R [Q1 Q2]]].
    { intros x Hx. apply B. right. exact Hx. }
    { intros x Hx. rewrite upd_other by (intros ->; contradiction). apply K. right. exact Hx. }
    exists q'. split; [|split].
    + cbn [map dc_cat fold_left fold_right]. fold v. rewrite Z.add_assoc. fold (dc_cat l).
      match goal with |- reads _ _ (?a, (?b, ?c)) =>
        replace c with (dc_cat l (if (fst p =? 0) && (snd p =? 0) && negb (v =? 0) then if v <? 0 then 1 else 2 else dc)) by reflexivity end.
      cbn [read_signs encode_coeff_signs]. fold v. rewrite Kp.
      assert (Lnd : Z.land (Z.abs v) 0xFFFFF = Z.abs v).
      { change 0xFFFFF with (Z.ones 20). rewrite Z.land_ones by lia. apply Z.mod_small. lia. }
      destruct (v =? 0) eqn:Ev; cbn [negb] in R.
      * apply Z.eqb_eq in Ev. cbn [negb wif]. rewrite wnil_app.
        replace (Z.min 15 (Z.abs v)) with 0 in * by lia. cbn [Z.eqb negb].
        eapply reads_nil_bind; [apply reads_ret|]. cbv beta.
        change (14 <? 0) with false. cbv iota.
        eapply reads_nil_bind; [apply reads_ret|]. cbv beta zeta.
        change (0 <? 0) with false. change (0 =? 1) with false. cbv iota.
        rewrite !andb_false_r in *. change (Z.land 0 1048575) with 0.
        rewrite Ev in R. replace (Z.abs v) with 0 by lia. change (Z.abs 0) with 0 in R. exact R.
      * apply Z.eqb_neq in Ev. cbn [negb wif].
        replace (Z.min 15 (Z.abs v) =? 0) with false by lia. cbn [negb].
        rewrite wapp_assoc. set (s := if v <? 0 then 1 else 0).
        assert (Hs : 0 <= s < 2) by (unfold s; destruct (v <? 0); lia).
        eapply reads_bind with (a := s).
        { destruct (k =? 0); [apply reads_sym|apply reads_lit]; lia. }
        cbv beta.
        eapply reads_bind with (a := Z.abs v).
        { destruct (14 <? Z.abs v) eqn:Q; cbn [wif].
          - replace (14 <? Z.min 15 (Z.abs v)) with true by lia.
            eapply reads_val; [apply (reads_last _ _ _ (fun x => x + 14)); apply golomb_read; lia|]. lia.
          - replace (14 <? Z.min 15 (Z.abs v)) with false by lia.
            eapply reads_val; [apply reads_ret|]. lia. }
        cbv beta zeta. rewrite Lnd. replace (0 <? Z.abs v) with true by lia.
        assert (E1 : (if s =? 1 then - Z.abs v else Z.abs v) = v) by (unfold s; destruct (v <? 0) eqn:Q; cbn; lia).
        assert (E2 : (if s =? 1 then 1 else 2) = (if v <? 0 then 1 else 2)) by (unfold s; destruct (v <? 0); reflexivity).
        rewrite E1, E2. exact R.
    + intros x [<-|I]; [|apply Q1, I]. rewrite Q2 by exact N1. apply upd_same.
    + intros x I. cbn [In] in I. rewrite Q2 by tauto. apply upd_other. intuition.
Qed.
End Block.
