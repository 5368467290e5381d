(** The quantizer indices of a frame can be coded in its header. *)
From Verif Require Import Base Config_model LogExp_model Quant_tables Quant_model Quant_proof Quant_spec Quant_sel.

Lemma select_dc_ok bs q bd : binary_search_ok bs -> In bd [8; 10; 12] ->
  exists t i, table_for dc_tables bd = Some t /\ table_ok t /\ select_dc_qi bs q bd = Some i /\ chosen t q i.
Proof.
  intros Hbs Hbd. unfold select_dc_qi.
  assert (exists t, table_for dc_tables bd = Some t /\ table_ok t) as [t [E T]].
  { cbn [In] in Hbd. destruct Hbd as [<-|[<-|[<-|[]]]]; eexists; (split; [reflexivity|]); [exact dc8|exact dc10|exact dc12]. }
  exists t. rewrite E. destruct (select_chosen bs t q Hbs T) as [i [I C]]. exists i. auto.
Qed.
Lemma select_ac_ok bs q bd : binary_search_ok bs -> In bd [8; 10; 12] ->
  exists t i, table_for ac_tables bd = Some t /\ table_ok t /\ select_ac_qi bs q bd = Some i /\ chosen t q i.
Proof.
  intros Hbs Hbd. unfold select_ac_qi.
  assert (exists t, table_for ac_tables bd = Some t /\ table_ok t) as [t [E T]].
  { cbn [In] in Hbd. destruct Hbd as [<-|[<-|[<-|[]]]]; eexists; (split; [reflexivity|]); [exact ac8|exact ac10|exact ac12]. }
  exists t. rewrite E. destruct (select_chosen bs t q Hbs T) as [i [I C]]. exists i. auto.
Qed.
Lemma chosen_range t q i : table_ok t -> chosen t q i -> 0 <= i <= 255.
Proof. intros [L _] [[R _] _]. unfold zlen in R. lia. Qed.

Ltac ck := rewrite i64c_ok by lia.

(** everything about the result *)
Lemma indices_ok bexp bs lt bd cs intra li :
  binary_search_ok bs -> In bd [8; 10; 12] -> - 2 ^ 62 <= lt <= 2 ^ 62 -> - 2 ^ 60 <= li <= 2 ^ 60 ->
  exists dc ac, new_from_log_q bexp bs lt bd cs intra li = Some (dc, ac) /\
    length dc = 3%nat /\ length ac = 3%nat /\
    1 <= nth 0 ac 0 <= 255 /\
    (forall p, (p < 3)%nat -> p = 0%nat \/ cs <> Cs400 ->
       1 <= nth p dc 0 <= 255 /\ 1 <= nth p ac 0 <= 255 /\
       -63 <= nth p dc 0 - nth 0 ac 0 <= 63 /\ -63 <= nth p ac 0 - nth 0 ac 0 <= 63) /\
    (cs = Cs400 -> forall p, (1 <= p < 3)%nat -> nth p dc 0 = 0 /\ nth p ac 0 = 0).
Proof.
  intros Hbs Hbd Hlt Hli. unfold new_from_log_q.
  assert (Hq : q57 (3 + bd - 8) = Some ((3 + bd - 8) * 2 ^ 57)).
  { cbn [In] in Hbd. destruct Hbd as [<-|[<-|[<-|[]]]]; reflexivity. }
  rewrite Hq. assert (Hb : 8 <= bd <= 12) by (cbn [In] in Hbd; lia).
  set (b3 := 3 + bd - 8). assert (Hb3 : 3 <= b3 <= 7) by (unfold b3; lia). clearbody b3. clear Hq.
  rewrite (i64c_ok (li + b3 * 2 ^ 57)) by lia.
  set (sh := Z.shiftr lt 32).
  assert (Hsh : - 2 ^ 30 <= sh <= 2 ^ 30).
  { unfold sh. rewrite Z.shiftr_div_pow2 by lia. change (2 ^ 62) with (2 ^ 30 * 2 ^ 32) in Hlt.
    split; [apply Z.div_le_lower_bound; lia|]. apply Z.lt_succ_r. apply Z.div_lt_upper_bound; lia. }
  clearbody sh.
  assert (Hmul : 0 <= q_model_mul cs <= 0x8D4A712) by (destruct cs; cbn; lia).
  assert (Hadd : - 0x7083BDA626311C <= q_model_add cs <= 0) by (destruct cs; cbn; lia).
  set (mul := q_model_mul cs) in *. set (add := q_model_add cs) in *. clearbody mul add.
  assert (Hprod : - (2 ^ 30 * 0x8D4A712) <= sh * mul <= 2 ^ 30 * 0x8D4A712) by nia.
  set (prod := sh * mul) in *. clearbody prod.
  set (lqy := if negb intra && (bd =? 8) then _ else _).
  assert (exists y, lqy = Some y /\ - (2 ^ 62 + 2 ^ 58) <= y <= 2 ^ 62 + 2 ^ 58 /\ - 2 ^ 58 <= lt - y <= 2 ^ 58) as [y [Ey [Hy Hd]]].
  { unfold lqy. destruct (negb intra && (bd =? 8)).
    - ck. ck. ck. eexists. split; [reflexivity|]. lia.
    - eexists. split; [reflexivity|]. lia. }
  rewrite Ey. clear lqy Ey. ck. cbv zeta. ck.
  (* chroma offsets *)
  unfold chroma_offset. replace (blog64 7) with (Some 404582482588011319) by (vm_compute; reflexivity).
  replace (blog64 5) with (Some 334625104093305944) by (vm_compute; reflexivity).
  replace (blog64 4) with (Some 288230376151711744) by (vm_compute; reflexivity). cbv zeta.
  set (x := Z.max (y + li) 0).
  assert (Hx : 0 <= x <= 2 ^ 62 + 2 ^ 58 + 2 ^ 60) by (unfold x; lia). clearbody x.
  set (off := match cs with Cs420 => _ | Cs422 => _ | Cs444 => _ | Cs400 => _ end).
  assert (Hoff : 0 <= off <= 2 ^ 61).
  { unfold off. rewrite !Z.shiftr_div_pow2 by lia. destruct cs; Z.div_mod_to_equations; lia. }
  clearbody off. ck. ck. cbn [fst snd]. ck. ck. ck. ck. ck.
  change (q57 16) with (Some (16 * 2 ^ 57)). cbv iota beta.
  repeat ck.
  destruct (select_ac_ok bs (bexp (y + (li + b3 * 2 ^ 57))) bd Hbs Hbd) as [ta [a0 [_ [Ta [Ea Ca]]]]].
  rewrite Ea. apply chosen_range in Ca; [|exact Ta].
  set (base := Z.max a0 1). assert (Hbase : 1 <= base <= 255) by lia. clearbody base.
  destruct (Z.ltb_spec (Z.min (base + 63) 255) (Z.max (Z.max (base - 63) 0) 1)) as [|_]; [lia|].
  destruct (select_dc_ok bs (bexp (y + (li + b3 * 2 ^ 57))) bd Hbs Hbd) as [t1 [i1 [_ [T1 [E1 C1]]]]]. rewrite E1.
  apply chosen_range in C1; [|exact T1].
  set (lu := y + _ + (li + b3 * 2 ^ 57)) at 1.
  destruct (select_dc_ok bs (bexp lu) bd Hbs Hbd) as [t2 [i2 [_ [T2 [E2 C2]]]]]. rewrite E2. apply chosen_range in C2; [|exact T2].
  set (lv := y + (334625104093305944 - _ - off) + (li + b3 * 2 ^ 57)).
  destruct (select_dc_ok bs (bexp lv) bd Hbs Hbd) as [t3 [i3 [_ [T3 [E3 C3]]]]]. rewrite E3. apply chosen_range in C3; [|exact T3].
  fold lu.
  destruct (select_ac_ok bs (bexp lu) bd Hbs Hbd) as [t4 [i4 [_ [T4 [E4 C4]]]]]. rewrite E4. apply chosen_range in C4; [|exact T4].
  destruct (select_ac_ok bs (bexp lv) bd Hbs Hbd) as [t5 [i5 [_ [T5 [E5 C5]]]]]. rewrite E5. apply chosen_range in C5; [|exact T5].
  eexists _, _. split; [reflexivity|]. split; [reflexivity|]. split; [reflexivity|].
  clear - Hbase C1 C2 C3 C4 C5. cbn [nth]. split; [exact Hbase|]. split.
  - intros p Hp [->|Hc].
    + cbn [nth]. lia.
    + replace (chroma_eqb cs Cs400) with false by (destruct cs; [reflexivity..|congruence]).
      destruct p as [|[|[|p]]]; cbn [nth]; lia.
  - intros -> p Hp. cbn [chroma_eqb]. destruct p as [|[|[|p]]]; cbn [nth]; lia.
Qed.
