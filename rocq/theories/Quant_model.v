(** Model of /repo/src/quantize/mod.rs (quantizer index selection, division by
    multiplication, quantization and dequantization), of the choice of
    quantizer indices in /repo/src/rate.rs and of the inversion of the scan
    tables in /repo/src/scan_order.rs. *)
From Verif Require Import Base Tile_model Config_model LogExp_model Quant_tables Scan_tables.

(** Slice indexing; [None]: out of bounds *)
Definition at_ {A} (l : list A) (i : Z) : option A := if 0 <=? i then nth_error l (Z.to_nat i) else None.
Fixpoint set_nth {A} (l : list A) (i : nat) (v : A) : option (list A) :=
  match l, i with
  | [], _ => None
  | _ :: l, O => Some (v :: l)
  | x :: l, S i => do l' <- set_nth l i v; Some (x :: l')
  end.
Definition put {A} (l : list A) (i : Z) (v : A) : option (list A) :=
  if 0 <=? i then set_nth l (Z.to_nat i) v else None.

(** ** Transform sizes *)

(** [TxSize] (/repo/src/transform/mod.rs:101-171) by index: logarithms of width and height *)
Definition tx_dims : list (Z * Z) :=
  [(2, 2); (3, 3); (4, 4); (5, 5); (6, 6);
   (2, 3); (3, 2); (3, 4); (4, 3); (4, 5); (5, 4); (5, 6); (6, 5);
   (2, 4); (4, 2); (3, 5); (5, 3); (4, 6); (6, 4)].
Definition tx_area (t : Z) : Z :=
  match at_ tx_dims t with Some (w, h) => 2 ^ (w + h) | None => 0 end.

(** [av1_get_coded_tx_size] (/repo/src/context/mod.rs:95-102) *)
Definition coded_tx (t : Z) : Z :=
  if (t =? 4) || (t =? 12) || (t =? 11) then 3
  else if t =? 17 then 9
  else if t =? 18 then 10
  else t.

(** [get_log_tx_scale] (quantize/mod.rs:30-35) *)
Definition log_tx_scale (t : Z) : Z := b2z (256 <? tx_area t) + b2z (1024 <? tx_area t).

(** ** Scan orders *)

(** [invert] (scan_order.rs:895-903) *)
Fixpoint invert_loop (i : Z) (scan iscan : list Z) : option (list Z) :=
  match scan with
  | [] => Some iscan
  | s :: scan => do iscan <- put iscan s (u16 i); invert_loop (i + 1) scan iscan
  end.
Definition invert (scan : list Z) : option (list Z) := invert_loop 0 scan scan.

(** [av1_scan_orders] indexed by transform size and type (scan_order.rs:949-1321); a
    seventeenth type (WHT_WHT) is out of bounds *)
Definition scan_order (t ty : Z) : option (list Z * list Z) :=
  do row <- at_ scan_table t; do s <- at_ row ty; do i <- invert s; Some (s, i).

(** ** Quantizer steps *)

(** index of the table by bit depth (quantize/mod.rs:40, 48) *)
Definition bd_index (bd : Z) : Z := Z.min (Z.shiftr (Z.lxor bd 8) 1) 2.
Definition dc_tables : list (list Z) := [dc_qlookup_Q3; dc_qlookup_10_Q3; dc_qlookup_12_Q3].
Definition ac_tables : list (list Z) := [ac_qlookup_Q3; ac_qlookup_10_Q3; ac_qlookup_12_Q3].
Definition q_at (tables : list (list Z)) (qindex delta bd : Z) : option Z :=
  do t <- at_ tables (bd_index bd); at_ t (Z.min (Z.max (qindex + delta) 0) 255).
(** [dc_q], [ac_q] (quantize/mod.rs:37-51) *)
Definition dc_q : Z -> Z -> Z -> option Z := q_at dc_tables.
Definition ac_q : Z -> Z -> Z -> option Z := q_at ac_tables.

(** [select_qi] (quantize/mod.rs:54-79).  [bs] is the result of
    [slice::binary_search]: [inl i] for Ok(i), [inr i] for Err(i).  NonZeroU16::new
    of a cast to u16: [None] when the cast gives zero. *)
Definition select_qi (bs : list Z -> Z -> Z + Z) (quantizer : Z) (table : list Z) : option Z :=
  do lo <- at_ table 0; do hi <- at_ table 255;
  if quantizer <? lo then Some 0
  else if hi <=? quantizer then Some 255
  else
    let q := u16 quantizer in
    if q =? 0 then None else
    match bs table q with
    | inl i => Some (u8 i)
    | inr i =>
        do a <- at_ table (i - 1); do b <- at_ table i;
        if sw 32 (quantizer) * sw 32 (quantizer) <? a * b then Some (u8 (i - 1)) else Some (u8 i)
    end.
(** [select_dc_qi], [select_ac_qi] (quantize/mod.rs:81-99) *)
Definition table_for (tables : list (list Z)) (bd : Z) : option (list Z) :=
  if bd =? 8 then at_ tables 0 else if bd =? 10 then at_ tables 1 else if bd =? 12 then at_ tables 2 else None.
Definition select_dc_qi bs (quantizer bd : Z) : option Z := do t <- table_for dc_tables bd; select_qi bs quantizer t.
Definition select_ac_qi bs (quantizer bd : Z) : option Z := do t <- table_for ac_tables bd; select_qi bs quantizer t.

(** ** Division by multiplication *)

(** [divu_gen] (quantize/mod.rs:134-151): [None] for overflow of t + 1 in u32 *)
Definition divu_gen (d : Z) : option (Z * Z * Z) :=
  let m := 32 - (31 - Z.log2 d) - 1 in
  if Z.land d (d - 1) =? 0 then Some (4294967295, 4294967295, m)
  else
    let t := u64 (2 ^ (m + 32)) / d in
    let r := Z.land (u64 (t * d + d)) (2 ^ 32 - 1) in
    if r <=? 2 ^ m then do a <- u32c (u32 t + 1); Some (a, 0, m)
    else Some (u32 t, u32 t, m).

(** [divu_pair] (153-162): [None] for overflow of u64 *)
Definition divu_pair (x : Z) (d : Z * Z * Z) : option Z :=
  let '(a, b, shift) := d in
  let y := a * x + b in
  if y <? 2 ^ 64 then Some (u32 (Z.shiftr (Z.shiftr y 32) shift)) else None.

(** ** Quantization *)

Record qctx := QCtx {
  qc_scale : Z;
  qc_dc : Z; qc_dc_off : Z; qc_dc_div : Z * Z * Z;
  qc_ac : Z; qc_off_eob : Z; qc_off0 : Z; qc_off1 : Z; qc_ac_div : Z * Z * Z
}.

(** [QuantizationContext::update] (quantize/mod.rs:223-272) *)
Definition q_update (qindex t : Z) (intra : bool) (bd dcd acd : Z) : option qctx :=
  do dc <- dc_q qindex dcd bd; do dd <- divu_gen dc;
  do ac <- ac_q qindex acd bd; do da <- divu_gen ac;
  Some (QCtx (log_tx_scale t)
    dc (dc * (if intra then 109 else 108) / 256) dd
    ac (ac * (if intra then 88 else 44) / 256) (ac * (if intra then 98 else 97) / 256)
    (ac * (if intra then 109 else 108) / 256) da).

(** [copysign] (164-171) followed by T::cast_from *)
Definition signed_as (tb v coeff : Z) : Z := sw tb (if coeff <? 0 then - sw 32 v else sw 32 v).

(** quantized DC coefficient (quantize/mod.rs:281-288) *)
Definition q_dc (q : qctx) (tb c : Z) : option Z :=
  let coeff := sw 32 (c * 2 ^ qc_scale q) in
  do x <- u32c (Z.abs coeff + qc_dc_off q);
  do v <- divu_pair x (qc_dc_div q);
  Some (signed_as tb v coeff).

(** [T::abs]: [None] for the most negative value *)
Definition abs_t (tb c : Z) : option Z := if c =? - 2 ^ (tb - 1) then None else Some (Z.abs c).

(** the maximum of the scan positions of large coefficients (quantize/mod.rs:295-302) *)
Fixpoint last_big (tb deadzone : Z) (iscan coeffs : list Z) (m : Z) : option Z :=
  match iscan, coeffs with
  | i :: iscan, c :: coeffs =>
      do a <- abs_t tb c;
      last_big tb deadzone iscan coeffs (Z.max m (if deadzone <=? a then i else 0))
  | _, _ => Some m
  end.

(** one AC level (quantize/mod.rs:321-338): the new level mode and the level *)
Definition q_ac (q : qctx) (mode abs_coeff : Z) : option (Z * Z) :=
  do level0 <- divu_pair abs_coeff (qc_ac_div q);
  let offset := if 1 - mode <? level0 then qc_off1 q else qc_off0 q in
  do lhs <- u32c (abs_coeff + offset);
  do rhs <- u32c ((level0 + 1) * qc_ac q);
  let v := level0 + b2z (rhs <=? lhs) in
  Some (if negb (mode =? 0) && (v =? 0) then 0 else if 1 <? v then 1 else mode, v).
Fixpoint q_loop (q : qctx) (tb : Z) (coeffs l : list Z) (mode : Z) (out : list Z) : option (list Z) :=
  match l with
  | [] => Some out
  | pos :: l =>
      do c <- at_ coeffs pos;
      let coeff := sw 32 (c * 2 ^ qc_scale q) in
      do mv <- q_ac q mode (Z.abs coeff);
      do out <- put out pos (signed_as tb (snd mv) coeff);
      q_loop q tb coeffs l (fst mv) out
  end.

(** [rposition] of a nonzero level, plus one (quantize/mod.rs:346-353) *)
Fixpoint scan_end (out scan : list Z) (i last : Z) : option Z :=
  match scan with
  | [] => Some last
  | s :: scan => do v <- at_ out s; scan_end out scan (i + 1) (if v =? 0 then last else i + 1)
  end.

(** [quantize] (quantize/mod.rs:274-357); [tb]: 16 for T = i16, 32 for i32;
    [out]: the contents of [qcoeffs] on entry.  The final debug assertion is an error. *)
Definition quantize (q : qctx) (tb t ty : Z) (coeffs out : list Z) : option (list Z * Z) :=
  do so <- scan_order t ty;
  let scan := fst so in let iscan := snd so in
  do c0 <- at_ coeffs 0;
  do q0 <- q_dc q tb c0;
  do out <- put out 0 q0;
  let deadzone := sw tb (align_shift (qc_scale q) (qc_ac q - qc_off_eob q)) in
  do m <- last_big tb deadzone iscan coeffs 0;
  let eob := if 0 <? m then m + 1 else b2z (negb (q0 =? 0)) in
  do out <- q_loop q tb coeffs (skipn 1 (firstn (Z.to_nat eob) scan)) 1 out;
  do e <- scan_end out scan 0 0;
  if e =? eob then Some (out, eob) else None.

(** [dequantize] (quantize/mod.rs:366-384), the portable version *)
Definition dequantize (qindex : Z) (coeffs : list Z) (tb t bd dcd acd : Z) : option (list Z) :=
  let s := log_tx_scale t in
  do dc <- dc_q qindex dcd bd; do ac <- ac_q qindex acd bd;
  let one quant c := sw tb (Z.shiftr (sw 32 (c * quant + (if c <? 0 then 2 ^ s - 1 else 0))) s) in
  match coeffs with
  | [] => Some []
  | c :: coeffs => Some (one dc c :: map (one ac) coeffs)
  end.

(** ** Quantizer indices of a frame *)

(** [chroma_offset] (/repo/src/rate.rs:520-534) *)
Definition chroma_offset (log_q : Z) (cs : chroma) : option (Z * Z) :=
  let x := Z.max log_q 0 in
  let y := match cs with
           | Cs400 => 0
           | Cs420 => Z.shiftr x 2 + Z.shiftr x 6
           | Cs422 => Z.shiftr x 3 + Z.shiftr x 4 - Z.shiftr x 7
           | Cs444 => Z.shiftr x 4 + Z.shiftr x 5 + Z.shiftr x 8
           end in
  do l7 <- blog64 7; do l5 <- blog64 5; do l4 <- blog64 4;
  do u <- i64c (l7 - l4 - y); do v <- i64c (l5 - l4 - y); Some (u, v).

(** Q_MODEL_ADD and Q_MODEL_MUL (rate.rs:92-115) *)
Definition q_model_add (cs : chroma) : Z :=
  match cs with Cs420 => - 0x244FE7ECB3DD90 | Cs422 => - 0x3741DA38AD0924 | Cs444 => - 0x7083BDA626311C | Cs400 => 0 end.
Definition q_model_mul (cs : chroma) : Z :=
  match cs with Cs420 => 0x8A050DD | Cs422 => 0x8877666 | Cs444 => 0x8D4A712 | Cs400 => 0 end.

(** [QuantizerParameters::new_from_log_q] (rate.rs:537-596): the two arrays
    dc_qi and ac_qi.  lambda and dist_scale are floating point and left out, but
    for the integer arguments of [bexp64].  [None] is an overflow or a
    panic in [select_qi].  The exponential is a parameter: it only has to return. *)
Definition new_from_log_q (bexp : Z -> Z) bs (log_target_q bd : Z) (cs : chroma) (is_intra : bool) (log_isqrt : Z)
  : option (list Z * list Z) :=
  do q <- q57 (3 + bd - 8);
  do scale <- i64c (log_isqrt + q);
  do log_q_y <- (if negb is_intra && (bd =? 8)
                 then do a <- i64c (Z.shiftr log_target_q 32 * q_model_mul cs);
                      do b <- i64c (log_target_q + a);
                      i64c (b + q_model_add cs)
                 else Some log_target_q);
  do ly <- i64c (log_q_y + scale); let quantizer := bexp ly in
  do lo <- i64c (log_q_y + log_isqrt);
  do off <- chroma_offset lo cs;
  let mono := chroma_eqb cs Cs400 in
  do log_q_u <- i64c (log_q_y + fst off);
  do log_q_v <- i64c (log_q_y + snd off);
  do lu <- i64c (log_q_u + scale); let quantizer_u := bexp lu in
  do lv <- i64c (log_q_v + scale); let quantizer_v := bexp lv in
  do _ls <- i64c (log_target_q + log_isqrt);
  do q16 <- q57 16;
  let dist q := (do d <- i64c (log_target_q - q); do e <- i64c (d * 2); i64c (e + q16)) in
  do _dy <- dist log_q_y; do _du <- dist log_q_u; do _dv <- dist log_q_v;
  do a0 <- select_ac_qi bs quantizer bd;
  let base := Z.max a0 1 in
  let min_qi := Z.max (Z.max (base - 63) 0) 1 in
  let max_qi := Z.min (base + 63) 255 in
  (* u8::clamp panics when min_qi > max_qi *)
  if max_qi <? min_qi then None else
  let clamp_qi qi := Z.min (Z.max qi min_qi) max_qi in
  do d0 <- select_dc_qi bs quantizer bd;
  do d1 <- select_dc_qi bs quantizer_u bd; do d2 <- select_dc_qi bs quantizer_v bd;
  do a1 <- select_ac_qi bs quantizer_u bd; do a2 <- select_ac_qi bs quantizer_v bd;
  let pl x := if mono then 0 else clamp_qi x in
  Some ([clamp_qi d0; pl d1; pl d2], [base; pl a1; pl a2]).

(** [set_quantizers] (/repo/src/encoder.rs:1244-1250): base_q_idx, dc_delta_q, ac_delta_q *)
Definition set_quantizers (dc ac : list Z) : Z * list Z * list Z :=
  let base := nth 0 ac 0 in
  (base, map (fun q => sw 8 (q - base)) dc, map (fun q => sw 8 (q - base)) ac).
