(** Model of two-pass rate control data in /repo/src/rate.rs: what the first
    pass writes, and how the second pass parses it and keeps its window of
    frame statistics.  [f] stands for bexp_q24 (rate.rs only adds and subtracts
    its values). *)
From Verif Require Import Base LogExp_model Quant_model.

(** FRAME_NSUBTYPES = 4; frame subtype 4 is a show-existing frame *)

(** [RCFrameMetrics] (rate.rs:209-221) *)
Record metrics := Metrics { m_scale : Z; m_fti : Z; m_show : bool }.
(** [RCFrameMetrics::new] (224-226) *)
Definition no_metrics := Metrics 0 0 false.

(** [RCSummary] (233-240) *)
Record summary := Summary { s_ntus : Z; s_nframes : list Z; s_exp : list Z; s_sum : list Z; s_total : Z }.

(** ** First pass *)

(** [buffer_val] (rate.rs:1247-1258), as the bytes written *)
Fixpoint buffer_val (val : Z) (bytes : nat) : list Z :=
  match bytes with O => [] | S n => u8 val :: buffer_val (Z.shiftr val 8) n end.
Definition MAGIC := 0x50324156.
Definition VERSION := 1.
Definition HEADER_SZ : nat := 68.
Definition PACKET_SZ : nat := 8.

(** What the first pass accumulates: number of shown frames, frames of each
    subtype, sums of scales (rate.rs:430-470) *)
Record pass1 := Pass1 { p_ntus : Z; p_nframes : list Z; p_sum : list Z }.
Definition pass1_init := Pass1 0 [0; 0; 0; 0; 0] [0; 0; 0; 0].

(** The first-pass part of [update_state] for a frame that is not a trial
    (1211-1214) followed by [emit_frame_data] (1294-1319).  The count of coded
    and show-existing frames is the number of frames before this one plus one;
    [None]: limit reached or overflow. *)
Definition emit_frame_data (f : Z -> Z) (p : pass1) (count : Z) (m : metrics) : option (pass1 * list Z) :=
  do n <- at_ (p_nframes p) (m_fti m);
  do nframes <- put (p_nframes p) (m_fti m) (if n <? 2 ^ 31 - 1 then n + 1 else n);
  do sums <- (if m_fti m <? 4
              then do s <- at_ (p_sum p) (m_fti m); do s' <- i64c (s + f (m_scale m)); put (p_sum p) (m_fti m) s'
              else Some (p_sum p));
  do ntus <- (if m_show m then i32c (p_ntus p + 1) else Some (p_ntus p));
  if 2 ^ 31 - 1 <=? count then None
  else Some (Pass1 ntus nframes sums,
             buffer_val (Z.lor (b2z (m_show m) * 2 ^ 31) (m_fti m)) 4 ++ buffer_val (m_scale m) 4).
(** [emit_summary] (1322-1339) *)
Definition emit_summary (p : pass1) (exps : list Z) : list Z :=
  buffer_val MAGIC 4 ++ buffer_val VERSION 4 ++ buffer_val (p_ntus p) 4 ++
  flat_map (fun n => buffer_val n 4) (p_nframes p) ++ flat_map (fun e => buffer_val e 1) exps ++
  flat_map (fun s => buffer_val s 8) (p_sum p).
(** a whole first pass: a packet after every frame, then the summary *)
Fixpoint run_pass1 (f : Z -> Z) (p : pass1) (count : Z) (ms : list metrics) : option (pass1 * list (list Z)) :=
  match ms with
  | [] => Some (p, [])
  | m :: ms =>
      do pb <- emit_frame_data f p (count + 1) m;
      do r <- run_pass1 f (fst pb) (count + 1) ms;
      Some (fst r, snd pb :: snd r)
  end.

(** ** Deserialization *)

(** [RCDeserialize] (rate.rs:246-254) *)
Record des := Des { d_pos : Z; d_fill : Z; d_buf : list Z }.
Definition des_init := Des 0 0 (repeat 0 HEADER_SZ).

(** [buffer_fill] (271-282); [buf] is what follows the consumed part; result: the number of bytes consumed *)
Fixpoint buffer_fill (d : des) (buf : list Z) (goal : Z) : option (des * Z) :=
  match buf with
  | [] => Some (d, 0)
  | b :: buf =>
      if d_fill d <? goal then
        do buf' <- put (d_buf d) (d_fill d) b;
        do r <- buffer_fill (Des (d_pos d) (d_fill d + 1) buf') buf goal;
        Some (fst r, snd r + 1)
      else Some (d, 0)
  end.
(** [unbuffer_val] (285-296) *)
Fixpoint unbuffer_loop (n : nat) (d : des) (shift ret : Z) : option (des * Z) :=
  match n with
  | O => Some (d, ret)
  | S n =>
      do b <- at_ (d_buf d) (d_pos d);
      unbuffer_loop n (Des (d_pos d + 1) (d_fill d) (d_buf d)) (shift + 8)
        (Z.lor ret (sw 64 (b * 2 ^ shift)))
  end.
Definition unbuffer_val (n : nat) (d : des) : option (des * Z) := unbuffer_loop n d 0 0.

(** A fallible computation on the deserializer: [None] is a panic, [inl] an Err. *)
Definition parse A := option (des * (unit + A)).
(** [parse_metrics] (299-310) *)
Definition parse_metrics (d : des) : parse metrics :=
  if d_fill d <? 8 then None else
  do a <- unbuffer_val 4 d;
  let ft_val := snd a in
  let show := negb (Z.shiftr ft_val 31 =? 0) in
  let fti := Z.land ft_val 0x7FFFFFFF in
  if 4 <? fti then Some (fst a, inl tt)
  else do b <- unbuffer_val 4 (fst a); Some (fst b, inr (Metrics (sw 32 (snd b)) fti show)).

(** the loops of [parse_summary] over frame counts (331-342), exponents and sums (351-360) *)
Fixpoint parse_counts (k : nat) (d : des) (total : Z) : parse (list Z * Z) :=
  match k with
  | O => Some (d, inr ([], total))
  | S k =>
      do a <- unbuffer_val 4 d;
      let n := sw 32 (snd a) in
      if n <? 0 then Some (fst a, inl tt)
      else match i32c (total + n) with
           | None => Some (fst a, inl tt)
           | Some total =>
               do r <- parse_counts k (fst a) total;
               match snd r with
               | inl e => Some (fst r, inl e)
               | inr lt => Some (fst r, inr (n :: fst lt, snd lt))
               end
           end
  end.
Fixpoint parse_exps (k : nat) (d : des) : option (des * list Z) :=
  match k with
  | O => Some (d, [])
  | S k => do a <- unbuffer_val 1 d; do r <- parse_exps k (fst a); Some (fst r, u8 (snd a) :: snd r)
  end.
Fixpoint parse_sums (k : nat) (d : des) : parse (list Z) :=
  match k with
  | O => Some (d, inr [])
  | S k =>
      do a <- unbuffer_val 8 d;
      if snd a <? 0 then Some (fst a, inl tt)
      else do r <- parse_sums k (fst a);
           match snd r with inl e => Some (fst r, inl e) | inr l => Some (fst r, inr (snd a :: l)) end
  end.
(** [parse_summary] (313-363) *)
Definition parse_summary (d : des) : parse summary :=
  do a <- unbuffer_val 4 d;
  if negb (snd a =? MAGIC) then Some (fst a, inl tt) else
  do a <- unbuffer_val 4 (fst a);
  if negb (snd a =? VERSION) then Some (fst a, inl tt) else
  do a <- unbuffer_val 4 (fst a);
  let ntus := sw 32 (snd a) in
  if ntus <? 1 then Some (fst a, inl tt) else
  do c <- parse_counts 5 (fst a) 0;
  match snd c with
  | inl e => Some (fst c, inl e)
  | inr (nframes, total) =>
      if total <? ntus then Some (fst c, inl tt) else
      do e <- parse_exps 4 (fst c);
      do s <- parse_sums 4 (fst e);
      match snd s with
      | inl x => Some (fst s, inl x)
      | inr sums => Some (fst s, inr (Summary ntus nframes (snd e) sums total))
      end
  end.

(** ** Second pass *)

(** The part of [RCState] that second-pass parsing uses (rate.rs:365-504):
    circular buffer ([w_buf], empty for whole-file buffering), [w_n] entries from
    [w_head]; [w_done] is nencoded_frames + nsef_frames. *)
Record rc2 := Rc2 {
  w_des : des;
  w_buf : list metrics; w_n : Z; w_head : Z;
  w_ready : bool; w_cur : metrics;
  w_delay : Z;
  w_total : list Z; w_total_total : Z; w_left : list Z; w_ntus_left : Z;
  w_nframes : list Z; w_sum : list Z; w_ntus : Z;
  w_done : Z
}.

(** State after [new] and [init_second_pass] (687-700, 1360-1383): [delay] is
    [reservoir_frame_delay], [finite] is [reservoir_frame_delay_is_set] *)
Definition rc2_init (finite : bool) (delay : Z) : rc2 :=
  Rc2 des_init (if finite then repeat no_metrics (Z.to_nat (delay * 2 + 8)) else []) 0 0
    false no_metrics delay [0; 0; 0; 0; 0] 0 [0; 0; 0; 0; 0] 0 [0; 0; 0; 0; 0] [0; 0; 0; 0] 0 0.

Definition finite (r : rc2) : bool := match w_buf r with [] => false | _ => true end.
Definition total_i32 (l : list Z) : option Z :=
  fold_left (fun a x => do a <- a; i32c (a + x)) l (Some 0).

Definition set_des (r : rc2) (d : des) : rc2 :=
  Rc2 d (w_buf r) (w_n r) (w_head r) (w_ready r) (w_cur r) (w_delay r) (w_total r) (w_total_total r) (w_left r)
    (w_ntus_left r) (w_nframes r) (w_sum r) (w_ntus r) (w_done r).
Definition set_ready (r : rc2) (b : bool) : rc2 :=
  Rc2 (w_des r) (w_buf r) (w_n r) (w_head r) b (w_cur r) (w_delay r) (w_total r) (w_total_total r) (w_left r)
    (w_ntus_left r) (w_nframes r) (w_sum r) (w_ntus r) (w_done r).
Definition set_cur (r : rc2) (m : metrics) : rc2 :=
  Rc2 (w_des r) (w_buf r) (w_n r) (w_head r) true m (w_delay r) (w_total r) (w_total_total r) (w_left r)
    (w_ntus_left r) (w_nframes r) (w_sum r) (w_ntus r) (w_done r).

(** [setup_second_pass] (1385-1405), without the bit reservoir *)
Definition setup_second_pass (r : rc2) (s : summary) : option rc2 :=
  do tt <- total_i32 (s_nframes s);
  Some (Rc2 (w_des r) (w_buf r) (w_n r) (w_head r) (w_ready r) (w_cur r)
    (if finite r then Z.min (w_delay r) (s_ntus s) else s_ntus s)
    (s_nframes s) tt (s_nframes s) (s_ntus s)
    (if finite r then w_nframes r else s_nframes s) (if finite r then w_sum r else s_sum s)
    (w_ntus r) (w_done r)).

(** [i32::clamp] panics when the bounds are reversed *)
Definition clampc (x lo hi : Z) : option Z := if hi <? lo then None else Some (Z.min (Z.max x lo) hi).
(** [twopass_in_frames_needed] (1447-1463) with a target bitrate *)
Definition frames_needed (r : rc2) : option Z :=
  if negb (finite r) then Some (b2z (negb (w_ready r)))
  else do a <- total_i32 (w_nframes r); do b <- total_i32 (w_left r);
       do x <- i32c (w_delay r - w_ntus r); do hi <- i32c (b - a); clampc x 0 hi.

(** Adding metrics to the window (1486-1505 and 1563-1583): [inl] is an Err *)
Definition push (f : Z -> Z) (r : rc2) (m : metrics) : option (unit + rc2) :=
  if zlen (w_buf r) <=? w_n r then Some (inl tt)
  else
    let fmi := w_head r + w_n r in
    let fmi := if zlen (w_buf r) <=? fmi then fmi - zlen (w_buf r) else fmi in
    do buf <- put (w_buf r) fmi m;
    do c <- at_ (w_nframes r) (m_fti m); do c <- i32c (c + 1); do nf <- put (w_nframes r) (m_fti m) c;
    do sums <- (if m_fti m <? 4
                then do s <- at_ (w_sum r) (m_fti m); do s <- i64c (s + f (m_scale m)); put (w_sum r) (m_fti m) s
                else Some (w_sum r));
    do ntus <- (if m_show m then i32c (w_ntus r + 1) else Some (w_ntus r));
    Some (inr (Rc2 (w_des r) buf (w_n r + 1) (w_head r) (w_ready r) (w_cur r) (w_delay r) (w_total r)
      (w_total_total r) (w_left r) (w_ntus_left r) nf sums ntus (w_done r))).

Inductive res := Err | Ok (v : Z).

(** [parse_frame_data_packet] (1465-1516) *)
Definition parse_packet (f : Z -> Z) (r : rc2) (buf : list Z) : option (rc2 * res) :=
  if negb (zlen buf =? 8) then Some (r, Err) else
  do bf <- buffer_fill (w_des r) buf 8;
  let d := Des 0 (d_fill (fst bf)) (d_buf (fst bf)) in
  do pm <- parse_metrics d;
  match snd pm with
  | inl _ => Some (set_des r (fst pm), Err)
  | inr m =>
      let r := set_des r (Des (d_pos (fst pm)) 0 (d_buf (fst pm))) in
      if negb (finite r) then Some (set_cur r m, Ok 0)
      else
        do needed <- frames_needed r;
        if 0 <? needed then
          do p <- push f r m;
          match p with
          | inl _ => Some (r, Err)
          | inr r =>
              if needed =? 1 then do c <- at_ (w_buf r) (w_head r); Some (set_cur r c, Ok 0)
              else Some (r, Ok 0)
          end
        else Some (r, Err)
  end.

(** The loop of [twopass_parse_frame_data] with a buffer (1555-1592): state, consumed bytes,
    frames still needed; [left]: cur_nframes_left.  [fuel] bounds the number of iterations. *)
Fixpoint parse_loop (f : Z -> Z) (fuel : nat) (left : Z) (r : rc2) (buf : list Z) (consumed needed : Z)
  : option (rc2 * (unit + Z * Z)) :=
  if 0 <? needed then
    match fuel with
    | O => None
    | S fuel =>
        do bf <- buffer_fill (w_des r) buf 8;
        let consumed := consumed + snd bf in
        let buf := skipn (Z.to_nat (snd bf)) buf in
        let d := fst bf in
        if 8 <=? d_fill d then
          do pm <- parse_metrics (Des 0 (d_fill d) (d_buf d));
          match snd pm with
          | inl _ => Some (set_des r (fst pm), inl tt)
          | inr m =>
              do p <- push f (set_des r (fst pm)) m;
              match p with
              | inl _ => Some (set_des r (fst pm), inl tt)
              | inr r =>
                  do w <- total_i32 (w_nframes r);
                  do x <- i32c (w_delay r - w_ntus r); do hi <- i32c (left - w);
                  do needed <- clampc x 0 hi;
                  parse_loop f fuel left (set_des r (Des (d_pos (w_des r)) 0 (d_buf (w_des r)))) buf consumed needed
              end
          end
        else Some (set_des r d, inr (consumed, needed))
    end
  else Some (r, inr (consumed, needed)).

(** [twopass_parse_frame_data] (1525-1611) *)
Definition parse_frame_data (f : Z -> Z) (r : rc2) (maybe_buf : option (list Z)) (consumed : Z) : option (rc2 * res) :=
  if negb (finite r) then
    match maybe_buf with
    | None => Some (r, Ok (8 - d_fill (w_des r)))
    | Some buf =>
        do bf <- buffer_fill (w_des r) (skipn (Z.to_nat consumed) buf) 8;
        let d := fst bf in
        if 8 <=? d_fill d then
          do pm <- parse_metrics (Des 0 (d_fill d) (d_buf d));
          match snd pm with
          | inl _ => Some (set_des r (fst pm), Err)
          | inr m => Some (set_cur (set_des r (Des (d_pos (fst pm)) 0 (d_buf (fst pm)))) m, Ok (consumed + snd bf))
          end
        else Some (set_des r d, Ok (consumed + snd bf))
    end
  else
    do left <- total_i32 (w_left r);
    do needed <- frames_needed r;
    match maybe_buf with
    | None =>
        if 0 <? needed then Some (r, Ok (8 * needed - d_fill (w_des r)))
        else do c <- at_ (w_buf r) (w_head r); Some (set_cur r c, Ok consumed)
    | Some buf =>
        let rest := skipn (Z.to_nat consumed) buf in
        do l <- parse_loop f (S (S (length rest))) left r rest consumed needed;
        match l with
        | (r, inl _) => Some (r, Err)
        | (r, inr (consumed, needed)) =>
            if needed <=? 0 then do c <- at_ (w_buf r) (w_head r); Some (set_cur r c, Ok consumed)
            else Some (r, Ok consumed)
        end
    end.

(** [twopass_first_packet_size] (1432-1443) *)
Definition first_packet_size (r : rc2) : Z := 68 + (if finite r then w_delay r else 1) * 8.

(** [twopass_parse_summary] (1409-1426) *)
Definition twopass_parse_summary (r : rc2) (buf : list Z) : option (rc2 * res) :=
  do bf <- buffer_fill (w_des r) buf 68;
  let d := fst bf in
  if 68 <=? d_fill d then
    do ps <- parse_summary (Des 0 (d_fill d) (d_buf d));
    match snd ps with
    | inl _ => Some (set_des r (fst ps), Err)
    | inr s =>
        do r <- setup_second_pass (set_des r (fst ps)) s;
        Some (set_des r (Des (d_pos (w_des r)) 0 (d_buf (w_des r))), Ok (snd bf))
    end
  else Some (set_des r d, Ok (snd bf)).

(** [twopass_in] (1619-1645) after [init_second_pass] *)
Definition twopass_in (f : Z -> Z) (r : rc2) (maybe_buf : option (list Z)) : option (rc2 * res) :=
  do i0 <- at_ (w_total r) 0;
  do first <-
    (if i0 =? 0 then
       let r := set_ready r false in
       match maybe_buf with
       | Some buf => do x <- twopass_parse_summary r buf; Some (match snd x with Err => inl x | Ok c => inr (fst x, c) end)
       | None => Some (inl (r, Ok (first_packet_size r)))
       end
     else Some (inr (r, 0)));
  match first with
  | inl x => Some x
  | inr (r, consumed) =>
      do i0 <- at_ (w_total r) 0;
      if 0 <? i0 then
        if w_total_total r <=? w_done r then Some (set_ready r false, Ok consumed)
        else if negb (w_ready r) then parse_frame_data f r maybe_buf consumed
        else Some (r, Ok consumed)
      else Some (r, Ok consumed)
  end.

(** The second-pass part of [update_state] for a frame that is not a trial and codes
    at least one bit (rate.rs:1096-1157).  The counters of encoded and show-existing
    frames count together. *)
Definition pop (f : Z -> Z) (r : rc2) : option rc2 :=
  let m := w_cur r in
  do done <- i64c (w_done r + 1);
  do a <- at_ (w_left r) (m_fti m); do a <- i32c (a - 1); do left <- put (w_left r) (m_fti m) a;
  do c <- at_ (w_nframes r) (m_fti m); do c <- i32c (c - 1); do nf <- put (w_nframes r) (m_fti m) c;
  do sums <- (if m_fti m <? 4
              then do s <- at_ (w_sum r) (m_fti m); do s <- i64c (s - f (m_scale m)); put (w_sum r) (m_fti m) s
              else Some (w_sum r));
  do nt <- (if m_show m then
              do x <- i32c (w_ntus_left r - 1); do y <- i32c (w_ntus r - 1); Some (x, y)
            else Some (w_ntus_left r, w_ntus r));
  do nh <- (if finite r then
              if w_n r <=? 0 then None (* usize underflow *)
              else Some (w_n r - 1, if zlen (w_buf r) <=? w_head r + 1 then 0 else w_head r + 1)
            else Some (w_n r, w_head r));
  do x <- twopass_in f
    (Rc2 (w_des r) (w_buf r) (fst nh) (snd nh) false m (w_delay r) (w_total r) (w_total_total r) left (fst nt)
      nf sums (snd nt) done) None;
  Some (fst x).
