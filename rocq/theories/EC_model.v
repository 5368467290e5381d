(** Model of the multi-symbol range coder of /repo/src/ec.rs (the portable
    Rust implementation: the [rust] module for [update_cdf]).

    Registers are integers; the Rust widths are written out with [u16]/[u32]
    wherever the Rust code casts or could wrap.  `x >> k` on an unsigned
    register is [x / 2 ^ k]; `x & ((1 << k) - 1)` is [x mod 2 ^ k].  A usize
    never wraps.  An inverse CDF is the list of its u16 entries, in order; as
    in the Rust code the last entry holds the adaptation count. *)
From Verif Require Import Base.

(** ec.rs:26-28 *)
Definition EC_PROB_SHIFT : Z := 6.
Definition EC_MIN_PROB : Z := 4.

(** A token as passed to [StorageBackend::store] (ec.rs:106). *)
Record token := Token { t_fl : Z; t_fh : Z; t_nms : Z }.

(** [WriterBase::lr_compute] (ec.rs:334-346).  The subtractions are done on
    unbounded integers; [lr_in_range] in EC_proof.v shows they never go
    negative on a valid token. *)
Definition lr_compute (rng : Z) (t : token) : Z * Z :=
  let r := rng in
  let u := ((r / 256) * (t_fl t / 2 ^ EC_PROB_SHIFT)) / 2 ^ (7 - EC_PROB_SHIFT)
           + EC_MIN_PROB * t_nms t in
  let u := if 32768 <=? t_fl t then r else u in
  let v := ((r / 256) * (t_fh t / 2 ^ EC_PROB_SHIFT)) / 2 ^ (7 - EC_PROB_SHIFT)
           + EC_MIN_PROB * (t_nms t - 1) in
  (r - u, u16 (u - v)).

(** [u16::leading_zeros] on a nonzero value. *)
Definition lz16 (r : Z) : Z := 15 - Z.log2 r.

(** ** The writers.

    [WriterBase<WriterEncoder>] (ec.rs:116-129, 146-151). *)
Record encoder := Encoder {
  e_rng : Z;            (* WriterBase.rng : u16 *)
  e_cnt : Z;            (* WriterBase.cnt : i16 *)
  e_fake : Z;           (* WriterBase.fake_bits_frac : u32 *)
  e_precarry : list Z;  (* WriterEncoder.precarry : Vec<u16> *)
  e_low : Z             (* WriterEncoder.low : u32 *)
}.

(** [WriterEncoder::new] (ec.rs:184-189) with [WriterBase::new] (ec.rs:317). *)
Definition enc_new : encoder := Encoder 32768 (-9) 0 [] 0.

(** [store] for the Encoder (ec.rs:265-288). *)
Definition enc_store (w : encoder) (t : token) : encoder :=
  let '(l, r) := lr_compute (e_rng w) t in
  let low := u32 (l + e_low w) in
  let c := e_cnt w in
  let d := lz16 r in
  let s := c + d in
  if 0 <=? s then
    let c := c + 16 in
    let '(pc, low, c) :=
      if 8 <=? s
      then (e_precarry w ++ [u16 (low / 2 ^ c)], low mod 2 ^ c, c - 8)
      else (e_precarry w, low, c) in
    Encoder (u16 (r * 2 ^ d)) (c + d - 24) (e_fake w)
            (pc ++ [u16 (low / 2 ^ c)]) (u32 ((low mod 2 ^ c) * 2 ^ d))
  else
    Encoder (u16 (r * 2 ^ d)) s (e_fake w) (e_precarry w) (u32 (low * 2 ^ d)).

(** The flush loop of [done] (ec.rs:445-459).  The Rust loop runs while
    [s > 0]; here it has fuel and yields [None] when it is used up
    ([enc_done_some] shows the fuel given below always suffices). *)
Fixpoint flush_loop (fuel : nat) (pc : list Z) (e s c : Z) : option (list Z) :=
  if s <=? 0 then Some pc else
  match fuel with
  | O => None
  | S k => flush_loop k (pc ++ [u16 (e / 2 ^ (c + 16))]) (e mod 2 ^ (c + 16)) (s - 8) (c - 8)
  end.

(** Carry propagation of [done] (ec.rs:461-470): from the last element to the
    first, `c += precarry[offs]; out[offs] = c as u8; c >>= 8` with c : u16.
    Returns the carry left over (which Rust drops) and the bytes. *)
Fixpoint carry (pc : list Z) : Z * list Z :=
  match pc with
  | [] => (0, [])
  | x :: rest =>
      let '(c, out) := carry rest in
      let c := u16 (c + x) in
      (c / 256, u8 c :: out)
  end.

(** [WriterBase<WriterEncoder>::done] (ec.rs:434-473). *)
Definition enc_done (w : encoder) : option (list Z) :=
  let l := e_low w in
  let c := e_cnt w in
  let m := 16383 in
  let e := Z.lor (Z.land (l + m) (Z.lnot m)) (m + 1) in
  let s := 10 + c in
  match flush_loop 4 (e_precarry w) e s c with
  | None => None
  | Some pc => Some (snd (carry pc))
  end.

(** [WriterBase<WriterCounter>] (ec.rs:132-135) *)
Record counter := Counter { c_rng : Z; c_cnt : Z; c_fake : Z; c_bits : Z }.
Definition cnt_new : counter := Counter 32768 (-9) 0 0.

(** [store] for the Counter (ec.rs:195-201) *)
Definition cnt_store (w : counter) (t : token) : counter :=
  let '(_, r) := lr_compute (c_rng w) t in
  let d := lz16 r in
  Counter (u16 (r * 2 ^ d)) (c_cnt w) (c_fake w) (c_bits w + d).

(** [WriterBase<WriterRecorder>] (ec.rs:138-143) *)
Record recorder := Recorder {
  r_rng : Z; r_cnt : Z; r_fake : Z; r_bits : Z; r_storage : list token }.
Definition rec_new : recorder := Recorder 32768 (-9) 0 0 [].

(** [store] for the Recorder (ec.rs:230-237) *)
Definition rec_store (w : recorder) (t : token) : recorder :=
  let '(_, r) := lr_compute (r_rng w) t in
  let d := lz16 r in
  Recorder (u16 (r * 2 ^ d)) (r_cnt w) (r_fake w) (r_bits w + d) (r_storage w ++ [t]).

(** [replay] (ec.rs:418-426) into a destination given by its [store]; returns
    the destination and the recorder left behind. *)
Definition rec_replay {D} (store : D -> token -> D) (w : recorder) (dest : D) : D * recorder :=
  (fold_left store (r_storage w) dest,
   Recorder 32768 (-9) (r_fake w) 0 []).

(** ** Checkpoints (ec.rs:154-165; per backend ec.rs:207-222, 243-257, 294-307) *)
Record checkpoint := Checkpoint {
  ck_stream_size : Z; ck_backend_var : Z; ck_rng : Z; ck_cnt : Z }.

Definition cnt_checkpoint (w : counter) : checkpoint :=
  Checkpoint (c_bits w) 0 (c_rng w) (c_cnt w).
Definition cnt_rollback (w : counter) (k : checkpoint) : counter :=
  Counter (ck_rng k) (c_cnt w) (c_fake w) (ck_stream_size k).

Definition rec_checkpoint (w : recorder) : checkpoint :=
  Checkpoint (r_bits w) (zlen (r_storage w)) (r_rng w) (r_cnt w).
Definition rec_rollback (w : recorder) (k : checkpoint) : recorder :=
  Recorder (ck_rng k) (ck_cnt k) (r_fake w) (ck_stream_size k)
           (firstn (Z.to_nat (ck_backend_var k)) (r_storage w)).

Definition enc_checkpoint (w : encoder) : checkpoint :=
  Checkpoint (zlen (e_precarry w)) (e_low w) (e_rng w) (e_cnt w).
Definition enc_rollback (w : encoder) (k : checkpoint) : encoder :=
  Encoder (ck_rng k) (ck_cnt k) (e_fake w)
          (firstn (Z.to_nat (ck_stream_size k)) (e_precarry w)) (u32 (ck_backend_var k)).

(** ** Cost reporting.

    [stream_bits] (ec.rs:203, 239, 290), [tell] (ec.rs:782-790): the Rust
    computation is `((self.stream_bits()) as i32 + self.cnt as i32 + 10) as
    u32 + (self.fake_bits_frac >> 8)`. *)
Definition tell_of (stream_bits cnt fake : Z) : Z := u32 (stream_bits + cnt + 10) + fake / 256.

(** [frac_compute] (ec.rs:357-379); the loop runs OD_BITRES = 3 times. *)
Fixpoint frac_loop (n : nat) (l rng : Z) : Z :=
  match n with
  | O => l
  | S k =>
      let rng := (rng * rng) / 2 ^ 15 in
      let b := rng / 2 ^ 16 in
      frac_loop k (2 * l + b) (rng / 2 ^ b)
  end.
Definition frac_compute (nbits_total rng : Z) : Z := nbits_total * 8 - frac_loop 3 0 rng.

(** [tell_frac] (ec.rs:796-799) *)
Definition tell_frac_of (stream_bits cnt fake rng : Z) : Z :=
  frac_compute (tell_of stream_bits cnt fake) rng + fake.

Definition enc_tell (w : encoder) := tell_of (zlen (e_precarry w) * 8) (e_cnt w) (e_fake w).
Definition cnt_tell (w : counter) := tell_of (c_bits w) (c_cnt w) (c_fake w).
Definition rec_tell (w : recorder) := tell_of (r_bits w) (r_cnt w) (r_fake w).
Definition enc_tell_frac (w : encoder) :=
  tell_frac_of (zlen (e_precarry w) * 8) (e_cnt w) (e_fake w) (e_rng w).
Definition cnt_tell_frac (w : counter) := tell_frac_of (c_bits w) (c_cnt w) (c_fake w) (c_rng w).
Definition rec_tell_frac (w : recorder) := tell_frac_of (r_bits w) (r_cnt w) (r_fake w) (r_rng w).

(** [add_bits_frac] (ec.rs:498-500) *)
Definition enc_add_bits_frac (w : encoder) (b : Z) : encoder :=
  Encoder (e_rng w) (e_cnt w) (e_fake w + b) (e_precarry w) (e_low w).
Definition cnt_add_bits_frac (w : counter) (b : Z) : counter :=
  Counter (c_rng w) (c_cnt w) (c_fake w + b) (c_bits w).
Definition rec_add_bits_frac (w : recorder) (b : Z) : recorder :=
  Recorder (r_rng w) (r_cnt w) (r_fake w + b) (r_bits w) (r_storage w).

(** ** Symbols.

    The token [Writer::symbol] hands to [store] (ec.rs:520-541); index out of
    range or a table violating the [debug_assert]s is not represented here
    (see [valid_icdf] in EC_spec.v). *)
Definition symbol_token (s : nat) (cdf : list Z) : token :=
  let nms := zlen cdf - Z.of_nat s in
  let fl := if (0 <? s)%nat then nth (s - 1) cdf 0 else 32768 in
  let fh := nth s cdf 0 in
  Token fl fh nms.

(** [bool] (ec.rs:485-488): symbol(val, [f, 0]); [bit] (ec.rs:494-496):
    probability 16384. *)
Definition bool_token (b : bool) (f : Z) : token :=
  symbol_token (if b then 1%nat else 0%nat) [f; 0].

(** [update_cdf] (ec.rs:935-955).  [i] is the index of the head of [l] in the
    table; the last element of the table is the count and is not touched by
    the loop.  The Rust loop is `cdf[..nsymbs-1].iter_mut().enumerate().take(15)`. *)
Fixpoint update_loop (i : nat) (val : nat) (rate : Z) (l : list Z) : list Z :=
  match l with
  | [] => []
  | v :: r =>
      (if (i <? 15)%nat
       then if (val <=? i)%nat then v - v / 2 ^ rate else v + (32768 - v) / 2 ^ rate
       else v) :: update_loop (S i) val rate r
  end.
Definition update_cdf (cdf : list Z) (val : nat) : list Z :=
  let nsymbs := zlen cdf in
  let count := last cdf 0 in
  let rate := 3 + Z.min (nsymbs / 2) 2 + count / 16 in
  update_loop 0 val rate (removelast cdf) ++ [count + (1 - count / 32)].

(** Coding a list of symbols, choosing tables by the history: the shape of
    every [symbol_with_update!] / [symbol] call sequence made by the block
    writers.  Which table is used is an arbitrary function of the symbols
    coded so far.  An adaptive table is read, used, then adapted in place
    (ec.rs:548-563); the rollback log is modelled separately in CDFLog.v. *)
Inductive source := Fixed (icdf : list Z) | Adaptive (i : nat).

Definition source_table (tables : list (list Z)) (src : source) : list Z :=
  match src with Fixed c => c | Adaptive i => nth i tables [] end.
Definition source_update (tables : list (list Z)) (src : source) (s : nat) : list (list Z) :=
  match src with
  | Fixed _ => tables
  | Adaptive i => set_nth i (update_cdf (nth i tables []) s) tables
  end.

Fixpoint encode_session (ctx : list Z -> source) (hist : list Z) (tables : list (list Z))
  (w : encoder) (syms : list nat) : encoder * list (list Z) :=
  match syms with
  | [] => (w, tables)
  | s :: rest =>
      let src := ctx hist in
      let w := enc_store w (symbol_token s (source_table tables src)) in
      encode_session ctx (hist ++ [Z.of_nat s]) (source_update tables src s) w rest
  end.

(** [frac_compute] with the subtraction checked: [None] is the arithmetic
    overflow that panics in a debug build (and wraps in release). *)
Definition frac_compute_chk (nbits_total rng : Z) : option Z :=
  let l := frac_loop 3 0 rng in
  if nbits_total * 8 <? l then None else Some (nbits_total * 8 - l).

(** [symbol_bits] (ec.rs:572-604), the cost estimate that writes nothing.
    [None]: an unsigned subtraction would underflow. *)
Definition symbol_bits (rng cnt : Z) (s : nat) (cdf : list Z) : option Z :=
  let rng8 := rng / 256 in
  let fh := nth s cdf 0 / 2 ^ EC_PROB_SHIFT in
  let r :=
    if (0 <? s)%nat then
      let fl := nth (s - 1) cdf 0 / 2 ^ EC_PROB_SHIFT in
      (rng8 * fl) / 2 ^ (7 - EC_PROB_SHIFT) - (rng8 * fh) / 2 ^ (7 - EC_PROB_SHIFT) + EC_MIN_PROB
    else
      let nms1 := zlen cdf - Z.of_nat s - 1 in
      rng - (rng8 * fh) / 2 ^ (7 - EC_PROB_SHIFT) - nms1 * EC_MIN_PROB in
  match frac_compute_chk (cnt + 9) rng with
  | None => None
  | Some pre =>
      let d := lz16 r in                   (* r.leading_zeros() - 16 on u32 *)
      let c := cnt in
      let sh := c + d in
      let '(bits, sh) :=
        if 0 <=? sh then
          let c := c + 16 in
          let '(bits, c) := if 8 <=? sh then (8, c - 8) else (0, c) in
          (bits + 8, c + d - 24)
        else (0, sh) in
      match frac_compute_chk (bits + sh + 9) (r * 2 ^ d) with
      | None => None
      | Some post => if post <? pre then None else Some (post - pre)
      end
  end.
