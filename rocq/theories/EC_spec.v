(** Specification side of the entropy coder: the symbol decoder of the AV1
    bitstream specification (section 8.2, "parsing process for symbol
    decoder"), written independently of the encoder model.  It works on the
    specification's own CDF representation (32768 times the cumulative
    probability, then 32768, then the adaptation counter) and on a plain
    string of bits. *)
From Verif Require Import Base.

(** State of the symbol decoder: bits not read yet, SymbolValue,
    SymbolRange, SymbolMaxBits. *)
Record sd := SD { sd_bits : list bool; sd_val : Z; sd_rng : Z; sd_max : Z }.

(** [f(n)]: read n bits, most significant first. *)
Definition read (n : Z) (bits : list bool) : Z * list bool :=
  (bits_val (firstn (Z.to_nat n) bits), skipn (Z.to_nat n) bits).

(** 8.2.2 init_symbol( sz ) *)
Definition init_symbol (data : list Z) : sd :=
  let sz := zlen data in
  let numBits := Z.min (sz * 8) 15 in
  let '(buf, rest) := read numBits (bytes_bits data) in
  let paddedBuf := buf * 2 ^ (15 - numBits) in
  SD rest (Z.lxor (2 ^ 15 - 1) paddedBuf) (2 ^ 15) (8 * sz - 15).

(** 8.2.6 the search loop: [cdf] is the rest of the array from index [symbol]
    on, [cur] the value of cur before the iteration. *)
Fixpoint search (cdf : list Z) (N symbol rng val cur : Z) : option (Z * Z * Z) :=
  match cdf with
  | [] => None
  | x :: rest =>
      let prev := cur in
      let f := 2 ^ 15 - x in
      let cur := (((rng / 2 ^ 8) * (f / 2 ^ 6)) / 2 ^ 1) + 4 * (N - symbol - 1) in
      if val <? cur then search rest N (symbol + 1) rng val cur
      else Some (symbol, prev, cur)
  end.

(** 8.2.6 symbol decoding and renormalisation (without adaptation).  [cdf]
    has N + 1 elements; the last one is the counter. *)
Definition decode_symbol (st : sd) (cdf : list Z) : option (Z * sd) :=
  let N := zlen cdf - 1 in
  match search (removelast cdf) N 0 (sd_rng st) (sd_val st) (sd_rng st) with
  | None => None
  | Some (symbol, prev, cur) =>
      let rng := prev - cur in
      let val := sd_val st - cur in
      let bits := 15 - Z.log2 rng in
      let rng := rng * 2 ^ bits in
      let numBits := Z.min bits (Z.max 0 (sd_max st)) in
      let '(newData, rest) := read numBits (sd_bits st) in
      let paddedData := newData * 2 ^ (bits - numBits) in
      let val := Z.lxor paddedData ((val + 1) * 2 ^ bits - 1) in
      Some (symbol, SD rest val rng (sd_max st - bits))
  end.

(** 8.2.6 adaptation.  [adapt_loop] walks the N - 1 probabilities; [tmp]
    switches from 0 to 32768 at the decoded symbol. *)
Fixpoint adapt_loop (i symbol tmp rate : Z) (cdf : list Z) : list Z :=
  match cdf with
  | [] => []
  | x :: rest =>
      let tmp := if i =? symbol then 2 ^ 15 else tmp in
      (if tmp <? x then x - (x - tmp) / 2 ^ rate else x + (tmp - x) / 2 ^ rate)
        :: adapt_loop (i + 1) symbol tmp rate rest
  end.
Definition adapt (cdf : list Z) (symbol : Z) : list Z :=
  let N := zlen cdf - 1 in
  let count := last cdf 0 in
  let rate := 3 + b2z (15 <? count) + b2z (31 <? count) + Z.min (Z.log2 N) 2 in
  let probs := removelast (removelast cdf) in
  adapt_loop 0 symbol 0 rate probs ++ [2 ^ 15; count + b2z (count <? 32)].

(** Decoding a known sequence of static tables. *)
Fixpoint decode_static (cdfs : list (list Z)) (st : sd) : option (list Z * sd) :=
  match cdfs with
  | [] => Some ([], st)
  | cdf :: rest =>
      match decode_symbol st cdf with
      | None => None
      | Some (s, st) =>
          match decode_static rest st with
          | None => None
          | Some (ss, st) => Some (s :: ss, st)
          end
      end
  end.

(** ** Relation between the encoder's and the specification's tables.

    The encoder keeps 32768 minus the cumulative probabilities, N entries,
    the last one (whose probability part is always 0) holding the counter. *)
Definition spec_cdf (icdf : list Z) : list Z :=
  map (fun x => 2 ^ 15 - x) (removelast icdf) ++ [2 ^ 15; last icdf 0].

(** What callers of the writer must ensure about a table (ec.rs:510-519 doc
    comment and debug_asserts ec.rs:521, 537, 538): 2 to 16 entries,
    non-increasing, below 32768, counter at most 32. *)
Fixpoint non_increasing (l : list Z) : Prop :=
  match l with
  | [] => True
  | x :: r => Forall (fun y => y <= x) r /\ non_increasing r
  end.
Definition valid_icdf (icdf : list Z) : Prop :=
  (2 <= length icdf <= 16)%nat /\
  Forall (fun x => 0 <= x < 32768) (removelast icdf) /\
  non_increasing (removelast icdf) /\
  0 <= last icdf 0 <= 32.

(** 8.2.4 exit process for symbol decoder: conformance of the trailing bits.
    [data] is the whole buffer, [st] the decoder state after the last symbol.
    The bit at trailingPos is one and every bit after it is zero. *)
Definition trailing_ok (data : list Z) (st : sd) : Prop :=
  let bits := bytes_bits data in
  let position := zlen bits - zlen (sd_bits st) in
  let trailingPos := position - Z.min 15 (sd_max st + 15) in
  0 <= trailingPos < zlen bits /\
  nth (Z.to_nat trailingPos) bits false = true /\
  Forall (fun b => b = false) (skipn (Z.to_nat (trailingPos + 1)) bits).

(** ** Adaptive decoding sessions.

    Which table is used for a symbol is an arbitrary function [sctx] of the
    symbols decoded before it: either a fixed table, or entry [i] of a store
    of adaptive tables, which is then adapted. *)
Inductive spec_source := SFixed (cdf : list Z) | SAdaptive (i : nat).
Fixpoint decode_session (n : nat) (sctx : list Z -> spec_source) (hist : list Z)
  (tables : list (list Z)) (st : sd) : option (list Z * list (list Z) * sd) :=
  match n with
  | O => Some (hist, tables, st)
  | S k =>
      let cdf := match sctx hist with SFixed c => c | SAdaptive i => nth i tables [] end in
      match decode_symbol st cdf with
      | None => None
      | Some (s, st) =>
          let tables := match sctx hist with
                        | SFixed _ => tables
                        | SAdaptive i => set_nth i (adapt cdf s) tables
                        end in
          decode_session k sctx (hist ++ [s]) tables st
      end
  end.

(** ** Decoding programs.

    A piece of bitstream syntax: reads symbols one at a time, each with a
    table that may depend on everything read before, and computes a value. *)
Inductive prog (A : Type) : Type :=
| Ret (a : A)
| Rd (src : spec_source) (k : Z -> prog A).
Arguments Ret {A}. Arguments Rd {A}.

Fixpoint bind {A B} (p : prog A) (f : A -> prog B) : prog B :=
  match p with
  | Ret a => f a
  | Rd src k => Rd src (fun s => bind (k s) f)
  end.

Fixpoint decode_prog {A} (p : prog A) (tables : list (list Z)) (st : sd)
  : option (A * list (list Z) * sd) :=
  match p with
  | Ret a => Some (a, tables, st)
  | Rd src k =>
      let cdf := match src with SFixed c => c | SAdaptive i => nth i tables [] end in
      match decode_symbol st cdf with
      | None => None
      | Some (s, st) =>
          let tables := match src with
                        | SFixed _ => tables
                        | SAdaptive i => set_nth i (adapt cdf s) tables
                        end in
          decode_prog (k s) tables st
      end
  end.

(** 8.2.5 boolean decoding: an equiprobable, non-adapting two-symbol table. *)
Definition read_bool : prog Z := Rd (SFixed [2 ^ 14; 2 ^ 15; 0]) (fun s => Ret s).

(** L(n): n equiprobable bits, most significant first. *)
Fixpoint read_L_acc (n : nat) (x : Z) : prog Z :=
  match n with
  | O => Ret x
  | S k => bind read_bool (fun b => read_L_acc k (2 * x + b))
  end.
Definition read_L (n : Z) : prog Z := read_L_acc (Z.to_nat n) 0.

(** NS(n) *)
Definition read_NS (n : Z) : prog Z :=
  let w := Z.log2 n + 1 in
  let m := 2 ^ w - n in
  bind (read_L (w - 1)) (fun v =>
  if v <? m then Ret v
  else bind (read_L 1) (fun extra_bit => Ret (2 * v - m + extra_bit))).

(** decode_subexp_bool( numSyms, k ); the loop always ends within 32
    iterations for 32-bit numSyms; out of fuel yields -1, which is never the
    result of a successful parse. *)
Fixpoint read_subexp_loop (fuel : nat) (numSyms k i mk : Z) : prog Z :=
  match fuel with
  | O => Ret (-1)
  | S fuel =>
      let b2 := if i =? 0 then k else k + i - 1 in
      let a := 2 ^ b2 in
      if numSyms <=? mk + 3 * a
      then bind (read_NS (numSyms - mk)) (fun v => Ret (v + mk))
      else bind (read_L 1) (fun more =>
           if more =? 1 then read_subexp_loop fuel numSyms k (i + 1) (mk + a)
           else bind (read_L b2) (fun v => Ret (v + mk)))
  end.
Definition read_subexp (numSyms k : Z) : prog Z := read_subexp_loop 33 numSyms k 0 0.

Definition inverse_recenter (r v : Z) : Z :=
  if 2 * r <? v then v
  else if Z.odd v then r - (v + 1) / 2
  else r + v / 2.

Definition read_unsigned_subexp_with_ref (mx k r : Z) : prog Z :=
  bind (read_subexp mx k) (fun v =>
  Ret (if 2 * r <=? mx then inverse_recenter r v else mx - 1 - inverse_recenter (mx - 1 - r) v)).
Definition read_signed_subexp_with_ref (low high k r : Z) : prog Z :=
  bind (read_unsigned_subexp_with_ref (high - low) k (r - low)) (fun x => Ret (x + low)).

(** The Exp-Golomb code of coefficient tails: count length bits up to the
    first one (at most [limit], 20 in AV1; beyond it -1 is returned), then
    read the remaining bits. *)
Fixpoint read_golomb_len (limit : nat) (length : Z) : prog Z :=
  match limit with
  | O => Ret (-1)
  | S k => bind read_bool (fun b => if b =? 1 then Ret (length + 1) else read_golomb_len k (length + 1))
  end.
Fixpoint read_golomb_data (n : nat) (x : Z) : prog Z :=
  match n with
  | O => Ret x
  | S k => bind read_bool (fun b => read_golomb_data k (2 * x + b))
  end.
Definition read_golomb (limit : nat) : prog Z :=
  bind (read_golomb_len limit 0) (fun len =>
  if len <? 0 then Ret (-1)
  else bind (read_golomb_data (Z.to_nat (len - 1)) 1) (fun x => Ret (x - 1))).
