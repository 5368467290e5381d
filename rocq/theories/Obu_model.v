(** Model of the byte-level parts of a packet: leb128 sizes, OBU headers,
    metadata OBUs, the tile group and the assembly of a temporal unit; and of
    the IVF container.  Bytes are integers in [0, 256). *)
From Verif Require Import Base Bits.

(** ** Bytes out of bits

    `BitWriter` with big-endian bits; [byte_align] appends zero bits up to a
    byte boundary (bitstream_io). *)
Definition pad_of (l : list bool) : list bool := repeat false (Z.to_nat ((- zlen l) mod 8)).
Definition w_align (a : wres) : wres :=
  match a with
  | Some (l, true) => Some (l ++ pad_of l, true)
  | x => x
  end.
(** The bytes of a bit string whose length is a multiple of eight. *)
Fixpoint pack (n : nat) (l : list bool) : list Z :=
  match n with
  | O => []
  | S n => bits_val (firstn 8 l) :: pack n (skipn 8 l)
  end.
Definition to_bytes (l : list bool) : list Z := pack (Nat.div (length l) 8) l.

(** ** Sizes *)

(** [write_uleb128] (/repo/src/header.rs:94-122): the payload is cut to 32
    bits; `coded_value` holds at most eight bytes ([None]: pushing a ninth
    panics). *)
Fixpoint uleb_loop (room : nat) (value : Z) : option (list Z) :=
  match room with
  | O => None
  | S room =>
      let byte := Z.land value 127 in
      let value := Z.shiftr value 7 in
      if value =? 0 then Some [byte]
      else match uleb_loop room value with
           | None => None
           | Some r => Some (Z.lor byte 128 :: r)
           end
  end.
Definition write_uleb128 (payload : Z) : option (list Z) := uleb_loop 8 (u32 payload).

(** [write_le] (header.rs:129-136): little endian; `write_var` refuses a value
    that does not fit ([None]: its callers unwrap). *)
Fixpoint le_bytes (n : nat) (v : Z) : list Z :=
  match n with
  | O => []
  | S n => v mod 256 :: le_bytes n (v / 256)
  end.
Definition write_le (n v : Z) : option (list Z) :=
  if (0 <=? v) && (v <? 2 ^ (8 * n)) then Some (le_bytes (Z.to_nat n) v) else None.

(** ** OBUs *)

(** [ObuType] (header.rs:54-68) *)
Inductive obu_type := OBU_SEQUENCE_HEADER | OBU_TEMPORAL_DELIMITER | OBU_FRAME_HEADER | OBU_TILE_GROUP | OBU_METADATA | OBU_FRAME.
Definition obu_type_num (t : obu_type) : Z :=
  match t with
  | OBU_SEQUENCE_HEADER => 1
  | OBU_TEMPORAL_DELIMITER => 2
  | OBU_FRAME_HEADER => 3
  | OBU_TILE_GROUP => 4
  | OBU_METADATA => 5
  | OBU_FRAME => 6
  end.

(** [write_obu_header] (header.rs:191-208) with obu_extension = 0, which is
    what every caller passes *)
Definition write_obu_header (t : obu_type) : wres :=
  w_bit false >>> w_bits 4 (obu_type_num t) >>> w_bit false >>> w_bit true >>> w_bit false.

(** `unwrap` and conversion to bytes of a writer that ends on a byte boundary *)
Definition unwrap_bytes (w : wres) : option (list Z) :=
  match w with
  | Some (l, true) => Some (to_bytes l)
  | _ => None
  end.

Definition o_app (a b : option (list Z)) : option (list Z) :=
  match a, b with
  | Some x, Some y => Some (x ++ y)
  | _, _ => None
  end.
Infix "+++" := o_app (at level 60, right associativity).

(** header, size and payload: write_key_frame_obus (/repo/src/encoder.rs:1304-1329),
    encode_show_existing_frame (3713-3735), encode_frame (3794-3818) *)
Definition emit_obu (t : obu_type) (payload : list Z) : option (list Z) :=
  unwrap_bytes (write_obu_header t) +++ write_uleb128 (zlen payload) +++ Some payload.

(** Metadata: ContentLight, MasteringDisplay (three primaries, white point,
    luminances), and T35 *)
Inductive metadata :=
| CLL (max_content max_average : Z)
| MDCV (prim : list (Z * Z)) (white : Z * Z) (max_lum min_lum : Z)
| T35 (country ext : Z) (data : list Z).

(** [ObuMetaType] and its [size] (header.rs:70-88) *)
Definition meta_type (m : metadata) : Z := match m with CLL _ _ => 1 | MDCV _ _ _ _ => 2 | T35 _ _ _ => 4 end.
Definition meta_size (m : metadata) : Z := match m with CLL _ _ => 4 | MDCV _ _ _ _ => 24 | T35 _ _ _ => 0 end.

(** [write_sequence_metadata_obu] (header.rs:210-252) and
    [write_t35_metadata_obu] (254-276).  The size is a constant there, not
    measured. *)
Definition w_xy (p : Z * Z) : wres := w_bits 16 (fst p) >>> w_bits 16 (snd p).
Definition write_metadata_obu (m : metadata) : option (list Z) :=
  match m with
  | CLL _ _ | MDCV _ _ _ _ =>
      unwrap_bytes (write_obu_header OBU_METADATA) +++
      write_uleb128 (meta_size m + 2) +++
      write_uleb128 (meta_type m) +++
      unwrap_bytes (w_align (
        match m with
        | CLL a b => w_bits 16 a >>> w_bits 16 b
        | MDCV prim white mx mn => w_list w_xy prim >>> w_xy white >>> w_bits 32 mx >>> w_bits 32 mn
        | T35 _ _ _ => w_ret
        end >>> w_bit true))
  | T35 country ext data =>
      unwrap_bytes (write_obu_header OBU_METADATA) +++
      write_uleb128 (zlen data + (if country =? 255 then 4 else 3)) +++
      write_uleb128 (meta_type m) +++
      unwrap_bytes (w_bits 8 country) +++
      (if country =? 255 then unwrap_bytes (w_bits 8 ext) else Some []) +++
      Some data +++
      unwrap_bytes (w_align (w_bit true))
  end.

(** What a call of encode_frame or encode_show_existing_frame appends
    (encoder.rs:3768-3820, 3693-3735): [key] is the bits of the sequence
    header of a key frame; [frame] is the bits of the frame header with the
    tile group for a coded frame. *)
Record coded := Coded {
  cd_key : option (list bool * list metadata);  (* sequence header bits, CLL and MDCV *)
  cd_t35 : list metadata;
  cd_header : list bool;
  cd_tiles : option (list Z) (* None: show_existing_frame *)
}.
Definition concat_opt (l : list (option (list Z))) : option (list Z) := fold_right o_app (Some []) l.
Definition write_key_frame_obus (seq : list bool) (metas : list metadata) : option (list Z) :=
  (match unwrap_bytes (w_align (Some (seq, true) >>> w_bit true)) with
   | Some b => emit_obu OBU_SEQUENCE_HEADER b
   | None => None
   end) +++ concat_opt (map write_metadata_obu metas).
Definition encode_frame_bytes (c : coded) : option (list Z) :=
  (match cd_key c with None => Some [] | Some (s, m) => write_key_frame_obus s m end) +++
  concat_opt (map write_metadata_obu (cd_t35 c)) +++
  (match cd_tiles c with
   | Some t =>
       (* header.rs:933: byte_align *)
       match unwrap_bytes (w_align (Some (cd_header c, true))) with
       | Some b => emit_obu OBU_FRAME (b ++ t)
       | None => None
       end
   | None =>
       (* header.rs:484-486: trailing bit, byte_align *)
       match unwrap_bytes (w_align (Some (cd_header c, true) >>> w_bit true)) with
       | Some b => emit_obu OBU_FRAME_HEADER b
       | None => None
       end
   end).
(** encoder.rs:64, internal.rs:1546: a packet is a temporal delimiter followed
    by what the frames appended *)
Definition TEMPORAL_DELIMITER : list Z := [18; 0].
Definition packet_bytes (l : list coded) : option (list Z) :=
  Some TEMPORAL_DELIMITER +++ concat_opt (map encode_frame_bytes l).

(** ** The tile group *)

(** `ILog::ilog`: number of bits needed *)
Definition ilog (x : Z) : Z := if x <=? 0 then 0 else Z.log2 x + 1.
(** Iterator::max_by_key returns the last maximum (encoder.rs:3322-3327) *)
Fixpoint max_by_key (i : Z) (l : list Z) : option (Z * Z) :=
  match l with
  | [] => None
  | x :: l => match max_by_key (i + 1) l with
              | Some (j, y) => if y <? x then Some (i, x) else Some (j, y)
              | None => Some (i, x)
              end
  end.
(** [build_raw_tile_group] (encoder.rs:3345-3365); `raw_tile.len() - 1` on an
    empty tile underflows *)
Fixpoint raw_tiles_loop (tsb : Z) (l : list (list Z)) : option (list Z) :=
  match l with
  | [] => Some []
  | [t] => Some t
  | t :: l => (if zlen t =? 0 then None else write_le tsb (zlen t - 1)) +++ Some t +++ raw_tiles_loop tsb l
  end.
Definition build_raw_tile_group (num_tiles : Z) (tiles : list (list Z)) (tsb : Z) : option (list Z) :=
  unwrap_bytes (w_align (w_if (1 <? num_tiles) (w_bit false))) +++ raw_tiles_loop tsb tiles.
(** The end of encode_tile_group (encoder.rs:3322-3342): context_update_tile_id,
    max_tile_size_bytes and the tile group, if there is at least one tile.
    [end_update]: !disable_frame_end_update_cdf; the id is 0 otherwise
    (FrameState::new). *)
Definition tile_group (end_update : bool) (tiles : list (list Z)) : option (Z * Z * list Z) :=
  match max_by_key 0 (map zlen tiles) with
  | None => None
  | Some (idx, max_len) =>
      let tsb := (ilog max_len + 7) / 8 in
      if (0 <? tsb) && (tsb <=? 4) then
        match build_raw_tile_group (zlen tiles) tiles tsb with
        | Some b => Some (if end_update then idx else 0, tsb, b)
        | None => None
        end
      else None
  end.

(** ** IVF (/repo/ivf/src/lib.rs) *)

(** write_ivf_header (20-36): `as u16`, `as u32` *)
Definition write_ivf_header (width height num den : Z) : list Z :=
  [68; 75; 73; 70] ++ le_bytes 2 0 ++ le_bytes 2 32 ++ [65; 86; 48; 49] ++
  le_bytes 2 (u16 width) ++ le_bytes 2 (u16 height) ++ le_bytes 4 (u32 num) ++ le_bytes 4 (u32 den) ++
  le_bytes 4 0 ++ le_bytes 4 0.
(** write_ivf_frame (41-48) *)
Definition write_ivf_frame (pts : Z) (data : list Z) : list Z :=
  le_bytes 4 (u32 (zlen data)) ++ le_bytes 8 (u64 pts) ++ data.

(** Reading from a byte source: [None] is an error (end of file or bad data) *)
Definition take_bytes (n : Z) (l : list Z) : option (list Z * list Z) :=
  if n <=? zlen l then Some (firstn (Z.to_nat n) l, skipn (Z.to_nat n) l) else None.
Fixpoint le_val (l : list Z) : Z := match l with [] => 0 | x :: l => x + 256 * le_val l end.
Definition take_le (n : Z) (l : list Z) : option (Z * list Z) :=
  match take_bytes n l with Some (b, r) => Some (le_val b, r) | None => None end.
Notation "'let?' x , r := a 'in' b" := (match a with Some (x, r) => b | None => None end)
  (at level 200, x name, r name, a at level 100, b at level 200).
Record ivf_header := IvfHeader { ih_tag : list Z; ih_w : Z; ih_h : Z; ih_num : Z; ih_den : Z }.
(** read_header (63-91): the field read first is called timebase_den *)
Definition read_ivf_header (l : list Z) : option (ivf_header * list Z) :=
  let? sig, l := take_bytes 4 l in
  if list_eq_dec Z.eq_dec sig [68; 75; 73; 70] then
    let? v0, l := take_le 2 l in
    let? v1, l := take_le 2 l in
    let? tag, l := take_bytes 4 l in
    let? w, l := take_le 2 l in
    let? h, l := take_le 2 l in
    let? den, l := take_le 4 l in
    let? num, l := take_le 4 l in
    let? a, l := take_le 4 l in
    let? b, l := take_le 4 l in
    Some (IvfHeader tag w h num den, l)
  else None.
(** read_packet (101-112) *)
Definition read_ivf_packet (l : list Z) : option ((Z * list Z) * list Z) :=
  let? len, l := take_le 4 l in
  let? pts, l := take_le 8 l in
  let? data, l := take_bytes len l in
  Some ((pts, data), l).
