# Formal model of rav1e: design

The model lives in `rocq/theories` (logical prefix `Verif`).  It is written in
plain Gallina over `Z`, `N`, `nat`, `bool`, `list`, `option` and records; the
code in /repo was read as text, never built or run.

Conventions

* Each definition carries a comment citing the file and lines it models and, if
  it simplifies, what was simplified.
* Model files end in `_model` (or carry the plain module name), specification
  files are written from the AV1 specification or from the English statement
  and do not use the model's helpers, and property files (`P_*.v`) contain only
  the final theorems, each closed by `exact`, followed by `Print Assumptions`,
  and `Example`s showing that the hypotheses are met by a non-trivial case.
* A panic, a failed `unwrap` or a failed `assert!` is an explicit error value.
  Machine wrap-around is explicit (`mod 2^n`) wherever the Rust code can wrap.
* Loops are structural recursion or fuel; running out of fuel is an error value
  and the theorems exclude it.
* Calls into code that is not modelled (scene detection, the pixel encoder,
  floating point) are universally quantified parameters of the theorems.
* A property that is false of the faithful model is recorded as a theorem named
  `..._refuted` with a witness, plus the strongest true restriction.

## Plan, property by property

| id | model | method |
|----|-------|--------|
| C01 | `ec.rs` range encoder (low, rng, cnt, precarry list, carry resolution in `done`) and the AV1 range decoder | invariant on the rational interval [low, low+rng): the value denoted by the output bytes lies in the interval of every prefix; decoder state refines (value - low); induction on the symbol list |
| C02 | `update_cdf` | CDF validity (with the minimum-probability margin needed by the coder) is invariant; induction on the history; combined with C01 |
| C03 | recorder and `replay` | `lr_compute` of the encoder is the one place where state matters; fold fusion |
| C04 | checkpoint/rollback of three backends | prefix invariants on the buffers; equality of states |
| C05 | three `store` functions | simulation: same rng, same renormalisation count, invariant linking bytes/cnt |
| C06 | `done` and `tell` | arithmetic on cnt and the precarry length |
| C07, C08 | universal codes as bit lists | round trip against parsers written from the AV1 specification; counts = 8 * length |
| C09 | memory of u16 words, field layout of `CDFContext`, two undo logs | general theorem: two-log undo is exact if no window of one log meets a table of the other; the concrete layout is checked by computation |
| C10, C11, C12, C13, C17 | `ContextInner`/`Context` as a transition system; scene detection is an arbitrary oracle | invariants by induction over the list of API calls; liveness by a decreasing measure |
| C14, C15 | emitted frame records of C10's model fed to a decoded-picture-buffer specification | simulation between encoder slots and decoder slots |
| C16 | order-hint arithmetic | modular arithmetic |
| C18, C19 | `TilingInfo::from_target_tiles`, the search loop in `Sequence::new`, `tile_info` bits | arithmetic over all sizes; parser from the AV1 specification; refutation for 4:2:2 explicit spacing |
| C20 | `validate` + panics of tiling | refutation by a high frame rate, restriction proved |
| C21 | `validate` | refutation of display-rate, other limits proved |
| C22, C23, C26 | leb128, OBU framing, tile group | round trip with arbitrary suffix |
| C24, C25, C27 | sequence header, frame header, film grain | bit-list writer monad against a bit-parser written from the specification |
| C28, C29 | two-pass serialization and window | round trip; invariants over histories |
| C30, C31 | quantizer index selection with the real tables | monotonicity of tables by computation, rest by proof |
| C32, C33 | `divu_gen`/`divu_pair`, quantize/dequantize | arithmetic over all inputs |
| C34 | WHT | algebra |
| C35 | scan tables | finite computation lifted to the quantified statement |
| C36 | IVF | round trip |
| C37 | kmeans | loop invariants |
| C38, C39 | segment id and MV coding | round trip against spec parsers |
| C40 | `has_top_right`, `has_bottom_left`, `has_tr`, `get_intra_edges` | the flags BlockDecoded of the specification over all partition trees; finite computation over superblock positions lifted to all trees, tiles and frames |
| C41 | deblock/cdef/lrf kernels | interval arithmetic over all inputs |
| C42 | SB queue | invariant |
| C43 | `symbol_bits` against the coder state | the cost in 1/8 bit equals the difference of two `tell_frac` values |
| C44 | process exit of the command line | case analysis over outcomes |
| C45, C46, C47, C48 | the transition system of C10 again | refinement to a decoder with reference slots; grouping of packets; independence of the interleaving of calls; counting |
| C49 | loop-restoration unit layout, tile views | arithmetic over all sizes |
| C50 | tile search | refutation and a bound |
| C51 | coefficient coding (`write_coeffs_lv_map` and contexts) | symbol events; decoder from the specification; invariants over scan positions, blocks, superblock rows |
| C52 | `deblock_plane` and kernels | loop filter of the AV1 specification as reference; kernel equality, edge decisions, commutation of edges with disjoint pixels |
| C53 | `sse_optimize` | prefix sums of the tallies as squared errors; counterexample for horizontal edges |
| C54 | `cdef_filter_tile` | CDEF process of the AV1 specification as reference; direction search, one sample, padding, then the loops with their edge flags |
| C55 | `lrf_filter_frame` | self guided and Wiener filters of the AV1 specification as reference; integral images as box sums, kernels, stripes, units |
| C56 | `predict_intra`, `pred_cfl_ac`, `use_smooth_filter` | 7.11.2 and 7.11.5 of the AV1 specification as reference; edge filter, upsampling, each mode, then composed with the edges of C40 |
| C57 | `predict_inter`, `motion_compensate` | 7.11.3 of the AV1 specification (unscaled references) as reference; position arithmetic, clamped reads of the padded plane, 16 bit intermediates, bias, then the calls per plane |
| C58 | `inverse_transform_add` | 7.13.2 and 7.13.3 of the AV1 specification as reference; the stages transcribed as data, both programs run over expression trees, trees compared by computation, then bounds for the i32 arithmetic, then rows and columns |
| C59 | `write_partition`, partition and skip contexts, the recursion of `encode_partition_*` | decode_partition of the AV1 specification as reference; invariant: the context arrays hold the sizes of the blocks on the border of the coded area, by induction on the tree |
| C60 | the intra part of `encode_block_post_cdef`, its writers, `CFLParams`, `has_chroma` | intra_frame_mode_info and intra_block_mode_info of the AV1 specification as reference; element by element |
| C61 | `write_is_inter`, `write_ref_frames` and their contexts | read_is_inter and read_ref_frames of the AV1 specification as reference; the contexts of both sides compared for every pair of neighbours by computation |


## Trusted base

* Coq 8.16.1: kernel, `vm_compute` virtual machine (used for finite table
  checks), `coqc`, and `coqchk` for the independent recheck.
* `Print Assumptions` reports `Closed under the global context` for every theorem
  named in MANIFEST.json: no axiom at all, neither of the standard library nor
  of ours.  (`coqchk` additionally lists seven parameters of
  `Coq.ssr.ssrunder`; that file of the standard distribution is loaded because
  `Lia`/`Zify` depend on it, and none of our theorems uses it.)
* The transcription of Rust into Gallina, done by hand.  Each definition cites
  the lines it transcribes.  The specification side (decoder, parsers, level
  tables, scan generators) was written from the AV1 specification from memory
  and from the documentation in the repository, since no copy of the
  specification is available in the sandbox.
* Tables (quantizers, scans, context offsets, level limits) were extracted from
  the source text by script and pasted.

## What is modelled

| files | code | properties |
|-------|------|------------|
| `EC_*` | `src/ec.rs`: all three writers, CDF adaptation, `tell`, `done`, checkpoints, bool/literal/golomb/subexp codes, `symbol_bits` | C01-C08, C43 |
| `Sched_*`, `SMap` | `src/api/internal.rs`, `src/api/context.rs`, parts of `src/encoder.rs` that manage reference slots and order hints, `src/scenechange` as an oracle | C10-C17, C45-C48 |
| `Tile_*`, `Config_*` | `src/tiling/tiler.rs`, `src/api/config/mod.rs`, `Sequence::new`, `src/levels.rs` | C18-C21, C50 |
| `Lrf_*` | `src/lrf.rs` layout, `src/tiling/tile_restoration_state.rs`, superblock queue of `encode_tile` | C42, C49 |
| `Obu_*`, `Bits` | leb128, OBU framing, tile groups, IVF (`ivf/`), command line exit | C22, C23, C26, C36, C44 |
| `Hdr_*` | `src/header.rs` complete, with the header state along a stream | C24, C25, C27 |
| `Quant_*`, `LogExp_model` | `src/quantize/mod.rs`, `src/quantize/tables.rs`, `src/scan_order.rs`, `blog64`/`bexp64` of `src/util/logexp.rs`, quantizer selection of `src/rate.rs` | C30-C33, C35 |
| `Rate_*` | two-pass serialization and windowing of `src/rate.rs`, byte and packet interfaces of `src/api/context.rs` | C28, C29 |
| `Wht_*` | lossless transform, forward and inverse | C34 |
| `Cdf_*` | `src/context/cdf_context.rs`: memory layout of `CDFContext`, both log partitions, checkpoint, rollback, clear | C09 |
| `Kmeans_*` | `src/util/kmeans.rs` | C37 |
| `Deblock_*` | `src/deblock.rs`: kernels, edge decisions, order of edges, tallies and level search (the portable code; `fast_deblock` excluded) | C41, C52, C53 |
| `Cdef_*` | `src/cdef.rs`: direction search, padding, kernel, strengths, loops over superblocks (the portable code; the assembly excluded) | C41, C54 |
| `Sgr_*` | `src/lrf.rs`: unit sizes, integral images, box and weight kernels, stripe filters, loops over stripes and units (the portable code; the assembly excluded) | C41, C55 |
| `Edge_*` | `src/recon_intra.rs` (tables and tests; the branches for blocks of 128 left out), `supersample_chroma_bsize`, `get_intra_edges`, `has_tr` of `src/partition.rs` | C40 |
| `Intra_*` | `src/predict.rs` (the portable code; the output block as a function of row and column; the assembly excluded), `above_block_info` and `left_block_info` of `src/tiling/tile_state.rs` | C56 |
| `Inter_*` | `src/mc.rs` (the portable code; the output block as a function of row and column), `predict_inter*` and `get_mv_params` of `src/predict.rs`, the calls of `motion_compensate` in `src/encoder.rs`. The padding of a plane by v_frame (replicated border, margins at least the requested ones) is taken as its contract | C57 |
| `Itx_*` | `src/transform/inverse.rs` (the portable code; a stage is a list of operations on the array before it, transcribed by a script from the source text; the lossless transform is in `Wht_*`), `half_btf`, `clamp_value`, `get_1d_tx_types` and the size tables of `src/transform/mod.rs` | C58 |
| `Part_*` | `write_partition` and the contexts of `src/context/partition_unit.rs`, the recursion over the tree in `encode_partition_topdown` and `encode_partition_bottomup`, `set_skip`, `write_skip`, the superblock loop of `encode_tile`. The tree is an input; trial encodings and their rollback are left out | C59 |
| `Imode_*` | the intra part of `encode_block_post_cdef`, the mode, angle, palette and filter intra writers of `src/context/block_unit.rs`, `CFLParams`, `write_cfl_alphas`, `has_chroma`, the ordering of `BlockSize`. The search that chooses the modes is left out; what it may choose is `choice_ok` | C60 |
| `Rfs_*` | `write_is_inter`, `write_ref_frames`, `fill_neighbours_ref_counts` and the contexts of `src/context/block_unit.rs` and `src/context/frame_header.rs`. A block is its is_inter flag and its two references | C61 |
| `Sym`, `Mv_*`, `Seg_*`, `Coef_*` | block syntax: motion vectors, segment ids, coefficients and their contexts (`src/context/`) | C38, C39, C51 |

Block syntax is modelled on the level of *events*: a symbol carries the name of
its probability table, the indices into it, the size of its alphabet and its
value.  A decoder can read an event only if it asks for the same table, indices
and alphabet.  That the range coder transports such events, with adaptation, is
C01 and C02.

## What is not modelled

* Pixel processing except the in-loop filters, prediction and inverse transforms: the forward DCT/ADST, motion search,
  film grain synthesis, and everything implemented in assembly.  Rate-distortion decisions are arbitrary inputs.
* Floating point: the lambda and distortion scales, and the f64 rate limit in
  `Sequence::new` (a parameter known to within 2^-20).
* Scene detection is an arbitrary function of the frame number; rate control
  readiness is an argument of the scheduling model.
* Bit reservoir of the rate controller (PASS_2_PLUS_1, `select_qi` targets);
  `bexp64` is a parameter in C30, `bexp_q24` one in C28 and C29.
* `bitstream_io` is assumed to behave like the bit lists of `Bits.v` (most
  significant bit first, `byte_align` pads with zeros); `slice::binary_search` is
  used through its documented contract.
* Threads: `rayon` and the channel interface.
* The sizes 128x128 superblocks and the palette/intra-block-copy tools, which
  the encoder does not use.

## Findings

Confirmed by a `_refuted` theorem unless marked otherwise.

* **F1 (C19)** 8064x4352 in 4:2:2 with forced tiles: the encoder writes an explicit
  tile spacing that a decoder parses differently.
* **F2 (C20)** Validated configurations that panic in `Sequence::new`: 16x16 at
  4294967295 frames per second, 65535x65535 at 240.  Proved fine up to 140.
* **F3 (C21)** The display rate check multiplies by num/den of the *time base*
  where frames per second is den/num, so streams beyond the level pass.
* **F4 (C13)** T.35 metadata are lost in reordering mode for frames shown through
  show_existing_frame.
* **F5 (C11, documented in the hypotheses)** The frame number i32::MAX - 1 is
  accepted but can never be output.
* **F6 (C27)** Film grain with chroma points given for a monochrome or
  chroma-from-luma configuration writes a header which a decoder misparses.
* **F7 (C04)** `add_bits_frac` is not undone by `rollback`.
* **F8 (C43)** `symbol_bits` underflows on the recording writer.
* **F9 (C50)** tiles=4 for 128x128 yields two tiles.
* **F10 (C18)** Tile area above 4096*2304 for 4160x4480.
* **F11 (C21)** The area limit of level 4.1 is 23592960 instead of 2359296.
* **F12 (C24)** Identity matrix coefficients with subsampled chroma are accepted.
* **F13 (not a theorem yet)** `warp_alpha` in `src/rate.rs` shifts in u16 before
  widening and loses the high bits.
* **F14 (C33)** The portable `dequantize` wraps to i16 where a decoder clips.
* **F15 (C29)** The packet interface marks second-pass data as ready one temporal
  unit early.
* **F16 (C29, from the model)** After one malformed packet `pass2_buffer_fill`
  stays at 8 and all later packets are rejected.
* **F17 (C29, from the model)** `twopass_first_packet_size` asks for more than needed.
* **F18 (from the model)** In whole-file mode `scale_window_ntus` becomes negative (it
  is unused there).
* **F19 (C39)** `write_mv` asserts that a difference is at most 2^14, although two
  valid vectors can differ by up to 2^15 - 2: panic (`C39_out_of_range`).
* **F20 (C51)** For 16x64 and 64x16 transforms `encode_eob` picks the table for 1024
  coefficients where a decoder uses the one for 512.  Latent: these sizes are
  never chosen.
* **F21 (reading, no theorem)** `write_tx_blocks` would code no chroma for a 4x16 or
  16x4 block in 4:2:0.  Latent: these partitions are never chosen.
* **F22 (C37)** `kmeans` adds half of the count and then divides with truncation, which
  is not rounding for negative sums: the centres of [-5, -5, -5] are all -4.
* **F23 (C53)** `sse_h_edge` calls `deblock_size` with `vertical = true`, so horizontal
  edges are measured with filters chosen by transform widths.  With 16x8 transforms
  the search can choose a level worse than no filter.
* **F24 (C55)** `lrf_filter_frame` skips self guided units when CDEF is off, although the
  search still chooses and codes them: encoder and decoder drift apart.
* **F25 (C55)** `wiener_stripe_filter` takes the rows above the frame and below it from
  the deblocked frame instead of the one after CDEF.  Latent: the search never chooses
  the Wiener filter.
* **F26 (C41)** At 10 and 12 bits the self guided filter of AV1 itself (and so the
  encoder's) can change a flat area by one.
* **F27 (C55, hypothesis of `C55_unit_sizes`)** An odd tile width in 4:2:2 would give
  restoration units smaller than a superblock and a shift underflow; the tiler rounds
  the width to an even number.
* **F28 (C57, latent)** `get_filter` gives the sharp filter for a width or height up to 4 the table row of the
  smooth filter (`mode.min(1) + 4`, row 5), where the specification uses row 4. The encoder always signals and
  uses the regular filter, so no stream is affected. `C57_sharp_refuted` has the case.
* **F29 (C58, latent)** At bit depth 12 the rows have a range of 20 bits and a butterfly of two values in range can
  leave i32: `half_btf` then wraps (`C58_twelve_bits_refuted`), and a debug build with 12 bit coefficients near the limit
  can overflow in `av1_iadst4`. In the case of the theorem the exact sum does not fit 20 bits either, so the stream
  does not conform (`case_twelve_bits`). Whether the encoder can produce such coefficients is not examined.
* **F30 (C52, latent)** `deblock_adjusted_level` looks up `ref_deltas` with `reference.to_index()`, which is one less
  than the reference number and panics for an intra block; the specification uses the reference number itself.
  The branch needs `deltas_enabled`, which is never set. `C52_deltas_refuted` has the case.
* **F31 (C60, latent)** `bsize >= BlockSize::BLOCK_8X8` is false for 4x16 and 16x4 blocks, since `partial_cmp` compares
  both sides; the specification compares the numbers of the sizes and expects an angle delta there.  rav1e does not
  use these partitions.  `C60_4x16_refuted` has the case.

Smaller observations made while modelling: `write_uleb128` truncates to 32 bits
(`C22_truncation`); the default loop-filter reference deltas differ from the
specification but are never used; `bit_depth` is not validated; film grain
parameters with `scaling_shift < 8`, `ar_coeff_shift < 6` or short coefficient
vectors panic; WHT_WHT would index past the scan table; a first-pass summary with
no intra frame is accepted but treated as missing; a finite two-pass window whose
frames are mostly hidden is rejected with an error.

## Wrong programs

`seeded/LOG.jsonl` records edits made to definitions of the model in a scratch
copy, and the theorems that stopped compiling.  Where an edit survived, the
theorem was tightened (field `tightened`).
