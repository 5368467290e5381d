{"id": "C01", "title": "Range coder round trip", "statement": "Any sequence of symbols written with any valid (non-increasing, 32768-to-0) cumulative tables and finished with done() yields bytes from which an AV1 range decoder fed with the same tables reads back exactly the same symbols, in order, without ever losing synchronisation.", "quantifier": "all symbol sequences of any length, all valid CDF tables (2..16 symbols), fixed or changing per symbol", "why_tests_cant": "The state is a 16-bit range plus an unbounded low with delayed carries; carry chains of any length must be resolved correctly and only specific long sequences exercise them.", "anchors": ["src/ec.rs: WriterEncoder::store, WriterBase::lr_compute, WriterEncoder::done, WriterBase::symbol", "src/ec.rs (test module): Reader"]}
{"id": "C02", "title": "Adaptive coding stays in sync", "statement": "When every symbol is written with an adapting table (symbol_with_update), a decoder that starts from the same tables and applies the AV1 adaptation rule after every decoded symbol decodes exactly the written symbols, and every table stays a valid CDF forever.", "quantifier": "all histories of symbols, all starting tables valid for adaptation, all alphabet sizes 2..16", "why_tests_cant": "Table validity has to be preserved by unboundedly many updates at every rate; tests only follow short histories.", "anchors": ["src/ec.rs: update_cdf, WriterBase::symbol_with_update"]}
{"id": "C03", "title": "Recorded symbols replay to the same bits", "statement": "Recording a sequence of coding calls and replaying the recording into the real encoder produces exactly the bytes, and leaves exactly the coder state, that issuing the calls directly would have produced.", "quantifier": "all sequences of coding calls, all encoder states at the moment of the replay", "why_tests_cant": "The recorder keeps its own range state and stores only (fl, fh, nms); equality must hold whatever the encoder state is at replay.", "anchors": ["src/ec.rs: WriterRecorder, replay"]}
{"id": "C04", "title": "Rolling back a trial leaves no trace", "statement": "For each writer (counter, recorder, encoder), taking a checkpoint, performing any coding calls and rolling back leaves the writer in a state from which all later output and bit counts are identical to those with the trial never made.", "quantifier": "all coding histories before the checkpoint, all trials, all continuations", "why_tests_cant": "RDO performs an unbounded tree of trials; a missing field in the checkpoint only shows after particular interleavings.", "anchors": ["src/ec.rs: StorageBackend::checkpoint, rollback for the three backends"]}
{"id": "C05", "title": "All writers agree on the bit count", "statement": "After the same coding calls the counting writer, the recording writer and the encoding writer report the same tell() and tell_frac().", "quantifier": "all coding histories", "why_tests_cant": "RDO decisions made with one writer must predict another one exactly for all histories.", "anchors": ["src/ec.rs: WriterCounter, WriterRecorder, WriterEncoder, tell, tell_frac"]}
{"id": "C06", "title": "Reported length bounds the finished stream", "statement": "The number of bytes returned by done() differs from tell() rounded up to bytes by at most the flush overhead that the coder documents; tell() never decreases while coding.", "quantifier": "all coding histories", "why_tests_cant": "The flush length depends on the final low/range state.", "anchors": ["src/ec.rs: tell, done"]}
{"id": "C07", "title": "Literals and universal codes round trip through the range coder", "statement": "Values written by literal, write_golomb, write_quniform, write_subexp, write_unsigned_subexp_with_ref and write_signed_subexp_with_ref are read back unchanged by the corresponding AV1 parsing procedures (L(n), golomb, NS, decode_subexp_bool, decode_unsigned/signed_subexp_with_ref_bool).", "quantifier": "all values, interval sizes, parameters k and references in the documented ranges", "why_tests_cant": "Five nested case splits on unbounded values and parameters.", "anchors": ["src/ec.rs: literal, write_golomb, write_quniform, write_subexp, write_unsigned_subexp_with_ref, write_signed_subexp_with_ref, recenter"]}
{"id": "C08", "title": "Predicted cost of universal codes equals the bits written", "statement": "count_quniform, count_subexp, count_unsigned_subexp_with_ref and count_signed_subexp_with_ref return exactly eight times the number of equiprobable bits the matching write_ function writes.", "quantifier": "all values and parameters in the documented ranges", "why_tests_cant": "Two separately written recursions must agree everywhere.", "anchors": ["src/ec.rs: count_quniform, count_subexp, count_unsigned_subexp_with_ref, count_signed_subexp_with_ref"]}
{"id": "C09", "title": "Rolling back probability tables is exact", "statement": "Rolling the context writer back to a checkpoint restores every probability table to its exact value at the checkpoint, whatever tables were adapted in between and in whatever order, although each log entry saves a fixed-size window overlapping neighbouring tables and two logs are undone separately; no log entry touches memory outside the table structure.", "quantifier": "all histories of table updates and nested checkpoints, all tables in the structure", "why_tests_cant": "Correctness depends on the memory layout of about sixty arrays and on the order of updates.", "anchors": ["src/context/cdf_context.rs: CDFContext, CDFContextLog, CDFContextLogPartition::push, rollback", "src/context/block_unit.rs: NMVContext, NMVComponent"]}
{"id": "C10", "title": "Every accepted frame comes out exactly once, in order", "statement": "For any interleaving of send_frame, receive_packet and flush, the packets returned carry input frame numbers 0,1,2,... consecutively; after flush and enough receive_packet calls exactly the accepted frames have been returned and then LimitReached is reported.", "quantifier": "all call interleavings, all configurations (low latency or reordering, key-frame intervals, lookahead), all scene-cut decisions", "why_tests_cant": "The output order is driven by a pyramid schedule interacting with key frames found by analysis and a flush at an arbitrary point.", "anchors": ["src/api/internal.rs: ContextInner::send_frame, receive_packet, build_frame_properties, compute_keyframe_placement, InterConfig", "src/api/context.rs: Context::send_frame, receive_packet, flush"]}
{"id": "C11", "title": "The packet pump never gets stuck or panics", "statement": "In any state reachable through the public API, receive_packet returns (no panic from missing frames, no endless loop): it returns NeedMoreData only when another frame or a flush is needed, and after flush a bounded number of calls reaches LimitReached.", "quantifier": "all reachable states of the encoder front end", "why_tests_cant": "The scheduler looks up maps with unwrap; absence of failure is an invariant over all histories.", "anchors": ["src/api/internal.rs: needs_more_frame_q_lookahead, needs_more_fi_lookahead, compute_frame_invariants, encode_packet, done_processing"]}
{"id": "C12", "title": "Streams start with a key frame and key frames obey the configuration", "statement": "The first packet is a key frame; a frame whose parameters request a key frame is output as a key frame; the distance between consecutive key frames never exceeds max_key_frame_interval.", "quantifier": "all frame sequences, all override positions, all scene-cut decisions, all legal interval settings", "why_tests_cant": "Key-frame placement is split between look-ahead decisions and a limit enforced in the middle of a reordering group.", "anchors": ["src/api/internal.rs: build_frame_properties, next_keyframe_input_frameno, compute_keyframe_placement", "src/api/config/encoder.rs: set_key_frame_interval"]}
{"id": "C13", "title": "User data and metadata stay with their frame", "statement": "Opaque data and ITU-T T.35 payloads attached to a frame are delivered exactly once, with the packet that shows that frame.", "quantifier": "all frame sequences, group structures and key-frame positions", "why_tests_cant": "Frames are coded out of order and some are shown by a later show-existing packet.", "anchors": ["src/api/internal.rs: opaque_q, t35_q, build_frame_properties, encode_show_existing_packet, finalize_packet"]}
{"id": "C14", "title": "Show-existing packets show the right picture", "statement": "Running a decoder's reference-buffer update rules over the emitted frame headers, the picture displayed by each packet (directly or by show-existing) is the one coded from the input frame whose number the packet carries.", "quantifier": "all frame sequences and configurations", "why_tests_cant": "Requires relating slot numbers chosen by the encoder with an independently specified decoder buffer for every group shape, including groups cut short by key frames or the end of the stream.", "anchors": ["src/api/internal.rs: get_slot_idx, get_show_existing_frame, encode_show_existing_packet", "src/encoder.rs: FrameInvariants::new_inter_frame, new_key_frame, update_rec_buffer"]}
{"id": "C15", "title": "References never reach outside the coded video sequence", "statement": "Every reference slot named by an inter frame holds, in the decoder's buffer, a frame decoded earlier and belonging to the same key-frame period (closed GOP).", "quantifier": "all frame sequences and configurations, all ref_frame indices", "why_tests_cant": "Depends on the whole coding history.", "anchors": ["src/encoder.rs: FrameInvariants::new_inter_frame", "src/api/internal.rs: allowed_ref_frames"]}
{"id": "C16", "title": "Order hints compare frames correctly", "statement": "The six-bit order hints written in headers are enough for the decoder to recover the exact display-order relation between the current frame and each of its references; the encoder's own comparison gives the same result as the decoder's on the truncated hints.", "quantifier": "all frame numbers (unbounded streams)", "why_tests_cant": "Wrap-around happens every 64 frames of one key-frame period and the comparison must hold at every offset.", "anchors": ["src/encoder.rs: Sequence::get_relative_dist, get_skip_mode_allowed, set_ref_frame_sign_bias", "src/api/internal.rs: get_order_hint"]}
{"id": "C17", "title": "API status protocol", "statement": "send_frame accepts frames until flush or (for still pictures) the first frame and afterwards returns EnoughData without changing the encoder; frame numbers are assigned consecutively; flush is idempotent.", "quantifier": "all call sequences", "why_tests_cant": "Stateful protocol over unbounded call sequences.", "anchors": ["src/api/context.rs: Context::send_frame, flush", "src/api/internal.rs: send_frame"]}
{"id": "C18", "title": "Tiles partition the picture", "statement": "The tiles used for encoding are pairwise disjoint, cover every 4x4 unit and every pixel of the frame, are non-empty, and respect the AV1 limits (at most 64 columns and 64 rows, tile width at most 4096 pixels, tile area at most 4096x2304).", "quantifier": "all frame sizes 1..65535 squared, all requested tile counts, chroma formats", "why_tests_cant": "2^32 frame sizes times tile requests; the tile views are unsafe aliases of the same frame buffers, so disjointness is a memory-safety condition.", "anchors": ["src/tiling/tiler.rs: TilingInfo::from_target_tiles, tile_log2, TileContextIterMut::next", "src/encoder.rs: Sequence::new"]}
{"id": "C19", "title": "The tile layout in the frame header is the one used for coding", "statement": "Parsing the tile_info bits of the frame header as prescribed by the AV1 specification reproduces exactly the tile columns and rows that the encoder used to split the frame.", "quantifier": "all frame sizes, tile requests and chroma formats", "why_tests_cant": "Two different syntaxes (uniform and explicit), each with limits recomputed by the decoder.", "anchors": ["src/header.rs: write_frame_header (tile info)", "src/ec.rs: BCodeWriter::write_quniform", "src/tiling/tiler.rs"]}
{"id": "C20", "title": "A validated configuration can be encoded", "statement": "If validate() accepts a configuration, creating an encoder does not panic.", "quantifier": "all configurations accepted by validate()", "why_tests_cant": "The space of configurations is unbounded and panics hide behind clamp/unwrap of derived values.", "anchors": ["src/api/config/mod.rs: validate, new_inner", "src/encoder.rs: Sequence::new", "src/tiling/tiler.rs: from_target_tiles"]}
{"id": "C21", "title": "Level limits are enforced", "statement": "If validate() accepts a configuration that names an AV1 level, then picture size, width, height and display rate (luma samples per second at the configured frame rate) are within the limits of that level.", "quantifier": "all configurations with a level", "why_tests_cant": "All sizes and frame rates.", "anchors": ["src/api/config/mod.rs: validate", "src/levels.rs"]}
{"id": "C22", "title": "LEB128 sizes round trip", "statement": "Every size below 2^32 written as leb128 is decoded by the AV1 leb128() procedure to the same value using exactly the bytes written, and uses at most five bytes.", "quantifier": "all 32-bit values, any following data", "why_tests_cant": "2^32 values and arbitrary suffixes.", "anchors": ["src/header.rs: ULEB128Writer::write_uleb128", "src/header.rs: LEWriter"]}
{"id": "C23", "title": "OBU framing is parseable", "statement": "Each emitted temporal unit is a concatenation of OBUs whose headers and size fields let a parser recover every payload exactly, with payload sizes matching.", "quantifier": "all payload lengths and contents", "why_tests_cant": "Arbitrary sizes and contents; size fields are variable length.", "anchors": ["src/encoder.rs: write_obus, write_key_frame_obus, encode_show_existing_frame, encode_frame", "src/header.rs: write_obu_header, write_metadata_obu, write_t35_metadata_obu"]}
{"id": "C24", "title": "Sequence header round trip", "statement": "Parsing the sequence header OBU by the AV1 syntax tables yields profile, level, size, bit depth, chroma format, colour description, timing info and tool flags equal to those of the configuration.", "quantifier": "all sequences that a valid configuration can produce", "why_tests_cant": "Dozens of conditional fields.", "anchors": ["src/header.rs: write_sequence_header_obu, write_sequence_header, write_color_config, write_bitdepth_colorspace"]}
{"id": "C25", "title": "Frame header round trip", "statement": "Parsing a frame header by the AV1 syntax tables, knowing the sequence header, yields exactly the frame parameters the encoder used, consuming exactly the bits written.", "quantifier": "all frame parameter records the encoder can produce", "why_tests_cant": "Hundreds of conditional fields; one misplaced bit corrupts everything after it.", "anchors": ["src/header.rs: write_frame_header and the functions it calls"]}
{"id": "C26", "title": "Tile data is separable", "statement": "A decoder following the tile group syntax recovers from the tile group payload exactly the byte strings produced by each tile encoder.", "quantifier": "all numbers of tiles, all tile contents and sizes", "why_tests_cant": "The size-field width is chosen from the largest tile and the last tile has no size field.", "anchors": ["src/encoder.rs: build_raw_tile_group, encode_tile_group"]}
{"id": "C27", "title": "Film grain parameters round trip", "statement": "The film grain parameters written in a frame header are parsed by the AV1 syntax to the parameters given by the user.", "quantifier": "all film grain parameter sets within field ranges, all chroma formats", "why_tests_cant": "Presence of later fields depends on counts and flags written earlier.", "anchors": ["src/header.rs: write_film_grain_params"]}
{"id": "C28", "title": "Two-pass statistics survive serialization", "statement": "The statistics emitted in the first pass (per-frame records and summary) are parsed in the second pass to the same values, however the byte stream is cut into buffers passed to twopass_in; corrupted magic, version or counts are rejected.", "quantifier": "all statistics values, all ways of fragmenting the byte stream", "why_tests_cant": "Fragmentation is a schedule; values are 32/64-bit.", "anchors": ["src/rate.rs: emit_frame_data, emit_summary, RCDeserialize, parse_summary, parse_metrics, twopass_in"]}
{"id": "C29", "title": "Two-pass feeding never over- or under-runs its buffers", "statement": "For any sequence of well-formed statistics packets and encoded frames, the circular statistics window is never written beyond its capacity or read when empty, its sums always equal the sums over the buffered frames, and the number of bytes asked for is exactly what is consumed.", "quantifier": "all histories of feeding and encoding", "why_tests_cant": "Circular buffer state over unbounded histories.", "anchors": ["src/rate.rs: twopass_parse_frame_data, parse_frame_data_packet, update_state, twopass_in_frames_needed"]}
{"id": "C30", "title": "Quantizer choices are codable", "statement": "Whatever the rate controller decides, the luma quantizer index is at least 1 (never accidentally lossless) and every delta from it fits the 7-bit signed header field.", "quantifier": "all log quantizers, bit depths and chroma formats", "why_tests_cant": "Depends on 64-bit fixed-point inputs.", "anchors": ["src/rate.rs: QuantizerParameters::new_from_log_q", "src/quantize/mod.rs: select_qi", "src/header.rs: write_delta_q"]}
{"id": "C31", "title": "Quantizer index selection is the nearest one", "statement": "select_dc_qi and select_ac_qi return the index whose step is closest to the requested quantizer in the log domain, never panic, and are monotone.", "quantifier": "all 64-bit quantizer values, all bit depths", "why_tests_cant": "Unbounded inputs against 256-entry tables.", "anchors": ["src/quantize/mod.rs: select_qi", "src/quantize/tables.rs"]}
{"id": "C32", "title": "Multiplication-based division is exact", "statement": "The reciprocal computed for a quantizer divides every 32-bit numerator exactly like integer division.", "quantifier": "all 32-bit divisors and numerators", "why_tests_cant": "2^64 pairs; tests cover 1000x1000.", "anchors": ["src/quantize/mod.rs: divu_gen, divu_pair"]}
{"id": "C33", "title": "Quantization is faithful", "statement": "Quantized coefficients keep their sign, are zero at and after the reported end-of-block, and dequantization returns each coefficient within one quantizer step.", "quantifier": "all coefficients in range, all quantizers, transform sizes", "why_tests_cant": "All coefficient values and scan positions.", "anchors": ["src/quantize/mod.rs: quantize, dequantize"]}
{"id": "C34", "title": "Lossless transform is invertible", "statement": "The forward and inverse Walsh-Hadamard transforms are exact inverses on every residual block.", "quantifier": "all 4x4 residual blocks", "why_tests_cant": "Sixteen unbounded integers.", "anchors": ["src/transform/forward.rs, forward_shared.rs: fwht4x4", "src/transform/inverse.rs: iwht4"]}
{"id": "C35", "title": "Scan orders are permutations", "statement": "Every scan table visits each coefficient position of its transform exactly once and the inverse tables invert it, so no coefficient is lost.", "quantifier": "all transform sizes and types", "why_tests_cant": "Settled only by checking every table; stated for every entry.", "anchors": ["src/scan_order.rs"]}
{"id": "C36", "title": "IVF files round trip", "statement": "Reading back an IVF file written by the muxer gives the same header fields and the same packets with the same timestamps.", "quantifier": "all packet sequences, all sizes below 2^32, all timestamps", "why_tests_cant": "Arbitrary contents and counts.", "anchors": ["ivf/src/lib.rs"]}
{"id": "C37", "title": "Clustering never reads out of bounds", "statement": "kmeans on any non-empty sorted data never indexes outside the slice (it uses unchecked indexing), terminates within its iteration limit, and every returned centre lies between the minimum and maximum of the data.", "quantifier": "all sorted slices of any length, all K of at least two", "why_tests_cant": "Unchecked indices are derived from previous iterations.", "anchors": ["src/util/kmeans.rs"]}
{"id": "C38", "title": "Segment identifiers round trip", "statement": "The segment index coded relative to its prediction is decoded by the AV1 neg_deinterleave procedure to the same index.", "quantifier": "all predictions, indices and numbers of active segments", "why_tests_cant": "Piecewise arithmetic with many cases.", "anchors": ["src/context/block_unit.rs: neg_interleave", "src/segmentation.rs"]}
{"id": "C39", "title": "Motion vectors round trip", "statement": "Any motion vector difference in the codable range, at each precision, is decoded by the AV1 read_mv procedure to the same difference.", "quantifier": "all MV differences and precisions", "why_tests_cant": "Class/offset/fraction decomposition of a 15-bit signed value.", "anchors": ["src/context/block_unit.rs: write_mv, encode_mv_component, get_mv_class"]}
{"id": "C40", "title": "Intra edge availability is truthful", "statement": "When the predictor is told that top-right (or bottom-left) pixels are available, those pixels belong to blocks already coded in the decoding order, for every block position and size allowed by the partition tree.", "quantifier": "all block sizes, partitions and positions in a superblock and tile", "why_tests_cant": "Table-driven logic over every partition tree position.", "anchors": ["src/recon_intra.rs: has_tr, has_bl"]}
{"id": "C41", "title": "Filters keep pixels in range", "statement": "Deblocking, CDEF and loop restoration never produce a pixel outside [0, 2^bitdepth-1], and leave flat areas unchanged.", "quantifier": "all pixel neighbourhoods, strengths and bit depths", "why_tests_cant": "Unbounded combinations of pixels and strengths.", "anchors": ["src/deblock.rs", "src/cdef.rs", "src/lrf.rs"]}
{"id": "C42", "title": "Parallel superblock filtering queue drains in order", "statement": "The per-tile queue of delayed superblocks is emitted completely, in raster order, each superblock exactly once, for every tile shape and loop-restoration-unit layout.", "quantifier": "all tile shapes, all orders in which restoration units complete", "why_tests_cant": "Queue over unbounded tiles with data-dependent readiness.", "anchors": ["src/encoder.rs: check_lf_queue, encode_tile, SBSQueueEntry"]}
{"id": "C43", "title": "Symbol cost estimates are exact", "statement": "The cost reported by symbol_bits for a symbol and a table equals the growth of tell_frac() caused by actually writing that symbol at that point.", "quantifier": "all coding histories, all valid tables, all symbols", "why_tests_cant": "The estimate mirrors the renormalisation arithmetic for every coder state; tests see a few states only, and the unsigned arithmetic can underflow in rarely visited ones.", "anchors": ["src/ec.rs: symbol_bits, frac_compute, tell_frac"]}
{"id": "C44", "title": "Finished streams satisfy the decoder's exit process", "statement": "After decoding all symbols, the decoder's trailing position points at a one bit of the finished stream, followed only by zero bits up to the end of its last byte, as the AV1 exit process requires.", "quantifier": "all coding histories with fixed or adaptive tables", "why_tests_cant": "Depends on the carry chain and on the final alignment for every possible history.", "anchors": ["src/ec.rs: done"]}
{"id": "C45", "title": "Encoder and decoder reference buffers stay identical", "statement": "For every coded frame, the pictures the encoder predicted from are exactly the pictures a decoder holds in the reference slots named by the frame header, after applying the decoder's reference update rules to everything emitted before; the decoder never meets an empty slot, a missing sequence header or a hint list contradicting its buffers.", "quantifier": "all call interleavings, configurations and scene-cut decisions; all frames of the stream", "why_tests_cant": "A drift appears only for particular combinations of key-frame position, group truncation and slot rotation; the space of streams is unbounded.", "anchors": ["src/encoder.rs:update_rec_buffer", "src/api/internal.rs:encode_packet", "src/encoder.rs:FrameInvariants::new_inter_frame"]}
{"id": "C46", "title": "Each packet is one temporal unit", "statement": "The data of each returned packet starts with the only temporal delimiter in it and contains exactly one shown frame, which is the last OBU.", "quantifier": "all call interleavings and configurations", "why_tests_cant": "Hidden frames are buffered across receive_packet calls, including refused ones; all interleavings matter.", "anchors": ["src/api/internal.rs:finalize_packet", "src/api/internal.rs:receive_packet"]}
{"id": "C47", "title": "Output does not depend on the call schedule", "statement": "Two histories in which the same frames were accepted yield packet sequences of which one is a prefix of the other, however sends, receives and the flush are interleaved.", "quantifier": "all pairs of call interleavings", "why_tests_cant": "Quantifies over pairs of interleavings.", "anchors": ["src/api/internal.rs:send_frame", "src/api/internal.rs:receive_packet", "src/api/context.rs:flush"]}
{"id": "C48", "title": "Bounded delay", "statement": "When receive_packet reports NeedMoreData, the number of frames sent but not yet returned is at most the RDO lookahead plus a constant (3 in low-latency mode, 14 with reordering).", "quantifier": "all reachable states, all stream lengths and lookahead settings", "why_tests_cant": "The bound must hold at every point of arbitrarily long streams with arbitrary key-frame positions.", "anchors": ["src/api/internal.rs:needs_more_fi_lookahead", "src/api/internal.rs:compute_frame_invariants"]}
{"id": "C49", "title": "Loop-restoration units and tiles agree", "statement": "The loop-restoration unit sizes chosen for a frame are expressible in the frame header; every restoration unit of every plane belongs to exactly one tile's view; and each tile writes the parameters of a unit at exactly the superblock where an AV1 decoder reads them, and at no other superblock.", "quantifier": "all frame sizes, tilings, quantizers, chroma formats and planes", "why_tests_cant": "Unit sizes depend on the quantizer, on the tile grid and on the frame size modulo the unit; the stretched last unit may cross into another tile.", "anchors": ["src/lrf.rs: RestorationState::new", "src/tiling/tile_restoration_state.rs: get_units_region, restoration_unit_index", "src/encoder.rs: encode_tile, check_lf_queue"]}
{"id": "C50", "title": "A requested number of tiles is honoured", "statement": "When a number of tiles is requested, the encoder uses at least that many tiles if the picture can be split into that many.", "quantifier": "all accepted configurations", "why_tests_cant": "All sizes and requested counts; the search stops early in a size-dependent way.", "anchors": ["src/encoder.rs: Sequence::new", "src/tiling/tiler.rs: from_target_tiles"]}
{"id": "C51", "title": "Transform coefficients are read back by the decoder", "statement": "Whatever transform blocks a tile consists of (sizes, positions, planes, transform types, coefficients below 2^20 in magnitude, blocks without coefficients in between), write_coeffs_lv_map and the context bookkeeping around it never panic, and a decoder that follows the AV1 specification and keeps its own contexts reads back exactly the transform type, the position of the last coefficient and every coefficient of every block, consuming exactly the symbols written.", "quantifier": "every list of rows of superblocks, every block in them, every chroma subsampling, frame size and coefficient array; reduced transform set on or off", "why_tests_cant": "The contexts depend on all earlier blocks of the tile and on the levels of up to five neighbouring coefficients, and the encoder computes them in another way (OR of levels, padded level buffer, column order) than the specification; a mismatch desynchronises the decoder only for particular neighbourhoods.", "anchors": ["src/context/block_unit.rs:1783-2040", "src/context/block_unit.rs:333-560", "src/context/transform_unit.rs:530-610", "src/context/transform_unit.rs:846-1010", "src/context/partition_unit.rs:434-469", "src/encoder.rs:1561-1566"]}
{"id": "C52", "title": "Deblocking equals the decoder's loop filter", "statement": "For every way of cutting a frame into blocks and transforms, every set of filter levels and every reconstructed frame, the deblocked frame the encoder keeps as a reference is, pixel for pixel, the frame the loop filter process of the AV1 specification produces, although the encoder interleaves vertical and horizontal edges; all pixels stay within the bit depth.", "quantifier": "all block tilings, transform sizes, skip flags, levels, frame sizes, chroma formats, bit depths and pixel values", "why_tests_cant": "A mismatch shows only as slow drift in a decoder for particular neighbouring transform sizes at particular positions; the combinations are unbounded.", "anchors": ["src/deblock.rs: deblock_plane, filter_v_edge, filter_h_edge, deblock_size, deblock_level", "src/encoder.rs: DeblockState"]}
{"id": "C53", "title": "Deblocking levels chosen by search are the best ones", "statement": "Unless fast deblocking is requested, the level chosen for a direction of a plane minimises the squared error summed over all edges of that direction, among all 64 levels including no filtering.", "quantifier": "all frames, reconstructions, block tilings and bit depths", "why_tests_cant": "Optimality over all levels for all pixel contents cannot be sampled.", "anchors": ["src/deblock.rs: deblock_filter_optimize, sse_optimize, sse_plane, sse_v_edge, sse_h_edge, sse_size4/6/8/14"]}
{"id": "C54", "title": "CDEF equals the decoder's", "statement": "For every reconstructed frame, skip map, set of strengths, damping and choice of strength per 64x64 block, the directional enhancement filter ends without a panic and the frame it writes is, sample by sample, the output of the CDEF process of the AV1 specification; costs fit in 32 bits and the scratch block is never overrun.", "quantifier": "all frame sizes, chroma formats, bit depths 8 to 12, strengths, skip maps and pixel values", "why_tests_cant": "Edge availability, direction ties and clamping interact; a mismatch appears only as drift for particular pixels at particular positions.", "anchors": ["src/cdef.rs: cdef_find_dir, constrain, pad_into_tmp16, cdef_filter_block, adjust_strength, cdef_analyze_superblock, cdef_filter_superblock, cdef_filter_tile"]}
{"id": "C55", "title": "Loop restoration equals the decoder's", "statement": "For every frame and every admissible choice of self-guided filters per restoration unit, lrf_filter_frame ends without a panic and the plane it writes is, sample by sample, the output of the loop restoration process of the AV1 specification, with the unit sizes and counts that a decoder derives; all sums fit in 32 bits.", "quantifier": "all frame sizes, chroma formats, bit depths 8 to 12, filter sets, weights and pixel values", "why_tests_cant": "Stripe offsets, unit rounding, integral-image reuse and rounding interact; a mismatch shows only as drift in particular rows of particular frame sizes.", "anchors": ["src/lrf.rs: RestorationState::new, lrf_filter_frame, setup_integral_image, sgrproj_box_ab_r1, sgrproj_box_ab_r2, sgrproj_box_f_r0, sgrproj_box_f_r1, sgrproj_box_f_r2, sgrproj_stripe_filter, wiener_stripe_filter"]}
{"id": "C56", "title": "Intra prediction equals the decoder's", "statement": "For every transform block of every frame, intra mode, angle and samples decoded before it, the predicted block is, sample by sample, the output of the intra prediction process of the AV1 specification, edge filter and upsampling included, and never panics; chroma from luma uses the same luma samples and average as a decoder; the smooth edge filter is chosen as the decoder chooses it; every predicted sample fits the bit depth.", "quantifier": "all block and transform positions and sizes, frame and tile sizes, chroma formats, modes, angle deltas, bit depths and sample values", "why_tests_cant": "Edge lengths, the corner filter, upsampling and missing neighbours interact with the angle; most combinations never occur in a test clip and a mismatch shows only as drift.", "anchors": ["src/predict.rs: PredictionMode::predict_intra, dispatch_predict_intra, pred_directional, filter_edge, upsample_edge, pred_dc, pred_paeth, pred_smooth, pred_cfl_ac, pred_cfl_inner, luma_ac, IntraEdgeFilterParameters::use_smooth_filter", "src/partition.rs: get_intra_edges", "src/tiling/tile_state.rs: above_block_info, left_block_info"]}
{"id": "C57", "title": "Inter prediction equals the decoder's", "statement": "For every block, reference plane, motion vector and bit depth, the single and the compound translational prediction are, sample by sample, those of the AV1 specification with the regular filter; the clamped and padded read never leaves the allocated plane, so the raw pointer reads are in bounds; chroma of blocks below 8x8 takes its motion from the same neighbouring blocks as in a decoder.", "quantifier": "all motion vectors, block positions and sizes, plane sizes, bit depths 8, 10, 12, chroma formats and sample values", "why_tests_cant": "Vectors far outside the frame, 12 bit rounding and the intermediate bias are reached only by unusual clips; a difference drifts silently and an out of bounds read goes through a raw pointer.", "anchors": ["src/mc.rs: put_8tap, prep_8tap, mc_avg, get_filter, run_filter, SUBPEL_FILTERS", "src/predict.rs: PredictionMode::predict_inter, predict_inter_single, predict_inter_compound, get_mv_params", "src/encoder.rs: motion_compensate"]}
{"id": "C58", "title": "The inverse transform and reconstruction equal the decoder's", "statement": "For every transform size and every transform type with an implementation for it, every block of dequantised coefficients that fits bit depth + 8 bits, and every prediction, the reconstructed sample at each position is the one of the AV1 specification (inverse DCT 4 to 64, ADST 4 to 16 with flips, identity 4 to 32, rectangular scaling, intermediate rounding and clamping); no i32 operation of the butterflies changes a value by wrapping.", "quantifier": "all coefficients, predictions, positions, 19 transform sizes, 16 transform types, bit depths 8, 10 and 12 (at 12, rows whose intermediate values fit 20 bits, as conforming streams need)", "why_tests_cant": "A wrong constant or index in one of about 1500 butterfly lines, or a rounding at the end of the range, shows up only for some coefficient patterns, and only as drift between encoder and decoder.", "anchors": ["src/transform/inverse.rs: av1_idct4..64, av1_iadst4..16, av1_iidentity4..32, INV_TXFM_FNS, rust::inverse_transform_add", "src/transform/mod.rs: half_btf, clamp_value, get_1d_tx_types"]}
{"id": "C59", "title": "The partition tree and skip flags of a tile are read back", "statement": "For every tile and every partition trees and skip flags the encoder can choose, a decoder following the AV1 specification, which looks at the sizes and flags of the neighbouring blocks, selects the same tables as the encoder, which looks at its context arrays, and reads the same blocks in the same order; at the bottom and right edges the shortened symbols (split or horizontal, split or vertical) are used in the same places with the same probability; nothing left over in either side's arrays matters.", "quantifier": "all tile positions and sizes in a frame, all partition trees valid at the edges, all skip flags, all contents of the arrays beforehand, all partition tables", "why_tests_cant": "A wrong context gives a stream that decodes differently only for particular neighbouring sizes at particular alignments, often only at a frame or tile edge, and the damage shows much later.", "anchors": ["src/context/partition_unit.rs: write_partition, partition_gather_horz_alike, partition_gather_vert_alike, partition_plane_context, update_partition_context, skip_context, write_skip", "src/encoder.rs: encode_partition_topdown, encode_partition_bottomup, encode_block_pre_cdef, encode_tile", "src/rdo.rs: get_sub_partitions"]}
{"id": "C60", "title": "Intra modes and chroma-from-luma alphas are read back", "statement": "For every block the encoder codes with an intra mode, in every frame type, chroma format and position, a decoder following the AV1 specification selects the same tables and reads the same luma mode, chroma mode, angle deltas and chroma-from-luma alphas, no palette and no filter intra mode, and stops at the same place; no assert of the writers fails; the alphas read are the ones the encoder predicts with.", "quantifier": "all frame types, chroma formats and tool switches, all tile origins and block positions, all block sizes of the partitions in use, all intra modes, deltas and alphas, all neighbouring modes", "why_tests_cant": "Which elements are present depends on size, position parity, chroma format, mode and switches together; a mismatch in one combination desynchronises the rest of the tile.", "anchors": ["src/encoder.rs: encode_block_post_cdef", "src/context/block_unit.rs: write_intra_mode_kf, write_intra_mode, write_intra_uv_mode, write_angle_delta, write_use_palette_mode, write_use_filter_intra", "src/context/partition_unit.rs: CFLParams, write_cfl_alphas", "src/context/transform_unit.rs: has_chroma", "src/partition.rs: BlockSize::partial_cmp, cfl_allowed"]}
{"id": "C61", "title": "Reference frames of blocks are read back", "statement": "For every block of an inter frame, a decoder following the AV1 specification, which looks at the references of the blocks above and to the left, selects the same tables as the encoder and reads whether the block is inter and the same reference frames, one or two, and nothing else; no assert of the writer fails.", "quantifier": "all tile origins and block positions and sizes, all references of the neighbouring blocks that the encoder makes (intra, single, forward and backward), all choices for the block, compound allowed or not", "why_tests_cant": "The contexts combine availability, direction and number of references of two neighbours; a wrong one is noticed only for a particular pair, and only later in the tile.", "anchors": ["src/context/frame_header.rs: write_ref_frames, get_ref_frame_ctx_b0", "src/context/block_unit.rs: intra_inter_context, fill_neighbours_ref_counts, get_comp_mode_ctx, get_comp_ref_type_ctx, get_pred_ctx_*, write_is_inter"]}
