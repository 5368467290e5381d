{"claims": [
  {"property": "C01", "status": "proved", "theorems": ["C01_range_coder_roundtrip"], "note": "all symbol sequences and valid tables; decoder is AV1 spec 8.2"},
  {"property": "C02", "status": "proved", "theorems": ["C02_adaptive_sync", "C02_update_is_av1_adaptation"], "note": "context selection is any function of the decoded history; also all tables stay valid"},
  {"property": "C03", "status": "proved", "theorems": ["C03_replay_equals_direct"], "note": "encoder state is any state reached by coding calls without add_bits_frac; the recorder is reset by replay"},
  {"property": "C04", "status": "proved", "theorems": ["C04_trials_leave_no_trace", "C04_fake_bits_refuted"], "note": "holds for all coding calls, nested trials included; refuted for add_bits_frac, which no rollback undoes (finding F7)"},
  {"property": "C05", "status": "proved", "theorems": ["C05_writers_agree"], "note": "with trials and fractional credits"},
  {"property": "C06", "status": "proved", "theorems": ["C06_tell_predicts_length"], "note": "exact equality, below 2^28 buffered words (u32 arithmetic)"},
  {"property": "C07", "status": "proved", "theorems": ["C07_codes_roundtrip"], "note": "through the range coder, any sequence of codes; parameters below the u32 overflow threshold 2^28"},
  {"property": "C08", "status": "proved", "theorems": ["C08_predicted_cost_exact"], "note": ""},
  {"property": "C09", "status": "proved", "theorems": ["C09_rollback_exact", "C09_rollback_exact_layout"], "note": "Refinement of a machine that keeps full copies; the layout of CDFContext is checked by a linear scan. Vec::reserve is a parameter that leaves at least the requested room. The new values of a table are arbitrary."},
  {"property": "C10", "status": "proved", "theorems": ["C10_in_order", "C10_complete"], "note": "all histories, legal configurations, scene answers; at most i32::MAX-1 frames (the API's own limit)"},
  {"property": "C11", "status": "proved", "theorems": ["C11_no_panic", "C11_need_more", "C10_complete", "C48_latency"], "note": "histories of at most i32::MAX-1 frames; the model's None covers every index/unwrap/assert of the modelled functions and fuel exhaustion of the lookahead loop; sending frame number i32::MAX is outside (finding F5)"},
  {"property": "C12", "status": "proved", "theorems": ["C12_key_frames", "C12_first_forced_interval"], "note": "scene detection is an arbitrary function of the frame number"},
  {"property": "C13", "status": "partial", "theorems": ["C13_opaque", "C13_t35_partial", "C13_t35_refuted"], "note": "opaque data proved in all modes; T.35 proved in low-latency mode and refuted with reordering (finding F4)"},
  {"property": "C14", "status": "proved", "theorems": ["C14_shows"], "note": "decoder rules written from the AV1 specification in Sched_spec.v"},
  {"property": "C15", "status": "proved", "theorems": ["C15_closed"], "note": ""},
  {"property": "C16", "status": "proved", "theorems": ["C16_hints", "C16_compare"], "note": ""},
  {"property": "C17", "status": "proved", "theorems": ["C17_send", "C17_flush"], "note": ""},
  {"property": "C18", "status": "partial", "theorems": ["C18_partition", "C18_limits_partial", "C18_area_refuted"], "note": "Partition, non-emptiness, disjointness, tile counts and tile width proved for every frame size, request and chroma format; the area limit is refuted (4160x4480) and proved only up to one superblock row and column (not for 4:2:2)."},
  {"property": "C19", "status": "partial", "theorems": ["C19_partial", "C19_refuted"], "note": "Proved for 4:2:0, 4:4:4, 4:0:0 and for 4:2:2 without a minimal tile count; refuted for 8064x4352 4:2:2."},
  {"property": "C20", "status": "partial", "theorems": ["C20_partial", "C20_rate_exact", "C20_refuted", "C20_refuted_240"], "note": "Proved up to 140 frames per second for the size assertions and the tiling of Sequence::new; refuted above. The f64 rate limit is a parameter known to 2^-20."},
  {"property": "C21", "status": "partial", "theorems": ["C21_partial", "C21_pic_size_refuted", "C21_display_rate_refuted"], "note": "Width, height and (except level 4.1) area proved against the level table of the specification; area for level 4.1 and display rate refuted."},
  {"property": "C22", "status": "proved", "theorems": ["C22"], "note": "write_uleb128 for every 32-bit size, also minimality. Sizes of 2^32 and more are truncated (C22_truncation)."},
  {"property": "C23", "status": "proved", "theorems": ["C23"], "note": "Sequence header and frame header bit strings are arbitrary here; their contents are C24 and C25."},
  {"property": "C24", "status": "proved", "theorems": ["C24", "C24_identity_partial", "C24_identity_refuted"], "note": "The sequence header written for every configuration the encoder accepts is parsed by the independent AV1 syntax reader to exactly the view computed from the configuration, with nothing left over. Conformance side note: the encoder accepts identity matrix coefficients with subsampled chroma, which AV1 forbids (C24_identity_refuted; C24_identity_partial gives the side condition)."},
  {"property": "C25", "status": "partial", "theorems": ["C25_partial", "C25_same_bits"], "note": "For every call history of the encoder, the frame headers written along the coded stream are parsed one after another by the independent AV1 reader, with decoder-side reference state, to the values the encoder used. Missing: 4:2:2 streams in which several tiles are forced (the tile_info bits there are wrong, see C19), film grain chroma points that cannot be sent (see C27)."},
  {"property": "C26", "status": "proved", "theorems": ["C26"], "note": "Tile payloads are arbitrary non-empty byte strings below 4 GiB."},
  {"property": "C27", "status": "partial", "theorems": ["C27_partial", "C27_refuted"], "note": "Round trip for all film grain parameter sets that give no chroma points where the syntax cannot carry them; without that condition the written header desynchronises (C27_refuted)."},
  {"property": "C28", "status": "proved", "theorems": ["C28_two_pass", "C28_header_rejected"], "note": "Any first pass within its counters, any cutting of the bytes, any interleaving with finished frames, both buffering modes. bexp_q24 is a parameter bounded on the scales used; a finite window additionally needs enough shown frames in every window-sized run (dense), otherwise the code reports an error (Example too_many_hidden)."},
  {"property": "C29", "status": "proved", "theorems": ["C29_byte_window", "C29_bytes_asked", "C29_packet_window", "C29_early_ready_refuted"], "note": "Queue refinement for both interfaces, arbitrary packets including malformed ones. Refuted side claim: through the packet interface rate control can become ready one temporal unit early."},
  {"property": "C30", "status": "proved", "theorems": ["C30"], "note": "For any exponential function and any binary search meeting its contract, |log q| <= 2^62 (Q57, i.e. up to 32) and |log_isqrt| <= 2^60. bexp64 itself is modelled in LogExp_model but its freedom from overflow is not part of this theorem. lambda and dist_scale (floating point) not modelled."},
  {"property": "C31", "status": "proved", "theorems": ["C31"], "note": "All integers; slice::binary_search by its documented contract."},
  {"property": "C32", "status": "proved", "theorems": ["C32"], "note": "All 32-bit divisors and numerators."},
  {"property": "C33", "status": "partial", "theorems": ["C33_partial", "C33_refuted"], "note": "Quantization proved in full; the reconstruction equals the decoder's and is within a step when level*step fits the decoder's clipping range. Refuted without that: the portable dequantize wraps to i16 where the decoder clips (flat 16x16 block, DC 32640, index 201)."},
  {"property": "C34", "status": "proved", "theorems": ["C34_lossless", "C34_butterflies"], "note": "4x4 WHT for 8 to 12 bit, i16 and i32 coefficients, any stride: no overflow, the encoder's inverse and the AV1 specification's inverse both return the source. The portable versions."},
  {"property": "C35", "status": "proved", "theorems": ["C35"], "note": "All 19 sizes and 16 types, against an independent generator of the specification's scans."},
  {"property": "C36", "status": "proved", "theorems": ["C36"], "note": "IVF muxer and demuxer; bitstream-io readers and writers are modelled as byte lists."},
  {"property": "C37", "status": "partial", "theorems": ["C37_partial", "C37_range_refuted"], "note": "Refinement of the incremental scans to rounds written with filters; in bounds, no failed conversion, no overflow, centres ordered and in range. The range claim is refuted for negative data (one above the maximum, finding F22)."},
  {"property": "C38", "status": "proved", "theorems": ["C38_interleave", "C38_segments"], "note": "Whole tiles: every legal coding order of blocks of any size, skip handling before and after the segment id, stale map contents from trial encodings. Symbols are events (table, context, alphabet size, value); the coding of events is C01/C02."},
  {"property": "C39", "status": "proved", "theorems": ["C39_motion_vectors", "C39_out_of_range"], "note": "All three precisions. Differences beyond 2^14 make the writer panic (finding F19)."},
  {"property": "C40", "status": "proved", "theorems": ["C40_top_right", "C40_bottom_left", "C40_truthful", "C40_edges", "C40_mv_top_right"], "note": "64x64 superblocks, which are the only ones the encoder uses; partitions none, horizontal, vertical and split. The edge arrays equal those of the specification as well."},
  {"property": "C41", "status": "partial", "theorems": ["C52_deblock_is_decoder", "C41_deblock_flat", "C41_cdef_between", "C41_cdef_range", "C41_cdef_flat", "C41_restoration_range", "C41_restoration_flat", "C41_restoration_flat_refuted"], "note": "Deblocking, CDEF and loop restoration: range at all bit depths; flat areas at all bit depths for the first two and at 8 bits for loop restoration. At 10 and 12 bits the self guided filter of AV1 itself changes flat areas (refuted)."},
  {"property": "C42", "status": "proved", "theorems": ["C42"], "note": "every tile, both delayed modes, any CDEF presence: queue drained, raster order; the recorded contents of a superblock are opaque"},
  {"property": "C43", "status": "proved", "theorems": ["C43_symbol_bits_exact", "C43_symbol_bits_recorder_refuted"], "note": "exact on the encoder; refuted for the recording writer (finding F8)"},
  {"property": "C44", "status": "proved", "theorems": ["C44_exit_process"], "note": ""},
  {"property": "C45", "status": "proved", "theorems": ["C45_in_sync"], "note": ""},
  {"property": "C46", "status": "proved", "theorems": ["C46_units"], "note": "OBU level; byte framing is C23"},
  {"property": "C47", "status": "proved", "theorems": ["C47_deterministic"], "note": ""},
  {"property": "C48", "status": "proved", "theorems": ["C48_latency"], "note": ""},
  {"property": "C49", "status": "proved", "theorems": ["C49_units", "C42"], "note": "layout, header, ownership and the position of every unit's parameters for all sizes, tilings, chroma formats, quantizers; filter RDO decisions are not modelled"},
  {"property": "C50", "status": "partial", "theorems": ["C50_partial", "C50_refuted"], "note": "Refuted (128x128, four tiles requested, two used); proved that the search ends with enough tiles or one halving before the finest grid."},
  {"property": "C51", "status": "proved", "theorems": ["C51_coefficients", "C51_16x64_refuted"], "note": "Whole tile, by induction over blocks and superblock rows, against a decoder written from the AV1 specification. The transform sizes 16x64 and 64x16 are excluded (the encoder never chooses them); for them the property is refuted (finding F20). The coding of the symbols themselves is C01/C02."},
  {"property": "C52", "status": "proved", "theorems": ["C52_deblock_is_decoder", "C52_kernels", "C52_mode_deltas", "C52_deltas_refuted"], "note": "Delta levels off, as rav1e always has them; 8 <= bit depth <= width of the pixel type. C52_deltas_refuted: with the reference deltas on, which never happens, the level would differ (F30)."},
  {"property": "C53", "status": "partial", "theorems": ["C53_vertical_level_best", "C53_levels_best_square_partial", "C53_horizontal_level_refuted"], "note": "Vertical edges: proved. Horizontal edges: false for rectangular transforms (finding F23), proved for square ones."},
  {"property": "C54", "status": "proved", "theorems": ["C54_cdef_is_decoder", "C54_direction", "C54_scratch_in_bounds"], "note": "Frames whose luma size is a multiple of 8, as the frame allocator rounds it; filter run over the whole frame as one tile, as the encoder does."},
  {"property": "C55", "status": "partial", "theorems": ["C55_unit_sizes", "C55_restoration_is_decoder", "C55_without_cdef", "C55_without_cdef_refuted", "C55_wiener_refuted"], "note": "Proved when CDEF is enabled and no unit uses the Wiener filter. False without CDEF (the encoder skips filters it has signalled) and, latently, for the Wiener filter."},
  {"property": "C56", "status": "proved", "theorems": ["C56_predict", "C56_cfl", "C56_filter_type"], "note": "The portable code. Bit depth at most the width of the pixel type, and at most 12 for chroma from luma; 64x64 superblocks."},
  {"property": "C57", "status": "proved", "theorems": ["C57_predict", "C57_margins", "C57_calls", "C57_sharp_refuted"], "note": "The portable code and the unscaled, translational prediction the encoder uses. The replicated border of a reference plane is a contract of v_frame. C57_sharp_refuted: the sharp filter, which the encoder never uses, differs for sizes up to 4 (F28)."},
  {"property": "C58", "status": "proved", "theorems": ["C58_reconstruct", "C58_transform", "C58_conforms", "C58_exact", "C58_twelve_bits_refuted"], "note": "The portable code, without the lossless transform (C34). The reference saturates in the sums, as decoders do; C58_exact: for conforming streams that is the specification's process without saturation. At bit depth 12 the row transforms are required to conform (every butterfly value fits 20 bits); C58_twelve_bits_refuted: without that the i32 butterflies can wrap (F29)."},
  {"property": "C59", "status": "proved", "theorems": ["C59_tile", "C59_gather"], "note": "Superblocks of 64x64 and the partitions none, horizontal, vertical and split, as rav1e has them. The tree is an input; the rest of a block's syntax is left out of the stream."},
  {"property": "C60", "status": "proved", "theorems": ["C60_intra_modes", "C60_cfl_alphas", "C60_4x16_refuted"], "note": "Square and 2:1 blocks, as rav1e has them; lossless off; the elements before the mode are left out. C60_4x16_refuted: for 4x16 blocks, which are never made, the angle delta would be missing (F31)."},
  {"property": "C61", "status": "proved", "theorems": ["C61_references"], "note": "Neighbours are intra, single, or a forward and a backward reference, as rav1e makes them; skip mode and the segment features for references are off. Not yet tested against wrong programs."}
]}
