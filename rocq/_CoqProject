-Q theories Verif

theories/Base.v
theories/EC_model.v
theories/EC_spec.v
theories/EC_proof.v
theories/EC_dec.v
theories/EC_writers.v
theories/Codes_model.v
theories/Codes_proof.v
theories/P_EC.v
theories/SMap.v
theories/Sched_model.v
theories/Sched_plan.v
theories/Sched_inv.v
theories/Sched_shape.v
theories/Sched_step.v
theories/Sched_recv.v
theories/Sched_spec.v
theories/Sched_run.v
theories/Sched_slots.v
theories/Sched_dec.v
theories/Sched_lat.v
theories/P_Sched.v
theories/Bits.v
theories/Tile_model.v
theories/Tile_spec.v
theories/Tile_proof.v
theories/Tile_main.v
theories/Config_model.v
theories/Config_proof.v
theories/P_Tile.v
theories/Lrf_model.v
theories/Lrf_spec.v
theories/Lrf_queue.v
theories/Lrf_proof.v
theories/P_Lrf.v
theories/Obu_model.v
theories/Obu_spec.v
theories/Obu_proof.v
theories/P_Obu.v
theories/Hdr_model.v
theories/Hdr_spec.v
theories/Hdr_proof.v
theories/Hdr_frame.v
theories/Hdr_whole.v
theories/Hdr_stream.v
theories/P_Hdr.v
theories/Quant_tables.v
theories/Scan_tables.v
theories/LogExp_model.v
theories/Quant_model.v
theories/Quant_spec.v
theories/Quant_proof.v
theories/Quant_sel.v
theories/Quant_scan.v
theories/Quant_idx.v
theories/Quant_run.v
theories/Quant_deq.v
theories/P_Quant.v
theories/Rate_model.v
theories/Rate_spec.v
theories/Rate_bytes.v
theories/Rate_summary.v
theories/Rate_window.v
theories/Rate_stream.v
theories/Rate_run.v
theories/P_Rate.v
theories/Wht_model.v
theories/Wht_spec.v
theories/Wht_proof.v
theories/P_Wht.v
theories/Sym.v
theories/Mv_model.v
theories/Mv_spec.v
theories/Mv_proof.v
theories/Seg_model.v
theories/Seg_spec.v
theories/Seg_proof.v
theories/P_Syntax.v
theories/Coef_model.v
theories/Coef_spec.v
theories/Coef_proof.v
theories/Coef_levels.v
theories/Coef_loops.v
theories/Coef_block.v
theories/Coef_tile.v
theories/P_Coef.v
theories/Kmeans_model.v
theories/Kmeans_spec.v
theories/Kmeans_proof.v
theories/P_Util.v
theories/Cdf_model.v
theories/Cdf_spec.v
theories/Cdf_proof.v
theories/P_Cdf.v
theories/Deblock_model.v
theories/Deblock_spec.v
theories/Deblock_proof.v
theories/Deblock_order.v
theories/Deblock_plane.v
theories/Deblock_tally.v
theories/Deblock_flat.v
theories/P_Deblock.v
theories/Cdef_spec.v
theories/Cdef_model.v
theories/Cdef_dir.v
theories/Cdef_filter.v
theories/Cdef_frame.v
theories/P_Cdef.v
theories/Sgr_spec.v
theories/Sgr_model.v
theories/Sgr_box.v
theories/Sgr_kernel.v
theories/Sgr_stripe.v
theories/Sgr_frame.v
theories/P_Sgr.v
theories/Edge_spec.v
theories/Edge_model.v
theories/Edge_order.v
theories/Edge_decode.v
theories/Edge_flags.v
theories/P_Edge.v
theories/Intra_spec.v
theories/Intra_model.v
theories/Intra_edge.v
theories/Intra_dir.v
theories/Intra_proof.v
theories/Intra_cfl.v
theories/P_Intra.v
theories/Inter_spec.v
theories/Inter_model.v
theories/Inter_proof.v
theories/P_Inter.v
theories/Itx_spec.v
theories/Itx_model.v
theories/Itx_proof.v
theories/P_Itx.v
theories/Part_spec.v
theories/Part_model.v
theories/Part_proof.v
theories/P_Part.v
theories/Imode_spec.v
theories/Imode_model.v
theories/P_Imode.v
theories/Rfs_spec.v
theories/Rfs_model.v
theories/P_Rfs.v
