-Q theories Verif
theories/Base.v
theories/M_bit.v
theories/M_lib.v
theories/M_code_tree.v
theories/M_huffman.v
theories/M_circles.v
theories/M_gzip.v
theories/M_parse.v
theories/M_serialise.v
theories/M_all_refs.v
theories/M_technique.v
theories/M_trace.v
theories/M_filter.v
theories/M_rezippers.v
theories/M_dump.v
theories/M_example.v
theories/M_debug.v
theories/M_fuzz.v
theories/M_text.v
theories/M_io.v
theories/M_examples.v
theories/M_main.v
theories/M_arith.v
theories/M_arith_search.v
theories/M_harness.v
theories/Spec.v
theories/Clients.v
theories/Spec_encoder.v
theories/Clients_encoder.v
theories/Clients_file.v
theories/Clients_bound.v
theories/Clients_tracing.v
theories/Clients_debug.v
theories/Clients_restore.v
theories/Clients_hints.v
theories/Clients_members.v
theories/Clients_stack.v
theories/Clients_io.v
theories/Clients_examples.v
theories/Clients_write.v
theories/Clients_main.v
theories/Clients_listing.v
theories/Clients_zero.v
theories/Clients_reach.v
theories/Clients_arith.v
theories/Clients_wrong.v
theories/Clients_verdict.v
theories/Clients_local.v
theories/Clients_harness.v
theories/Clients_exact.v
theories/Clients_rewrite.v
theories/M_example_text.v
theories/Clients_text.v
theories/Clients_compress.v
theories/Clients_repeat.v
theories/Clients_rename.v
theories/Clients_split.v
theories/Conformance.v
theories/Conformance_docs.v
theories/L_P_accept.v
theories/L_P_arith.v
theories/L_P_arith_search.v
theories/L_P_bit.v
theories/L_P_bomb.v
theories/L_P_bound.v
theories/L_P_cheapest.v
theories/L_P_circ.v
theories/L_P_compress.v
theories/L_P_cost.v
theories/L_P_crc.v
theories/L_P_cut.v
theories/L_P_debug.v
theories/L_P_dumpcat.v
theories/L_P_e2e.v
theories/L_P_edit.v
theories/L_P_encoder.v
theories/L_P_encoder2.v
theories/L_P_exact.v
theories/L_P_examples.v
theories/L_P_extext.v
theories/L_P_file.v
theories/L_P_filter.v
theories/L_P_fuzz.v
theories/L_P_gzip.v
theories/L_P_harness.v
theories/L_P_hints.v
theories/L_P_hints2.v
theories/L_P_hints3.v
theories/L_P_hints4.v
theories/L_P_huff.v
theories/L_P_inform.v
theories/L_P_instep.v
theories/L_P_io.v
theories/L_P_levels.v
theories/L_P_lines.v
theories/L_P_listing.v
theories/L_P_local.v
theories/L_P_main.v
theories/L_P_mean.v
theories/L_P_members.v
theories/L_P_parse.v
theories/L_P_pipe.v
theories/L_P_prefix.v
theories/L_P_reach.v
theories/L_P_rename.v
theories/L_P_repeat.v
theories/L_P_resume.v
theories/L_P_retrace.v
theories/L_P_rewrite.v
theories/L_P_rez.v
theories/L_P_rsync.v
theories/L_P_search.v
theories/L_P_ser2.v
theories/L_P_shortest.v
theories/L_P_spicy.v
theories/L_P_split.v
theories/L_P_tech.v
theories/L_P_text.v
theories/L_P_trace.v
theories/L_P_tracing.v
theories/L_P_tracing2.v
theories/L_P_unfinished.v
theories/L_P_verdict.v
theories/L_P_write.v
theories/L_P_wrong.v
theories/L_P_zdump.v
theories/L_P_zero.v
theories/L_P_zsize.v
theories/L_arith.v
theories/L_arith_search.v
theories/L_arithw.v
theories/L_bitprops.v
theories/L_bits.v
theories/L_example.v
theories/L_gzip.v
theories/L_header.v
theories/L_huff.v
theories/L_io.v
theories/L_level.v
theories/L_parse.v
theories/L_prefix.v
theories/L_reader.v
theories/L_restore.v
theories/L_ring.v
theories/L_rsync.v
theories/L_safe.v
theories/L_search.v
theories/L_ser.v
theories/L_stack.v
theories/L_stored.v
theories/L_strace.v
theories/L_tech.v
theories/L_trace.v
theories/L_tree.v
theories/L_writer.v
theories/L_wrong.v
theories/P_arith.v
theories/P_arith_search.v
theories/P_bit.v
theories/P_bound.v
theories/P_cheapest.v
theories/P_circ.v
theories/P_compress.v
theories/P_crc.v
theories/P_cut.v
theories/P_debug.v
theories/P_dumpcat.v
theories/P_e2e.v
theories/P_edit.v
theories/P_encoder.v
theories/P_exact.v
theories/P_examples.v
theories/P_extext.v
theories/P_file.v
theories/P_fuzz.v
theories/P_gzip.v
theories/P_harness.v
theories/P_hints.v
theories/P_huff.v
theories/P_instep.v
theories/P_io.v
theories/P_levels.v
theories/P_listing.v
theories/P_local.v
theories/P_main.v
theories/P_mean.v
theories/P_members.v
theories/P_misc.v
theories/P_parse.v
theories/P_pipe.v
theories/P_prefix.v
theories/P_reach.v
theories/P_rename.v
theories/P_repeat.v
theories/P_restore.v
theories/P_resume.v
theories/P_rewrite.v
theories/P_rez.v
theories/P_rsync.v
theories/P_search.v
theories/P_ser2.v
theories/P_shortest.v
theories/P_split.v
theories/P_stack.v
theories/P_tech.v
theories/P_text.v
theories/P_trace.v
theories/P_tracing.v
theories/P_tracing2.v
theories/P_unfinished.v
theories/P_verdict.v
theories/P_write.v
theories/P_wrong.v
theories/P_zdump.v
theories/P_zsize.v
