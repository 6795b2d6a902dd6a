{
 "claims": [
  {
   "property": "C01",
   "status": "proved",
   "theorems": [
    "c01_region_grammar"
   ],
   "note": "iff with an independent grammar of region strings"
  },
  {
   "property": "C02",
   "status": "proved",
   "theorems": [
    "c02_region_error"
   ],
   "note": "iff characterisation of every error; the parser model is total"
  },
  {
   "property": "C03",
   "status": "proved",
   "theorems": [
    "c03_size_grammar"
   ],
   "note": "iff with an independent grammar of size strings"
  },
  {
   "property": "C04",
   "status": "proved",
   "theorems": [
    "c04_percentage_bounds",
    "c04_percentage_bounds_upscale",
    "c04_no_upscaling_refuted"
   ],
   "note": "exact decimal bounds; the literal reading 'never above 100' is refuted by rounding"
  },
  {
   "property": "C05",
   "status": "proved",
   "theorems": [
    "c05_rotation_grammar",
    "c05_rotation_bounds"
   ],
   "note": ""
  },
  {
   "property": "C06",
   "status": "proved",
   "theorems": [
    "c06_quality_names",
    "c06_format_names",
    "c06_names_distinct"
   ],
   "note": ""
  },
  {
   "property": "C07",
   "status": "proved",
   "theorems": [
    "c07_canonical_uri",
    "c07_uri_language"
   ],
   "note": "debug build"
  },
  {
   "property": "C08",
   "status": "proved",
   "theorems": [
    "c08_build_modes_agree_refuted",
    "c08_release_rejects_canonical",
    "c08_release_language"
   ],
   "note": "the property is false of the code; refuted and both build modes characterised exactly"
  },
  {
   "property": "C09",
   "status": "proved",
   "theorems": [
    "c09_percent_decoding",
    "c09_not_utf8_refused",
    "c09_encode_decode",
    "c09_plain_unchanged"
   ],
   "note": ""
  },
  {
   "property": "C10",
   "status": "proved",
   "theorems": [
    "c10_answered_refuted",
    "c10_answered_iff",
    "c10_status",
    "c10_ok_iff"
   ],
   "note": "false for GET .../info.json; exact characterisation of all answers"
  },
  {
   "property": "C11",
   "status": "partial",
   "theorems": [
    "c11_containment_refuted",
    "c11_any_file_reachable",
    "c11_containment_partial"
   ],
   "note": "false of the code; containment proved for relative identifiers without '..'; lexical paths, no symbolic links"
  },
  {
   "property": "C12",
   "status": "proved",
   "theorems": [
    "c12_body_once"
   ],
   "note": ""
  },
  {
   "property": "C13",
   "status": "proved",
   "theorems": [
    "c13_connection_limit",
    "c13_first_come_first_served"
   ],
   "note": "glommio's semaphore is modelled by its documented FIFO contract"
  },
  {
   "property": "C14",
   "status": "proved",
   "theorems": [
    "c14_read_errors_reported_refuted",
    "c14_errors_look_like_eof",
    "c14_reads_deliver"
   ],
   "note": "the property is false of the code"
  },
  {
   "property": "C39",
   "status": "proved",
   "theorems": [
    "c39_accepted_bounded_refuted"
   ],
   "note": "the property is false of the code"
  },
  {
   "property": "C40",
   "status": "proved",
   "theorems": [
    "c40_survives_bad_connection_refuted"
   ],
   "note": "the property is false of the code"
  },
  {
   "property": "C15",
   "status": "proved",
   "theorems": [
    "c15_round_trip"
   ],
   "note": "for non-empty field lists; the empty list is shown to differ in an Example"
  },
  {
   "property": "C16",
   "status": "proved",
   "theorems": [
    "c16_no_marker"
   ],
   "note": ""
  },
  {
   "property": "C17",
   "status": "proved",
   "theorems": [
    "c17_within_buffer",
    "c17_flush_complete",
    "c17_flush_succeeds"
   ],
   "note": ""
  },
  {
   "property": "C18",
   "status": "proved",
   "theorems": [
    "c18_create",
    "c18_shape",
    "c18_path_in_bounds",
    "c18_round_trip",
    "c18_reset",
    "c18_high_threshold_refuted"
   ],
   "note": "thresholds up to 999; above that the two sides disagree, shown by witness"
  },
  {
   "property": "C19",
   "status": "proved",
   "theorems": [
    "c19_comma_code",
    "c19_numpasses",
    "c19_round_trip",
    "c19_no_panic",
    "c19_numpasses_range"
   ],
   "note": ""
  },
  {
   "property": "C23",
   "status": "proved",
   "theorems": [
    "c23_lossless",
    "c23_no_overflow",
    "c23_wrapping_refuted"
   ],
   "note": "samples of up to 30 bits; wrapping arithmetic on full 32-bit values loses data, shown by witness"
  },
  {
   "property": "C24",
   "status": "proved",
   "theorems": [
    "c24_row",
    "c24_columns",
    "c24_standard",
    "c24_large_refuted"
   ],
   "note": "samples below 2^30; larger ones are lost, shown by witness"
  },
  {
   "property": "C25",
   "status": "proved",
   "theorems": [
    "c25_lossless",
    "c25_wide_tiles",
    "c25_empty_level_refuted"
   ],
   "note": "levels empty in width only and beginning at an odd column are excluded: the code corrupts data there, shown by witness"
  },
  {
   "property": "C26",
   "status": "proved",
   "theorems": [
    "c26_refused",
    "c26_write",
    "c26_read",
    "c26_history",
    "c26_in_bounds",
    "c26_create"
   ],
   "note": "a read is into a buffer whose strides keep the region's cells apart"
  },
  {
   "property": "C30",
   "status": "proved",
   "theorems": [
    "c30_round_trip",
    "c30_big_endian",
    "c30_bad_count",
    "c30_floats"
   ],
   "note": ""
  },
  {
   "property": "C33",
   "status": "proved",
   "theorems": [
    "c33_history",
    "c33_tail_lost",
    "c33_reads_deliver_refuted",
    "c33_seek_refuted",
    "c33_bytes_left",
    "c33_bytes_left_panics_refuted"
   ],
   "note": "the property is false of reads over the end of the source"
  },
  {
   "property": "C34",
   "status": "proved",
   "theorems": [
    "c34_never_succeeds",
    "c34_false_or_panic",
    "c34_regular_inverted_refuted",
    "c34_singular_refused_refuted"
   ],
   "note": "the property is false of the code"
  },
  {
   "property": "C37",
   "status": "proved",
   "theorems": [
    "c37_range_ok",
    "c37_round_trip",
    "c37_centred",
    "c37_in_range",
    "c37_saturates",
    "c37_saturates_refuted",
    "c37_encode_plane",
    "c37_decode_plane",
    "c37_float_saturates",
    "c37_float_infinite",
    "c37_float_round_trip",
    "c37_float_round_trip_refuted"
   ],
   "note": "Reversible sum wraps beyond 32 bits (refuted case); irreversible path exact up to 24 bits."
  },
  {
   "property": "C28",
   "status": "proved",
   "theorems": [
    "c28_tiles_exist",
    "c28_partition",
    "c28_component",
    "c28_components_partition",
    "c28_large_refuted"
   ],
   "note": "Image extents below 2^31; beyond, the header is accepted but the tile refused (refuted case)."
  },
  {
   "property": "C38",
   "status": "proved",
   "theorems": [
    "c38_partition",
    "c38_block_size",
    "c38_band_bounds",
    "c38_bands_fill_resolution"
   ],
   "note": "Parameters as let through by the header reader (up to 33 resolutions, precinct exponents up to 15)."
  },
  {
   "property": "C41",
   "status": "proved",
   "theorems": [
    "c41_sample_bytes",
    "c41_copied",
    "c41_round_trip",
    "c41_signed_refuted",
    "c41_empty_refuted",
    "c41_tile_position",
    "c41_row_width_refuted",
    "c41_decoded_size",
    "c41_decoded_size_refuted"
   ],
   "note": "round trip for unsigned or more than 16 bits; three refutations"
  },
  {
   "property": "C42",
   "status": "proved",
   "theorems": [
    "c42_update",
    "c42_in_bounds",
    "c42_apart",
    "c42_tiles",
    "c42_image"
   ],
   "note": "allocation assumed to succeed"
  },
  {
   "property": "C21",
   "status": "proved",
   "theorems": [
    "c21_flush",
    "c21_erterm",
    "c21_restart",
    "c21_reset"
   ],
   "note": "Any list of (context, decision) pairs, from init or restart, terminated by flush or erterm, decodes to the same list wherever the bytes are copied; decoder's final context states equal the encoder's; the bytes saved around the data are restored."
  },
  {
   "property": "C22",
   "status": "proved",
   "theorems": [
    "c22_marker_free",
    "c22_restart"
   ],
   "note": "Bytes of all segments: 0xFF is followed by at most 0x8F, the last byte is never 0xFF, assertions of the encoder hold."
  },
  {
   "property": "C35",
   "status": "proved",
   "theorems": [
    "c35_decoder",
    "c35_round_trip"
   ],
   "note": "Any bits after any Ready state (after MQ or raw segments), both terminations including discarded FF and FF 7F; bytes after FF at most 7F; next segment may follow."
  },
  {
   "property": "C29",
   "status": "proved",
   "theorems": [
    "c29_uint_ceildiv",
    "c29_uint64_ceildiv",
    "c29_int_ceildiv",
    "c29_int_ceildiv_negative_refuted",
    "c29_uint_ceildivpow2",
    "c29_int_ceildivpow2",
    "c29_int64_ceildivpow2",
    "c29_stages",
    "c29_subsampled_level",
    "c29_two_levels",
    "c29_floordivpow2",
    "c29_floorlog2",
    "c29_saturating",
    "c29_clamp",
    "c29_signed"
   ],
   "note": "signed ceiling division is wrong for negative numerators, shown by witness"
  },
  {
   "property": "C27",
   "status": "proved",
   "theorems": [
    "c27_progressions",
    "c27_determined",
    "c27_exactly_once",
    "c27_tile",
    "c27_lrcp",
    "c27_rlcp",
    "c27_position_orders",
    "c27_encoder",
    "c27_encoder_progressions",
    "c27_same_precincts",
    "c27_mixed_subsampling_refuted",
    "c27_many_resolutions_refuted",
    "c27_wrap_refuted",
    "c27_poc_layers_refuted",
    "c27_poc_overlap_refuted"
   ],
   "note": "layer and resolution orders for every tile whose packet table fits 2^32; position orders additionally need precinct distances dividing each other and below 2^32; the failures without these conditions and two encoder faults with progression changes are shown by witness"
  },
  {
   "property": "C20",
   "status": "proved",
   "theorems": [
    "c20_round_trip",
    "c20_succeeds",
    "c20_blocks",
    "c20_rates",
    "c20_term_flags",
    "c20_empty_packet"
   ],
   "note": "headers and bodies of all layers of a precinct, up to 999 layers, all code-block styles but high-throughput; what block coding and rate allocation make of rates and cuts meets the assumptions; encoder succeeds given room"
  },
  {
   "property": "C43",
   "status": "proved",
   "theorems": [
    "c43_in_step"
   ],
   "note": "any data and any mixture of reading and skipping, strict mode"
  },
  {
   "property": "C31",
   "status": "proved",
   "theorems": [
    "c31_main_header",
    "c31_one_style",
    "c31_coc_refuted",
    "c31_poc",
    "c31_poc_256_refuted",
    "c31_custom_mct_refuted",
    "c31_long_comment_refuted",
    "c31_sot",
    "c31_sot_256_refuted"
   ],
   "note": "Whole main header and SOT; false for components with another coding style than component 0, progressions ending at component 256, a custom component transform, comments longer than a segment, and 256 tile-parts."
  },
  {
   "property": "C45",
   "status": "proved",
   "theorems": [
    "c45_unknown_skipped",
    "c45_odd_refuted",
    "c45_inside_refuted"
   ],
   "note": "Skipped when of even length and without known markers inside; false otherwise."
  },
  {
   "property": "C44",
   "status": "proved",
   "theorems": [
    "c44_in_range",
    "c44_poc_layers_refuted",
    "c44_steps_refuted",
    "c44_qntsty_refuted",
    "c44_prg_refuted",
    "c44_poc_component_refuted"
   ],
   "note": "Any bytes, any order and repetition of segments; the refuted parts are ranges the code does not enforce."
  },
  {
   "property": "C36",
   "status": "proved",
   "theorems": [
    "c36_round_trip",
    "c36_roi_lazy_refuted"
   ],
   "note": "All styles, sizes and contents up to 25 bits; refuted for region of interest with selective bypass."
  },
  {
   "property": "C46",
   "status": "proved",
   "theorems": [
    "c46_truncated",
    "c46_rates_refuted"
   ],
   "note": "Cuts at terminated passes; refuted for the rates of other passes."
  },
  {
   "property": "C47",
   "status": "proved",
   "theorems": [
    "c47_annex_d"
   ],
   "note": "Against a specification of Annex D on arrays."
  },
  {
   "property": "C48",
   "status": "proved",
   "theorems": [
    "c48_total"
   ],
   "note": "All 32-bit contents."
  },
  {
   "property": "C49",
   "status": "proved",
   "theorems": [
    "c49_buffer_refuted"
   ],
   "note": "The property is false; witness of one coefficient."
  },
  {
   "property": "C50",
   "status": "proved",
   "theorems": [
    "c50_max_shift",
    "c50_background_refuted"
   ],
   "note": "Characterised for all shifts and coefficients."
  },
  {
   "property": "C32",
   "status": "proved",
   "theorems": [
    "c32_layout",
    "c32_round_trip",
    "c32_any_header",
    "c32_length_refuted",
    "c32_index_refuted"
   ],
   "note": "files below 2^32 bytes without the JPIP index; the two exceptions are refuted"
  },
  {
   "property": "C51",
   "status": "proved",
   "theorems": [
    "c51_never_panics",
    "c51_result",
    "c51_checked",
    "c51_checked_refuted"
   ],
   "note": "release profile total; in the debug profile only palettes of 16 or more columns can panic"
  },
  {
   "property": "C52",
   "status": "proved",
   "theorems": [
    "c52_order",
    "c52_order_refuted"
   ],
   "note": "false of the code when a header box precedes the header superbox at the top level; proved otherwise"
  },
  {
   "property": "C53",
   "status": "proved",
   "theorems": [
    "c53_no_panic",
    "c53_samples_refuted",
    "c53_values",
    "c53_shared_refuted",
    "c53_mapping"
   ],
   "note": "false of the code: the samples are freed for every palette; bounds and values before the release proved"
  },
  {
   "property": "C54",
   "status": "proved",
   "theorems": [
    "c54_colours",
    "c54_in_place",
    "c54_alpha_refuted",
    "c54_complete",
    "c54_first_refuted"
   ],
   "note": "placement proved; two exceptions refuted"
  },
  {
   "property": "C55",
   "status": "proved",
   "theorems": [
    "c55_bits",
    "c55_bits_refuted",
    "c55_profile_refuted",
    "c55_colour_space",
    "c55_described",
    "c55_channels",
    "c55_further_refuted"
   ],
   "note": "exact conditions"
  },
  {
   "property": "C56",
   "status": "proved",
   "theorems": [
    "c56_precinct",
    "c56_lossless",
    "c56_succeeds"
   ],
   "note": "coded data of a block below 2^25 bytes is a hypothesis"
  },
  {
   "property": "C57",
   "status": "proved",
   "theorems": [
    "c57_packets",
    "c57_succeeds",
    "c57_tile",
    "c57_progressions"
   ],
   "note": "decoding all layers and resolutions; see C43 for skipped packets"
  },
  {
   "property": "C58",
   "status": "proved",
   "theorems": [
    "c58_tile"
   ],
   "note": "coefficients through code-blocks and packets of a whole tile"
  },
  {
   "property": "C59",
   "status": "proved",
   "theorems": [
    "c59_coefficients",
    "c59_fit",
    "c59_guard_bits",
    "c59_samples",
    "c59_guard_bits_refuted"
   ],
   "note": "Composition of the stages; bound of the coefficients per band; the encoder's two guard bits are refuted for the component transform."
  },
  {
   "property": "C61",
   "status": "proved",
   "theorems": [
    "c61_undivided",
    "c61_outermost",
    "c61_exactly_once",
    "c61_inner_refuted",
    "c61_uneven_refuted",
    "c61_positions_refuted",
    "c61_rpcl_refuted"
   ],
   "note": "division into tile-parts; several divisions are refuted"
  },
  {
   "property": "C60",
   "status": "proved",
   "theorems": [
    "c60_read",
    "c60_order",
    "c60_written",
    "c60_safe",
    "c60_count_refuted",
    "c60_empty_refuted",
    "c60_custom_refuted"
   ],
   "note": "Handlers of marker segments and the decoding of a tile are parameters. The refutations show what the hypotheses exclude."
  },
  {
   "property": "C63",
   "status": "proved",
   "theorems": [
    "c63_image",
    "c63_coded",
    "c63_slice",
    "c63_slice_refuted",
    "c63_reduced_width_refuted"
   ],
   "note": "all stages composed; the example proves all hypotheses for an image of two tiles; c63_slice says exactly when the slice leaves the plane; reversible coding, no progression changes"
  },
  {
   "property": "C64",
   "status": "proved",
   "theorems": [
    "c64_window",
    "c64_bounds",
    "c64_met"
   ],
   "note": "the window decoder equals the crop of the whole decoder; bounds of the windows; hypotheses can be met"
  },
  {
   "property": "C62",
   "status": "proved",
   "theorems": [
    "c62_written",
    "c62_fails",
    "c62_room",
    "c62_sod",
    "c62_read",
    "c62_overflow_refuted",
    "c62_unfinished_refuted",
    "c62_accepts"
   ],
   "note": "Packet length markers; refutation of the wrapped reservation and of unfinished lengths being rejected"
  },
  {
   "property": "C65",
   "status": "proved",
   "theorems": [
    "c65_area",
    "c65_samples",
    "c65_ht_refuted"
   ],
   "note": "area decoding of a tile agrees with whole decoding; high-throughput blocks refuted"
  },
  {
   "property": "C66",
   "status": "proved",
   "theorems": [
    "c66_accepted",
    "c66_selected",
    "c66_whole",
    "c66_components",
    "c66_tile",
    "c66_tile_refuted",
    "c66_empty_refuted",
    "c66_inverted_refuted"
   ],
   "note": "areas without a pixel of the image can be accepted; the extent of a single tile wraps if the tile grid ends beyond 2^32"
  },
  {
   "property": "C67",
   "status": "proved",
   "theorems": [
    "c67_area",
    "c67_subsampled_refuted"
   ],
   "note": "an area without samples of a sub-sampled component is accepted but cannot be decoded"
  },
  {
   "property": "C68",
   "status": "proved",
   "theorems": [
    "c68_forward",
    "c68_untidy_refuted"
   ],
   "note": "Segments that set the stuffed bit: refuted."
  },
  {
   "property": "C69",
   "status": "proved",
   "theorems": [
    "c69_vlc",
    "c69_mrp",
    "c69_untidy_refuted"
   ],
   "note": "Segments that set the stuffed bit: refuted."
  },
  {
   "property": "C70",
   "status": "proved",
   "theorems": [
    "c70_events",
    "c70_accepted"
   ],
   "note": ""
  },
  {
   "property": "C71",
   "status": "proved",
   "theorems": [
    "c71_noninit",
    "c71_init"
   ],
   "note": ""
  },
  {
   "property": "C72",
   "status": "proved",
   "theorems": [
    "c72_forward",
    "c72_backward",
    "c72_mel"
   ],
   "note": ""
  },
  {
   "property": "C73",
   "status": "proved",
   "theorems": [
    "c73_prefix",
    "c73_once",
    "c73_sense"
   ],
   "note": "Tables copied from t1_ht_luts.rs."
  },
  {
   "property": "C74",
   "status": "proved",
   "theorems": [
    "c74_block",
    "c74_decode",
    "c74_deep_refuted"
   ],
   "note": "Cleanup pass alone; refuted for 30 bit-planes (witness: a 1x1 block)."
  },
  {
   "property": "C75",
   "status": "proved",
   "theorems": [
    "c75_merge",
    "c75_empty_refuted"
   ],
   "note": "for all segments; packs without bytes refused (c75_empty_refuted)"
  },
  {
   "property": "C76",
   "status": "proved",
   "theorems": [
    "c76_read",
    "c76_ppt"
   ],
   "note": "for all sequences of segments"
  },
  {
   "property": "C77",
   "status": "proved",
   "theorems": [
    "c77_parts",
    "c77_packets",
    "c77_tiles",
    "c77_ppt",
    "c77_skipped_refuted",
    "c77_interleaved_refuted"
   ],
   "note": "for all packets written; PPM is wrong for skipped tiles and interleaved tile-parts (refuted)"
  },
  {
   "property": "C78",
   "status": "proved",
   "theorems": [
    "c78_written",
    "c78_read",
    "c78_second_refuted",
    "c78_int16_refuted",
    "c78_many_refuted",
    "c78_cod_refuted",
    "c78_shift_refuted"
   ],
   "note": "Write and read side for 1 to 127 components; the ways it fails beyond that are refutations."
  },
  {
   "property": "C79",
   "status": "proved",
   "theorems": [
    "c79_segments"
   ],
   "note": "Any segments in the main header, copy to a tile, any segments in tile headers."
  },
  {
   "property": "C81",
   "status": "proved",
   "theorems": [
    "c81_check",
    "c81_setup",
    "c81_tiles_refuted",
    "c81_missing_refuted",
    "c81_wrap_refuted"
   ],
   "note": "Refuted: entries of tiles after the first are taken from the start of the list; a no of the check changes nothing; with more than 2^32 packets a missing layer is not noticed."
  },
  {
   "property": "C82",
   "status": "proved",
   "theorems": [
    "c82_tlm",
    "c82_limit",
    "c82_none_refuted"
   ],
   "note": "Each progression has at least one tile-part; refuted where the first one is counted with none."
  },
  {
   "property": "C80",
   "status": "proved",
   "theorems": [
    "c80_layers",
    "c80_contract",
    "c80_fits",
    "c80_choice",
    "c80_fixed",
    "c80_room_refuted",
    "c80_empty_refuted",
    "c80_fixed_refuted",
    "c80_fixed_outside_refuted"
   ],
   "note": "Floats are opaque; whether a trial run fits is a parameter that depends only on the layers. Refuted: a layer can be larger than its room when no threshold fits, even if an empty layer would; fixed allocation with entries above the precision."
  },
  {
   "property": "C83",
   "status": "proved",
   "theorems": [
    "c83_truthful",
    "c83_tell",
    "c83_succeeds",
    "c83_failed_write",
    "c83_failed_move",
    "c83_has_seek_refuted",
    "c83_failed_large_write_refuted",
    "c83_claim_refuted"
   ],
   "note": "BufWriter and write_all follow the source of the standard library; callbacks keep to their contract as far as the header of the model says. Refuted: seek callback without skip callback, position after a failed large write, claims above what was offered."
  },
  {
   "property": "C84",
   "status": "proved",
   "theorems": [
    "c84_blocks",
    "c84_header",
    "c84_accepts",
    "c84_validate",
    "c84_precinct_refuted",
    "c84_large_precinct_refuted",
    "c84_offset_refuted",
    "c84_precision_refuted",
    "c84_layers_refuted",
    "c84_panic_refuted"
   ],
   "note": "conditions on the parameters are listed in the statement; the code checks none of them and each is refuted where it fails"
  },
  {
   "property": "C87",
   "status": "proved",
   "theorems": [
    "c87_safe",
    "c87_no_leak",
    "c87_hand_all",
    "c87_hand_some",
    "c87_makes",
    "c87_creates",
    "c87_others",
    "c87_icc_refuted",
    "c87_clone_refuted"
   ],
   "note": "conditions on callers and the two false parts are in the statement"
  },
  {
   "property": "C86",
   "status": "proved",
   "theorems": [
    "c86_reuse",
    "c86_use",
    "c86_chunks",
    "c86_segment",
    "c86_keeps"
   ],
   "note": "histories end at the first failure of a tile"
  },
  {
   "property": "C85",
   "status": "proved",
   "theorems": [
    "c85_reuse",
    "c85_follow",
    "c85_place",
    "c85_large_refuted"
   ],
   "note": "allocation failure is modelled; a tree's use between tiles is any change of values"
  }
 ]
}