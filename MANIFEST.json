{
 "claims": [
  {
   "property": "C01",
   "status": "proved",
   "theorems": [
    "C01_ulaw_buffer_roundtrip",
    "C01_ulaw_two_zeros_decode_alike"
   ],
   "note": ""
  },
  {
   "property": "C02",
   "status": "proved",
   "theorems": [
    "C02_ulaw_monotone",
    "C02_ulaw_error_bound",
    "C02_ulaw_segments_cover",
    "C02_ulaw_saturates",
    "C02_ulaw_idempotent_and_in_range"
   ],
   "note": ""
  },
  {
   "property": "C03",
   "status": "proved",
   "theorems": [
    "C03_alaw_buffer_roundtrip"
   ],
   "note": ""
  },
  {
   "property": "C04",
   "status": "partial",
   "theorems": [
    "C04_alaw_monotone_refuted",
    "C04_alaw_small_negative_samples",
    "C04_alaw_monotone_partial",
    "C04_alaw_error_bound_partial",
    "C04_alaw_idempotent_and_in_range"
   ],
   "note": "False of the code: samples -7..-1 encode to the code of -248 (C04_alaw_monotone_refuted, C04_alaw_small_negative_samples). Monotonicity and the error bound are proved for all other 16-bit samples."
  },
  {
   "property": "C05",
   "status": "proved",
   "theorems": [
    "C05_byteswap_involutive",
    "C05_field_bytes_are_in_file_order",
    "C05_header_field_roundtrip",
    "C05_sample_swap_reverses_bytes"
   ],
   "note": ""
  },
  {
   "property": "C06",
   "status": "partial",
   "theorems": [
    "C06_unsigned_to_signed_is_shift",
    "C06_sign_conversion_roundtrip_partial",
    "C06_sign_conversion_32_refuted",
    "C06_sign_conversion_32_extent"
   ],
   "note": "8, 16, 24 bits proved. At 32 bits signed->unsigned computes x - INT32_MIN in int: signed overflow for every x >= 0 (C06_sign_conversion_32_refuted)."
  },
  {
   "property": "C07",
   "status": "proved",
   "theorems": [
    "C07_packed_buffer_roundtrip",
    "C07_unpacked_buffer_roundtrip",
    "C07_packed_bytes"
   ],
   "note": ""
  },
  {
   "property": "C08",
   "status": "proved",
   "theorems": [
    "C08_widen_then_narrow",
    "C08_narrow_keeps_top_bits",
    "C08_always_defined_and_in_range",
    "C08_monotone",
    "C08_widening_composes",
    "C08_narrowing_composes"
   ],
   "note": ""
  },
  {
   "property": "C09",
   "status": "proved",
   "theorems": [
    "C09_clip_in_range_fixes_inside_idempotent_monotone"
   ],
   "note": "Integer samples; limits are integers after conversion to the sample type."
  },
  {
   "property": "C10",
   "status": "partial",
   "theorems": [
    "C10_frames_are_mixed_independently",
    "C10_kth_frame_depends_only_on_kth_input",
    "C10_output_is_matrix_product",
    "C10_writing_matrix_is_transposed",
    "C10_identity_copies",
    "C10_upmix_copies",
    "C10_stereo_to_mono_averages",
    "C10_same_channel_count_refuted"
   ],
   "note": "Independence theorems are over arbitrary sample/matrix arithmetic; product theorems over the built-in matrices, whose arithmetic is exact in double. A matrix is not applied when both channel counts are equal (_refuted)."
  },
  {
   "property": "C11",
   "status": "partial",
   "theorems": [
    "C11_quad_mixdown_refuted",
    "C11_mixing_in_range_partial"
   ],
   "note": "False for 4->1 and 4->2 (sum of full-scale channels leaves the range, an undefined double->int conversion); proved for every other channel pair."
  },
  {
   "property": "C12",
   "status": "proved",
   "theorems": [
    "C12_decoder_state_stays_legal",
    "C12_encoder_state_stays_legal"
   ],
   "note": ""
  },
  {
   "property": "C13",
   "status": "proved",
   "theorems": [
    "C13_sample_lockstep",
    "C13_block_lockstep_QT",
    "C13_stream_lockstep_QT",
    "C13_block_lockstep_WAVE",
    "C13_reconstruction_error"
   ],
   "note": ""
  },
  {
   "property": "C14",
   "status": "proved",
   "theorems": [
    "C14_wave_block_size",
    "C14_qt_block_size"
   ],
   "note": ""
  },
  {
   "property": "C15",
   "status": "partial",
   "theorems": [
    "C15_wave_decode_refuted",
    "C15_qt_decode_refuted",
    "C15_wave_decode_safe_partial",
    "C15_qt_decode_safe_partial"
   ],
   "note": "False: the step index comes from the block header unchecked (WAVE byte 2 may be 89..255, QuickTime low 7 bits may be 89..127): table read out of bounds. Proved safe when the header indices are at most 88."
  },
  {
   "property": "C16",
   "status": "partial",
   "theorems": [
    "C16_wave_position_refuted",
    "C16_wave_frames_are_delayed_by_one",
    "C16_wave_last_frame_is_lost"
   ],
   "note": "False of the code: WAVE IMA blocks are delayed by one frame and the last frame of every block is never encoded (proved for all blocks)."
  },
  {
   "property": "C17",
   "status": "proved",
   "theorems": [
    "C17_sample_lockstep",
    "C17_mono_block",
    "C17_stereo_block",
    "C17_reconstruction_error",
    "C17_library_block_sizes",
    "C17_best_predictor"
   ],
   "note": "Any coefficient table with |c1|+|c2| <= 768 (the library's own table satisfies it) and blocks of at least 6 (mono) / 5 (stereo) frames."
  },
  {
   "property": "C18",
   "status": "proved",
   "theorems": [
    "C18_encoder_never_overflows",
    "C18_blocks_defined"
   ],
   "note": ""
  },
  {
   "property": "C19",
   "status": "partial",
   "theorems": [
    "C19_decoder_overflow_refuted",
    "C19_predictor_index_unchecked_refuted",
    "C19_sample_defined_partial",
    "C19_samples_defined_partial"
   ],
   "note": "False: from the header step 65535 codes 8 triple the step until delta*768 overflows int; a predictor index outside the table fails an assertion (or reads an unset table entry when assertions are off). Proved defined while the step is at most 2796202 (always for the first four samples of a channel)."
  },
  {
   "property": "C20",
   "status": "proved",
   "theorems": [
    "C20_reads_are_the_stream",
    "C20_no_frame_lost_duplicated_or_reordered",
    "C20_chunk_lengths",
    "C20_pull_after_short_chunk_aborts"
   ],
   "note": ""
  },
  {
   "property": "C21",
   "status": "proved",
   "theorems": [
    "C21_writes_are_the_stream"
   ],
   "note": ""
  },
  {
   "property": "C22",
   "status": "partial",
   "theorems": [
    "C22_alac_sync_refuted",
    "C22_rebuffer_sync_restores",
    "C22_syncs_are_transparent_partial",
    "C22_ima_sync_changes_the_audio_refuted",
    "C22_second_sync_aborts_refuted",
    "C22_second_sync_destroys_the_header_refuted"
   ],
   "note": "Proved for PCM, G.711 and MS ADPCM with any number of syncs separated by writes (PCM files below 2 GiB). False for IMA ADPCM (encoder state is not restored: the audio changes) and for two syncs in a row (assertion failure, or in release builds a partial block written over the header), and for ALAC (C22_alac_sync_refuted: the packet table keeps the partial packet, the file re-opens without frames)."
  },
  {
   "property": "C23",
   "status": "partial",
   "theorems": [
    "C23_reading_is_an_array_of_frames",
    "C23_splitting_reads",
    "C23_truncated_file_refuted",
    "C23_truncated_blocks_refuted",
    "C23_end_of_stream_unnoticed_refuted"
   ],
   "note": "Proved for every file whose audio data is complete and every history of calls; false when the data is truncated (counterexamples _refuted: frames lost, then an assertion failure or invented frames) and for unseekable streams read through a conversion."
  },
  {
   "property": "C24",
   "status": "proved",
   "theorems": [
    "C24_splitting_writes",
    "C24_file_contents"
   ],
   "note": "All seven codec configurations, any conversion, any splitting."
  },
  {
   "property": "C25",
   "status": "partial",
   "theorems": [
    "C25_seek_then_read",
    "C25_seek_outside",
    "C25_position_stays_inside",
    "C25_seek_in_an_empty_file_refuted"
   ],
   "note": "Proved for nonempty files; in a file without frames seeking forward reports frame -1 (C25_seek_in_an_empty_file_refuted)."
  },
  {
   "property": "C26",
   "status": "proved",
   "theorems": [
    "C26_tell_counts_frames_since_the_last_seek"
   ],
   "note": ""
  },
  {
   "property": "C27",
   "status": "partial",
   "theorems": [
    "C27_sync_keeps_the_position_partial",
    "C27_large_pcm_file_refuted"
   ],
   "note": "PCM keeps the position in a C int across a sync: proved below 2 GiB, refuted for every PCM file at or beyond it; G.711 and block codecs unlimited."
  },
  {
   "property": "C28",
   "status": "partial",
   "theorems": [
    "C28_next_pcm_roundtrip_partial",
    "C28_next_g711_roundtrip_partial",
    "C28_next_empty_file_refuted",
    "C28_next_large_file_refuted"
   ],
   "note": "PCM of 8-32 bits, float and double bit patterns (below 2 GiB) and G.711 (below 4 GiB) for any nonempty history of writes and syncs. False for empty files (24-byte file, data offset 28: 2147483646 frames reported) and for data of 4 GiB and more."
  },
  {
   "property": "C29",
   "status": "partial",
   "theorems": [
    "C29_avr_roundtrip_partial",
    "C29_avr_channels_refuted",
    "C29_avr_rate_refuted"
   ],
   "note": "PCM of 8 and 16 bits, signed or unsigned, one or two channels, below 2 GiB, sample rates below 2^24 Hz, for any nonempty or empty history of writes and syncs. False beyond: more than two channels are recorded as stereo; higher rates lose their high byte."
  },
  {
   "property": "C30",
   "status": "partial",
   "theorems": [
    "C30_iff_roundtrip_partial",
    "C30_empty_misc_refuted",
    "C30_unknown_misc_refuted"
   ],
   "note": "Whole sample rates below 65536 (all the header can hold), any interleaving of writes and syncs, miscellaneous data of the four IFF kinds. False: empty miscellaneous chunks are dropped on reading; other kinds are accepted and written under a zero tag."
  },
  {
   "property": "C31",
   "status": "partial",
   "theorems": [
    "C31_ircam_pcm_roundtrip_partial",
    "C31_ircam_g711_roundtrip_partial",
    "C31_ircam_byte_order_refuted",
    "C31_ircam_rate_refuted"
   ],
   "note": "All sample formats (PCM below 2 GiB, G.711 of any length), 1, 2 or 4 channels, rates that are floats. False: a byte order other than the machine's is accepted but not recorded (samples read back byte-swapped); other rates are rounded to float."
  },
  {
   "property": "C32",
   "status": "partial",
   "theorems": [
    "C32_voc_pcm_roundtrip_partial",
    "C32_voc_g711_roundtrip_partial",
    "C32_voc_large_file_refuted",
    "C32_voc_channels_refuted"
   ],
   "note": "8-bit unsigned and 16-bit signed PCM and G.711, up to 255 channels, up to 2^24 - 13 bytes of audio. False beyond: the 24-bit block size wraps, 256 channels are stored as 0 and the file cannot be opened."
  },
  {
   "property": "C33",
   "status": "partial",
   "theorems": [
    "C33_samplevision_roundtrip_partial",
    "C33_samplevision_channels_refuted",
    "C33_samplevision_blank_name_refuted"
   ],
   "note": "Mono files below 2 GiB. False for more channels (accepted, read back as mono with a wrong rate); every file reads back with a name and comment of one blank."
  },
  {
   "property": "C34",
   "status": "partial",
   "theorems": [
    "C34_nist_pcm_roundtrip_partial",
    "C34_nist_g711_roundtrip_partial",
    "C34_nist_8bit_refuted",
    "C34_nist_frame_count_refuted"
   ],
   "note": "PCM of 9-16 bits in either byte order and G.711, up to 2^31 bytes, whole sample rates. False: PCM of 8 bits or fewer is written but opens as u-law; frame counts of 2^31 and more wrap."
  },
  {
   "property": "C35",
   "status": "partial",
   "theorems": [
    "C35_wave_ima_roundtrip_partial",
    "C35_wave_msadpcm_roundtrip_partial",
    "C35_wave_pcm_roundtrip_partial",
    "C35_wave_g711_roundtrip_partial",
    "C35_wave_width_refuted",
    "C35_wave_12_bit_refuted",
    "C35_wave_byte_rate_refuted",
    "C35_wave_frame_size_refuted",
    "C35_wave_ima_channels_refuted",
    "C35_wave_equal_ids_refuted"
   ],
   "note": "PCM of whole bytes, float and double bit patterns (below 2 GiB), G.711, IMA ADPCM (up to 255 channels) and Microsoft ADPCM (mono, stereo), with markers (different ids) and miscellaneous data. False: widths that are not whole bytes re-open rounded up; byte rates of 2^32 and more or frames of 64 KiB and more are undefined conversions; IMA with 256 or more channels; equal marker ids lose names; instruments are not kept."
  },
  {
   "property": "C36",
   "status": "partial",
   "theorems": [
    "C36_aiff_pcm_roundtrip_partial",
    "C36_aifc_g711_roundtrip_partial",
    "C36_aifc_ima_frame_count_refuted",
    "C36_empty_misc_refuted",
    "C36_aifc_ima_roundtrip_partial"
   ],
   "note": "PCM of 1-32 bits, float and double bit patterns (below 2 GiB), G.711 (AIFF-C), and IMA ADPCM (AIFF-C; the frames of whole packets), with markers, AES data, the instrument and miscellaneous data. False: IMA frame counts are rounded down to a multiple of 64; empty miscellaneous chunks are dropped on reading."
  },
  {
   "property": "C37",
   "status": "partial",
   "theorems": [
    "C37_caf_alac_roundtrip_partial",
    "C37_caf_ima_roundtrip_partial",
    "C37_caf_pcm_roundtrip_partial",
    "C37_caf_g711_roundtrip_partial",
    "C37_caf_ima_frame_count_refuted"
   ],
   "note": "PCM of 8-32 bits, float and double bit patterns in either byte order, G.711, and IMA ADPCM (what was written plus what completes the last packet), and ALAC (writes, then close; configuration, packet table and audio; two channels if the packet buffer is large enough, see C66). False: IMA frame counts are rounded up to a multiple of 64."
  },
  {
   "property": "C38",
   "status": "partial",
   "theorems": [
    "C38_caf_terminates_partial",
    "C38_caf_loops_refuted",
    "C38_aiff_terminates_partial",
    "C38_aiff_loops_refuted",
    "C38_iff_terminates_partial",
    "C38_iff_loops_refuted",
    "C38_voc_terminates",
    "C38_wave_terminates_partial",
    "C38_wave_loops_refuted"
   ],
   "note": "VOC: every file. AIFF, IFF, CAF, WAVE: proved for every file whose chunks do not send the offset backwards; false for chunk sizes near 2^32 (AIFF, IFF, WAVE) and a chunk length of -12 (CAF), for which the reader returns to the same chunk forever (_refuted)."
  },
  {
   "property": "C39",
   "status": "partial",
   "theorems": [
    "C39_packet_table_roundtrip",
    "C39_zero_size_refuted",
    "C39_table_reading_safe"
   ],
   "note": "Every table of nonzero 32-bit sizes; a zero size ends the table on reading (C39_zero_size_refuted). Reading any table is in bounds and terminates."
  },
  {
   "property": "C40",
   "status": "proved",
   "theorems": [
    "C40_packet_starts",
    "C40_packets_tile"
   ],
   "note": ""
  },
  {
   "property": "C41",
   "status": "proved",
   "theorems": [
    "C41_extended_value",
    "C41_extended_roundtrip",
    "C41_extended_specials"
   ],
   "note": "Every finite double, incl. denormals and negative numbers, and the special values (-0 reads back as +0, NaN as infinity). Over the C binary64 arithmetic of Coq.Floats.SpecFloat."
  },
  {
   "property": "C42",
   "status": "proved",
   "theorems": [
    "C42_pstring_roundtrip",
    "C42_markers_roundtrip",
    "C42_long_string_writes_nothing"
   ],
   "note": "Proved for strings of up to 255 bytes at any position."
  },
  {
   "property": "C43",
   "status": "partial",
   "theorems": [
    "C43_chunks_are_bounded_files_partial",
    "C43_write_then_read",
    "C43_new_file",
    "C43_negative_seek_refuted"
   ],
   "note": "Every history of writes, reads and non-negative seeks. False for negative seek offsets: accepted, and the next transfer is outside the buffer (C43_negative_seek_refuted)."
  },
  {
   "property": "C44",
   "status": "proved",
   "theorems": [
    "C44_set_then_get",
    "C44_refused",
    "C44_unknown_marker_is_zero",
    "C44_position_after_any_history",
    "C44_new_file"
   ],
   "note": "Every handle state and every history of metadata calls. If the setup repeats an id (see C48) the query finds the first marker with it."
  },
  {
   "property": "C45",
   "status": "proved",
   "theorems": [
    "C45_loop_fields",
    "C45_refused",
    "C45_loop_frames",
    "C45_negative_frames_refused",
    "C45_declared_loops",
    "C45_loop_count_result",
    "C45_unknown_loop"
   ],
   "note": "Every handle state and every history of metadata calls."
  },
  {
   "property": "C46",
   "status": "proved",
   "theorems": [
    "C46_set_then_get",
    "C46_set_list",
    "C46_ignored",
    "C46_params_after_any_history",
    "C46_new_file"
   ],
   "note": "Every handle state and history, integer parameters of AIFF, AIFF-C and WAVE (the only formats with instrument parameters)."
  },
  {
   "property": "C47",
   "status": "proved",
   "theorems": [
    "C47_list_is_an_array",
    "C47_bad_item_rejected",
    "C47_no_list_for_a_bad_size"
   ],
   "note": "Every list size and history of calls; with assertions on, a bad index ends the program instead of returning an error code."
  },
  {
   "property": "C48",
   "status": "partial",
   "theorems": [
    "C48_instrument_ids_partial",
    "C48_loop_ids_partial",
    "C48_marker_ids_refuted",
    "C48_misc_ids_refuted",
    "C48_track_ids_refuted"
   ],
   "note": "Holds for instruments and loops. False for markers and miscellaneous chunks (never checked) and, when assertions are off, for tracks."
  },
  {
   "property": "C49",
   "status": "partial",
   "theorems": [
    "C49_nist_g711_width_refuted",
    "C49_accepted_setup_is_writable_partial",
    "C49_supported_setup_is_accepted",
    "C49_channels_refuted",
    "C49_rate_refuted",
    "C49_raw_codec_refuted",
    "C49_nist_g711_abort_refuted"
   ],
   "note": "Both directions against a separate table: what is accepted fits the file format, and everything in the table is accepted as asked. Restricted to channel counts and rates the header can hold (most formats do not check them, _refuted), codecs without parameters in raw files and more than 8 bits for NIST with G.711 (_refuted). FLAC is not modelled."
  },
  {
   "property": "C50",
   "status": "partial",
   "theorems": [
    "C50_identification_exact",
    "C50_written_file_identified_partial",
    "C50_large_pcm_file_refuted"
   ],
   "note": "Identification is exact (a file is identified as a format exactly if it carries its marks, at any file position), and files of all ten header formats keep their marks through every history of writes and syncs, closed or not, with every codec modelled (all but FLAC and ALAC). Restricted to PCM below 2 GiB: beyond, a sync followed by a write can destroy the header (_refuted)."
  },
  {
   "property": "C51",
   "status": "partial",
   "theorems": [
    "C51_counts_after_writing",
    "C51_data_size_after_sync_refuted"
   ],
   "note": "Frame counts and data size after writing; after syncing a partial block repeatedly the recorded data size is too large (C51_data_size_after_sync_refuted)."
  },
  {
   "property": "C52",
   "status": "partial",
   "theorems": [
    "C52_int_float_roundtrip",
    "C52_float_to_int_clips",
    "C52_clip_limits",
    "C52_nan_refuted",
    "C52_int32_float_refuted"
   ],
   "note": "Integers of up to 24 bits through float and double, signed 32-bit integers through double; floats to integers for every non-NaN value. Refuted: NaN samples (undefined conversion), 32-bit integers through float. Unsigned 32-bit: see C06."
  },
  {
   "property": "C53",
   "status": "partial",
   "theorems": [
    "C53_caf_pcm_killed_before_sync",
    "C53_caf_g711_killed_before_sync",
    "C53_aiff_pcm_after_crash",
    "C53_aifc_g711_after_crash",
    "C53_next_pcm_after_crash",
    "C53_next_g711_after_crash",
    "C53_avr_after_crash",
    "C53_nist_pcm_after_crash",
    "C53_nist_g711_after_crash",
    "C53_iff_after_crash",
    "C53_ircam_pcm_after_crash",
    "C53_ircam_g711_after_crash",
    "C53_raw_pcm_after_crash",
    "C53_raw_g711_after_crash",
    "C53_caf_after_crash_refuted",
    "C53_voc_after_crash_refuted",
    "C53_ircam_after_crash_refuted",
    "C53_raw_after_crash_refuted",
    "C53_samplevision_after_crash_refuted",
    "C53_last_block_after_crash_refuted",
    "C53_wave_pcm_after_crash",
    "C53_wave_g711_after_crash",
    "C53_crashed_pcm_file_reads_as_at_the_sync",
    "C53_crash_keeps_synced_frames_partial"
   ],
   "note": "Bytes of the synced frames (complete blocks for block codecs) and of the header area survive any crash image of later writes. Whole files opened again after any crash image: NeXT, AVR, NIST, 8SVX, AIFF/AIFF-C and WAVE with PCM (and G.711 where the format has it) open with exactly the format, frame count, metadata and frames of the last sync. CAF killed at any moment before the first sync opens with every complete frame that is on the disk (PropertiesCAFOpen). Refuted by example for CAF and VOC after a sync (later audio is parsed as chunks/blocks and the file is rejected). IRCAM and headerless files open with AT LEAST the synced frames, exactly as they were (C53_ircam_*/C53_raw_* in PropertiesCrashOpen: the frame count comes from the file length, so complete frames that reached the disk after the sync follow; that they open with EXACTLY the synced frames is refuted by example); Sample Vision (the rate is stored after the audio and overwritten), and for the last incomplete block of a block codec (torn block)."
  },
  {
   "property": "C54",
   "status": "partial",
   "theorems": [
    "C54_queries_in_bounds_partial",
    "C54_marker_query_refuted",
    "C54_format_ids",
    "C54_format_compression",
    "C54_flac_refuted",
    "C54_compression_ids",
    "C54_instrument_parameters",
    "C54_supported_iff_maximum",
    "C54_parameters_supported_iff_any",
    "C54_default_format_is_what_a_setup_gets",
    "C54_markers_supported_iff_accepted",
    "C54_instruments_supported_iff_accepted",
    "C54_no_more_instruments_than_said",
    "C54_listed_compression_is_accepted",
    "C54_nist_compression_not_listed_refuted"
   ],
   "note": "C54_listed_compression_is_accepted and its neighbours (PropertiesQuerySetup) compare the tables of the queries with what file setups are accepted: default sample formats, compressions, markers, instruments; NIST files get compressions that are not listed (_refuted). All queries except marker queries (C54_queries_in_bounds_partial), plus consistency of the answers; marker queries with a file format outside 0..16 (such as AF_FILE_UNKNOWN) read outside the table, and a build without FLAC still lists the FLAC format as implemented."
  },
  {
   "property": "C55",
   "status": "proved",
   "theorems": [
    "C55_pcm_roundtrip",
    "C55_g711_roundtrip",
    "C55_ima_quicktime_roundtrip",
    "C55_ima_wave_roundtrip",
    "C55_msadpcm_mono_roundtrip",
    "C55_msadpcm_stereo_roundtrip"
   ],
   "note": "PCM and G.711 for any history of writes and syncs; ADPCM and ALAC for writes followed by one sync (see C22)."
  },
  {
   "property": "C56",
   "status": "partial",
   "theorems": [
    "C56_contents_depend_on_frames_only_partial",
    "C56_short_block_file_leaks_memory_refuted"
   ],
   "note": "Proved for fixed-size codecs and for block codecs once a complete block was written; refuted for shorter block-codec files (heap contents are encoded into the file)."
  },
  {
   "property": "C57",
   "status": "partial",
   "theorems": [
    "C57_aiff_without_comm_refuted",
    "C57_aiff_short_comm_refuted",
    "C57_aiff_aesd_size_refuted",
    "C57_caf_without_desc_refuted",
    "C57_caf_length_overflow_refuted",
    "C57_caf_cookie_refuted",
    "C57_caf_channels_refuted",
    "C57_caf_defined_partial",
    "C57_avr_defined_partial",
    "C57_avr_short_refuted",
    "C57_iff_defined_partial",
    "C57_aiff_defined_partial",
    "C57_voc_defined_partial",
    "C57_samplevision_defined_partial",
    "C57_nist_defined_partial",
    "C57_wave_defined_partial",
    "C57_iff_without_vhdr_refuted",
    "C57_iff_short_vhdr_refuted",
    "C57_ircam_short_refuted",
    "C57_ircam_defined_partial",
    "C57_nist_number_missing_refuted",
    "C57_nist_number_overflow_refuted",
    "C57_nist_byte_order_refuted",
    "C57_next_defined_partial",
    "C57_next_truncated_refuted",
    "C57_next_channels_refuted",
    "C57_samplevision_short_refuted",
    "C57_voc_without_sound_refuted",
    "C57_voc_short_refuted",
    "C57_wave_short_fmt_refuted",
    "C57_wave_short_list_refuted",
    "C57_wave_msadpcm_coefficients_refuted",
    "C57_wave_ima_overflow_refuted",
    "C57_wave_unterminated_name_refuted"
   ],
   "note": "For each of the ten formats: conditions on the bytes of the file under which opening it is defined in Debug and Release builds (fields that are used are in the file, products fit an int, each chunk leads on), and refutations showing that opening other files is not defined: header cut short, missing format chunk, overflowing products, lists longer than the file."
  },
  {
   "property": "C58",
   "status": "partial",
   "theorems": [
    "C58_alac_seek_partial",
    "C58_alac_seek_refuted"
   ],
   "note": "Proved when the packet table holds a packet for the frame; the library does not check the table against the frame count or the frames per packet (C58_alac_seek_refuted)."
  },
  {
   "property": "C59",
   "status": "partial",
   "theorems": [
    "C59_chain_delivers_target_format",
    "C59_any_format_is_arranged",
    "C59_arrange_32_refuted",
    "C59_mapping_value"
   ],
   "note": "All format pairs and mappings; for 32-bit formats building the chain overflows int by the letter of the standard (C59_arrange_32_refuted), proved for compilers where negation wraps."
  },
  {
   "property": "C60",
   "status": "partial",
   "theorems": [
    "C60_avr_usable",
    "C60_ircam_usable",
    "C60_samplevision_usable",
    "C60_iff_usable",
    "C60_voc_usable",
    "C60_aiff_usable",
    "C60_nist_usable",
    "C60_next_usable_partial",
    "C60_next_channels_refuted",
    "C60_caf_usable_partial",
    "C60_caf_channels_refuted",
    "C60_caf_alac_packet_refuted",
    "C60_wave_usable_partial",
    "C60_wave_empty_packet_refuted",
    "C60_wave_small_packet_refuted",
    "C60_wave_data_chunk",
    "C60_aiff_without_sound_refuted"
   ],
   "note": "AIFF, IFF, VOC, IRCAM, AVR, NIST, Sample Vision: every file. NeXT, CAF, WAVE: the theorem names the only ways to fail (channel counts of 2^31 and more come out negative; ALAC and ADPCM packets of no frames), each shown to happen (_refuted). A WAVE IMA block too small for its frames is also accepted, and decoding it reads outside the block."
  },
  {
   "property": "C61",
   "status": "proved",
   "theorems": [
    "C61_caf_audio_to_the_end",
    "C61_ircam_machines",
    "C61_next_sizes",
    "C61_voc_old_sound",
    "C61_voc_extended",
    "C61_aifc_types",
    "C61_aiff_chunks",
    "C61_wave_codes",
    "C61_caf_codes",
    "C61_caf_packet_table"
   ],
   "note": "IRCAM of all machine variants, NeXT with given and unknown sizes, old and extended VOC blocks, AIFF-C compression types and AIFF with other chunks, WAVE format codes, CAF format ids, flags, packet tables and audio data whose length is -1 (to the end of the file), each against a separate description of the bytes another program writes."
  },
  {
   "property": "C62",
   "status": "partial",
   "theorems": [
    "C62_accepted_setup_is_honoured",
    "C62_metadata_has_a_place",
    "C62_frames_are_full_scale_partial",
    "C62_frames_pass_unchanged",
    "C62_iff_default_refuted"
   ],
   "note": "Proved for every sequence of setup calls. Full-scale frames: false for an IFF file opened without a sample format, whose 8-bit frames are mapped and clipped as 16-bit ones (undefined behaviour). Unchanged frames: signed integers and floating point, no compression."
  },
  {
   "property": "C63",
   "status": "partial",
   "theorems": [
    "C63_reuse_for_the_same_format_partial",
    "C63_reuse_for_another_format_refuted",
    "C63_reuse_samplevision_refuted"
   ],
   "note": "The same file format again: proved (the file's format is the same; the virtual format too if the sample format was not replaced). Another file format: false, completeSetup writes into the caller's setup (_refuted)."
  },
  {
   "property": "C64",
   "status": "proved",
   "theorems": [
    "C64_alac_lossless",
    "C64_alac_bit_exact",
    "C64_alac_from_any_frame"
   ],
   "note": "Codec (search, predictor, Golomb coder, mixing, elements) and the packet loop of modules/ALAC.cpp, for everything the encoder has written in whatever buffer. Signed overflow in the predictor wraps (Arith := Wrapping), as machine arithmetic does; the C standard leaves it undefined."
  },
  {
   "property": "C65",
   "status": "partial",
   "theorems": [
    "C65_decoding_ends",
    "C65_packet_overruns_arrays_refuted",
    "C65_samples_of_no_bits_refuted"
   ],
   "note": "Termination: proved for every packet and configuration. Memory safety: false, the decoder trusts the number of samples and of shifted bytes in the packet (_refuted)."
  },
  {
   "property": "C66",
   "status": "partial",
   "theorems": [
    "C66_encoder_inside_buffer_partial",
    "C66_six_bytes_are_enough"
   ],
   "note": "Every depth and channel count except two channels at 16, 24 or 32 bits, where the encoder's first attempt may need more bits than the buffer has; six bytes per sample are proved to be enough in all cases."
  },
  {
   "property": "C67",
   "status": "partial",
   "theorems": [
    "C67_buffers_hold_1024_frames",
    "C67_read_stays_inside",
    "C67_write_stays_inside",
    "C67_seek_into_packet_refuted",
    "C67_many_channels_refuted"
   ],
   "note": "Pieces of up to 1024 frames through every chain of converters, fewer than 2^18 channels, contents for which the conversions are defined. False: after a seek into a packet the frames before the position are pulled in one piece, which can exceed the buffers (ALAC read as float, _refuted); with 2^20 channels the buffer size wraps to nothing (_refuted). The codecs' own accesses are C15, C19, C60, C65, C66."
  },
  {
   "property": "C68",
   "status": "partial",
   "theorems": [
    "C68_read_layout",
    "C68_write_layout",
    "C68_24_bit_swapped_refuted"
   ],
   "note": "Every pair of formats, byte orders and channel matrices. False for 24-bit virtual samples in the byte order that is not the machine's: the swap takes them for 3 bytes wide (_refuted). NaN payloads are not modelled: a NaN is any NaN."
  },
  {
   "property": "C69",
   "status": "partial",
   "theorems": [
    "C69_reads_follow_the_settings",
    "C69_any_format_any_time",
    "C69_position_kept",
    "C69_only_the_settings_matter",
    "C69_late_matrix_refuted",
    "C69_virtual_rate_refuted"
   ],
   "note": "Any sequence of calls on files of fewer than 2^48 frames at a usual rate. False: a matrix set after the chain was built is not used until something else rebuilds it; a virtual rate other than the file's changes the frame count but resamples nothing (both _refuted)."
  },
  {
   "property": "C70",
   "status": "partial",
   "theorems": [
    "C70_file_holds_what_was_written",
    "C70_same_file_as_one_write",
    "C70_frame_count_refuted",
    "C70_late_matrix_refuted"
   ],
   "note": "Library codecs, whole-number rates with frames * rate below 2^53, no sync before the last one (C22 is about those). What completes the last block after a format change is whatever the new buffer held, and is left open. False: at a fractional rate the frame count is truncated after a format change (7 frames reported as 6); a matrix set after the chain was built is not used until something else rebuilds it (both _refuted)."
  },
  {
   "property": "C71",
   "status": "partial",
   "theorems": [
    "C71_converters_carry_bytes",
    "C71_next_bytes_partial",
    "C71_avr_bytes_partial",
    "C71_ircam_bytes_partial",
    "C71_voc_bytes_partial",
    "C71_nist_bytes_partial",
    "C71_caf_bytes_partial",
    "C71_aiff_bytes_partial",
    "C71_wave_bytes_partial",
    "C71_iff_bytes_partial",
    "C71_samplevision_bytes_partial",
    "C71_24_bit_fourth_byte_refuted"
   ],
   "note": "C71_converters_carry_bytes covers every PCM format at full scale except unsigned 32-bit samples, whose conversion overflows (C06). The theorems per file format carry the limits of C28 to C37 (files below 2 GiB, what each header can express). The fourth byte of a 24-bit sample must be its sign extension: other values are not stored (_refuted)."
  },
  {
   "property": "C72",
   "status": "partial",
   "theorems": [
    "C72_raw_pcm_any_file",
    "C72_raw_g711_any_file",
    "C72_raw_pcm_roundtrip_partial",
    "C72_raw_g711_roundtrip_partial",
    "C72_raw_adpcm_refuted",
    "C72_raw_empty_with_offset_refuted",
    "C72_raw_count_refuted",
    "C72_raw_frame_size_refuted"
   ],
   "note": "PCM of any width and G.711, frames below 2^24 bytes, files written below 2 GiB. False: with IMA or MS ADPCM of one 16-bit channel opening divides by zero; the frame count of the setup is never compared with the file; frames of 2^24+1 bytes are mis-sized (float); a file with a data offset and no frames cannot be opened again (_refuted)."
  },
  {
   "property": "C73",
   "status": "partial",
   "theorems": [
    "C73_converts_every_frame",
    "C73_same_as_one_write",
    "C73_success_means_complete",
    "C73_same_format_is_lossless",
    "C73_wide_frames_refuted",
    "C73_truncated_input_fails",
    "C73_to_next_partial",
    "C73_to_wave_partial",
    "C73_to_aiff_partial",
    "C73_to_caf_partial",
    "C73_to_next_file_partial",
    "C73_to_avr_file_partial",
    "C73_to_voc_file_partial",
    "C73_to_samplevision_file_partial",
    "C73_to_iff_file_partial",
    "C73_to_nist_file_partial",
    "C73_to_ircam_file_partial"
   ],
   "note": "The program from the moment both files are open (the command line and the choice of formats are not modelled; the result of closing is ignored by the program and in the model). Frames below 32768 bytes, whole-number rates. C73_success_means_complete is about any input and any codec; C73_truncated_input_fails about PCM and G.711 inputs; C73_to_next_partial follows signed PCM through to opening the output as a NeXT file, and C73_to_wave/aiff/caf/next_file/avr_file/voc_file/iff_file/ircam_file/samplevision_file/nist_file_partial do the same for each of these formats (WAVE, AIFF, AIFF-C and IFF with any valid metadata). False: with frames of 32768 bytes or more the size of the copy buffer overflows int (_refuted)."
  },
  {
   "property": "C74",
   "status": "partial",
   "theorems": [
    "C74_short_count_means_error",
    "C74_without_errors",
    "C74_counted_frames_are_stored",
    "C74_next_file_after_full_disk",
    "C74_counted_blocks_are_stored",
    "C74_refused_writes_can_be_repeated",
    "C74_short_writes_cannot_be_repeated_refuted",
    "C74_block_frames_counted_but_lost_refuted"
   ],
   "note": "Writes of audio data can fail in any way; those of the header, over bytes already in the file, succeed (a failed header write is ignored by the library). Opened again: proved for NeXT PCM. False: frames of a piece that was taken in part are doubled, or later frames shifted, if the application writes the uncounted frames again; for IMA and MS ADPCM frames counted while their block was incomplete are lost when the block cannot be written, and afSyncFile and afCloseFile then return success (_refuted)."
  },
  {
   "property": "C75",
   "status": "proved",
   "theorems": [
    "C75_every_source",
    "C75_without_failures",
    "C75_seek_away_and_back_recovers",
    "C75_going_on_after_an_error_refuted",
    "C75_frames_made_up_refuted",
    "C75_block_codec_after_an_error_refuted"
   ],
   "note": "Failures while audio data is read (the header is read from a source that delivers). The chain of conversions is a function on frames and there is one sample rate, as in C23. False without the seek: the next read delivers PCM frames from the wrong bytes, counts frames that were never read, or fails an assertion in a block codec; none reports an error, and a seek to the current position does nothing (_refuted)."
  },
  {
   "property": "C76",
   "status": "proved",
   "theorems": [
    "C76_truncated_files_conform",
    "C76_frames_that_are_there"
   ],
   "note": "The audio data is cut off, not the header. The first theorem reduces a cut file to the complete one with read(2) answering short (Faults.v); the second says that the missing part does not matter for calls that stay within the rest. What happens without a seek after the error is C23_truncated_file_refuted, C23_truncated_blocks_refuted and the refutations of C75."
  },
  {
   "property": "C77",
   "status": "partial",
   "theorems": [
    "C77_caf_layout",
    "C77_next_layout",
    "C77_avr_layout",
    "C77_ircam_layout",
    "C77_voc_layout",
    "C77_samplevision_layout",
    "C77_iff_layout",
    "C77_aiff_layout_partial",
    "C77_wave_layout_partial",
    "C77_nist_layout",
    "C77_wave_pad_refuted",
    "C77_aiff_pad_refuted"
   ],
   "note": "Each layout is written down from the published description, without the model's writers, and holds for every history that ends with a sync. AIFF and WAVE are partial: after an odd number of bytes of audio there is no pad byte and the file has an odd length (_refuted); AIFF-C's frame count of IMA data is rounded down to whole packets (C36). Stated as the library writes them, although the descriptions say otherwise: WAVE G.711 has the IBM tags 257 and 258, 8SVX says 0 octaves, NIST single-byte files have the byte format 0."
  },
  {
   "property": "C78",
   "status": "partial",
   "theorems": [
    "C78_refused_calls_have_no_effect",
    "C78_settings_are_reported",
    "C78_settings_after_opening",
    "C78_settings_after_opening_for_writing",
    "C78_every_answer_while_reading",
    "C78_channel_count_refuted"
   ],
   "note": "The calls of Virtual.v and VirtualWrite.v with the arguments C passes. C78_every_answer_while_reading describes every answer of every history on a file opened for reading (under the conditions of C69). Handles whose file was closed are not modelled (freed memory). False: the number of virtual channels is not checked, 0 and negative numbers are accepted (_refuted)."
  },
  {
   "property": "C79",
   "status": "partial",
   "theorems": [
    "C79_virtual_frame_size",
    "C79_read_fills_the_buffer",
    "C79_write_needs_no_more",
    "C79_file_frame_size",
    "C79_g711_frame_size",
    "C79_unknown_track",
    "C79_large_frame_refuted",
    "C79_adpcm_frame_size_refuted"
   ],
   "note": "The size is a float in C: exact below 2^24 bytes, which the theorems require; above that it can be too small, and an absurd number of virtual channels overflows an int (_refuted). For ADPCM the file's frame size leaves out the packet headers (_refuted). The memory theorems are C68's (fewer than 2^18 channels, 24-bit samples in native order)."
  },
  {
   "property": "C80",
   "status": "partial",
   "theorems": [
    "C80_history",
    "C80_new_file",
    "C80_aiff_roundtrip_partial"
   ],
   "note": "The history theorems are complete. The round trip is for PCM (C36's conditions: the header's sizes stay below 2^31; the other metadata valid and of unchanged layout); the stores are those made before the last update of the header, as the theorem of C36 has the metadata of the closing file."
  }
 ]
}