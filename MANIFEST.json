{
 "claims": [
  {
   "property": "C01",
   "status": "proved",
   "theorems": [
    "C01_msgb_deque",
    "C01_alloc_headroom",
    "C01_pull_to_l3",
    "C01_pull_to_l2",
    "C01_push_tl",
    "C01_reset"
   ],
   "note": ""
  },
  {
   "property": "C02",
   "status": "proved",
   "theorems": [
    "C02_trim",
    "C02_l3trim",
    "C02_trim_refuted",
    "C02_put_huge",
    "C02_push_huge"
   ],
   "note": "C02_trim gives the exact guard used by the code; C02_trim_refuted shows the unrestricted statement fails when there is headroom."
  },
  {
   "property": "C03",
   "status": "proved",
   "theorems": [
    "C03_copy_resize",
    "C03_copy"
   ],
   "note": ""
  },
  {
   "property": "C04",
   "status": "proved",
   "theorems": [
    "C04_resize_area",
    "C04_outside_panics",
    "C04_too_long_refused",
    "C04_grow_refuted"
   ],
   "note": "C04_resize_area holds within the guard; C04_grow_refuted exhibits growth past the buffer when headroom is present."
  },
  {
   "property": "C05",
   "status": "proved",
   "theorems": [
    "C05_msgb_queue_fifo",
    "C05_msgb_queue_fresh",
    "C05_msgb_queue_free"
   ],
   "note": ""
  },
  {
   "property": "C06",
   "status": "proved",
   "theorems": [
    "C06_ubit2pbit",
    "C06_pbit2ubit",
    "C06_pbit2ubit_zero_refuted",
    "C06_roundtrip",
    "C06_ubit2pbit_ext",
    "C06_pbit2ubit_ext",
    "C06_soft_roundtrip",
    "C06_nibble_shift_right",
    "C06_nibble_shift_left",
    "C06_nibble_single_refuted"
   ],
   "note": "Two corner cases outside the documented use are refuted by name (zero length unpacking, a single nibble)."
  },
  {
   "property": "C07",
   "status": "proved",
   "theorems": [
    "C07_bit_reversal",
    "C07_bit_reversal_range",
    "C07_bit_reversal_involution",
    "C07_revbytebits_32",
    "C07_revbytebits_8",
    "C07_revbytebits_8_involution",
    "C07_revbytebits_buf"
   ],
   "note": ""
  },
  {
   "property": "C08",
   "status": "proved",
   "theorems": [
    "C08_set_bit_pos",
    "C08_get_bit_pos",
    "C08_write_field",
    "C08_read_field",
    "C08_write_read",
    "C08_write_field_refused",
    "C08_read_field_refused",
    "C08_write_field_256_refuted",
    "C08_read_field_wrap_refuted",
    "C08_set_u64",
    "C08_set_bits",
    "C08_get_uint",
    "C08_get_uint_33_refuted",
    "C08_fill",
    "C08_spare_padding",
    "C08_find_bit_pos",
    "C08_nth_set_bit",
    "C08_run_length",
    "C08_run_length_refuted",
    "C08_run_length_curbit",
    "C08_run_length_curbit_refuted",
    "C08_shiftl_partial",
    "C08_shiftl_refuted",
    "C08_shiftl_exact",
    "C08_shiftl_all",
    "C08_get_int16_msb",
    "C08_get_bit_high",
    "C08_add_array"
   ],
   "note": "The statement is proved. bitvec_shiftl, which the statement does not mention, is covered only in part (C08_shiftl_partial, refuted in general)."
  },
  {
   "property": "C09",
   "status": "proved",
   "theorems": [
    "C09_set_bytes",
    "C09_get_bytes",
    "C09_roundtrip",
    "C09_refused",
    "C09_wrap_refuted"
   ],
   "note": ""
  },
  {
   "property": "C10",
   "status": "proved",
   "theorems": [
    "C10_remainder",
    "C10_remainder_unique",
    "C10_affine",
    "C10_set_bits",
    "C10_check_bits",
    "C10_set_check",
    "C10_burst_detected",
    "C10_full_width_refuted",
    "C10_gsm_codes"
   ],
   "note": ""
  },
  {
   "property": "C11",
   "status": "proved",
   "theorems": [
    "C11_encode",
    "C11_encoded_length",
    "C11_roundtrip",
    "C11_decode_safe",
    "C11_empty_olen_refuted",
    "C11_decode_refuses"
   ],
   "note": ""
  },
  {
   "property": "C12",
   "status": "partial",
   "theorems": [
    "C12_refines",
    "C12_write_interest",
    "C12_order",
    "C12_lossless",
    "C12_nospc",
    "C12_maxlen_refuted"
   ],
   "note": "The length bound holds except when the write callback itself enqueues and then returns -EAGAIN (C12_maxlen_refuted); everything else is proved."
  },
  {
   "property": "C13",
   "status": "proved",
   "theorems": [
    "C13_fifo_exactly_once",
    "C13_bounded",
    "C13_mutual_exclusion",
    "C13_lock_released",
    "C13_refused_iff_full",
    "C13_no_lost_wakeup",
    "C13_dispatch_delivers_all",
    "C13_unbounded_max_refuted"
   ],
   "note": "The length bound needs max_length < UINT_MAX (C13_unbounded_max_refuted)."
  },
  {
   "property": "C14",
   "status": "partial",
   "theorems": [
    "C14_history",
    "C14_big_index",
    "C14_beyond_refuted"
   ],
   "note": "The last clause fails after the buffer has wrapped: get_nth beyond the count returns an old string (C14_beyond_refuted). The rest is proved."
  },
  {
   "property": "C15",
   "status": "proved",
   "theorems": [
    "C15_history",
    "C15_update",
    "C15_pending",
    "C15_nearest",
    "C15_nearest_ms_wraps_refuted",
    "C15_schedule",
    "C15_remaining",
    "C15_check"
   ],
   "note": ""
  },
  {
   "property": "C16",
   "status": "proved",
   "theorems": [
    "C16_history",
    "C16_insert",
    "C16_insert_sorted",
    "C16_erase",
    "C16_replace",
    "C16_walk",
    "C16_height"
   ],
   "note": ""
  },
  {
   "property": "C17",
   "status": "proved",
   "theorems": [
    "C17_history",
    "C17_get_put",
    "C17_total",
    "C17_total_mixed_refuted",
    "C17_null_token_refuted",
    "C17_int_min_undefined"
   ],
   "note": ""
  },
  {
   "property": "C18",
   "status": "partial",
   "theorems": [
    "C18_transition",
    "C18_action",
    "C18_allstate",
    "C18_leave_enter",
    "C18_state",
    "C18_refused",
    "C18_delivered",
    "C18_changed",
    "C18_timeout",
    "C18_nested_leave_refuted",
    "C18_timeout_clamp_refuted"
   ],
   "note": "The exact behaviour is proved; a state change made inside onleave bypasses the check (C18_nested_leave_refuted) and a huge timeout is truncated (C18_timeout_clamp_refuted)."
  },
  {
   "property": "C19",
   "status": "partial",
   "theorems": [
    "C19_stages",
    "C19_children_first",
    "C19_parent_event",
    "C19_parent_told",
    "C19_no_free_in_progress",
    "C19_no_events",
    "C19_cascade",
    "C19_no_crash",
    "C19_sibling_survives_refuted",
    "C19_term_children_refuted",
    "C19_term_in_leave_refuted",
    "C19_reparent_event_refuted"
   ],
   "note": "Proved for callbacks that do not terminate or reparent relatives in the middle of a termination; four refutations show what goes wrong otherwise."
  },
  {
   "property": "C20",
   "status": "proved",
   "theorems": [
    "C20_get",
    "C20_exact",
    "C20_set",
    "C20_reset",
    "C20_state_chg"
   ],
   "note": ""
  },
  {
   "property": "C21",
   "status": "proved",
   "theorems": [
    "C21_tx_line",
    "C21_tx_pull",
    "C21_rx_line",
    "C21_roundtrip",
    "C21_rx_errors",
    "C21_disable",
    "C21_flag_refuted",
    "C21_stop_bits_refuted",
    "C21_stop_bits_rx_refuted",
    "C21_enlarge_refuted",
    "C21_big_buffer_refuted",
    "C21_flush_mid_refuted"
   ],
   "note": "Proved for frames of at most 255 data and stop bits and unchanged configuration; refutations mark the border."
  },
  {
   "property": "C22",
   "status": "proved",
   "theorems": [
    "C22_pick",
    "C22_transmit",
    "C22_frames",
    "C22_all_sent",
    "C22_transparent",
    "C22_queue_depth",
    "C22_roundtrip_partial",
    "C22_dlci0_refuted",
    "C22_dlci_range",
    "C22_too_long",
    "C22_resync",
    "C22_rx_reachable"
   ],
   "note": "Round trip proved for all payloads and all DLCIs that need no escaping, as the statement says (C22_roundtrip_partial); C22_dlci0_refuted exhibits the rest."
  },
  {
   "property": "C23",
   "status": "partial",
   "theorems": [
    "C23_no_six_ones",
    "C23_encode_line_partial",
    "C23_decode_line_partial",
    "C23_bad_fcs_partial",
    "C23_roundtrip_partial",
    "C23_long_refuted",
    "C23_first_call_refuted",
    "C23_one_octet_refuted",
    "C23_abort_refuted"
   ],
   "note": "Proved for the 64 kbit/s B channel mode, frames of at least two octets that fit the receive buffer. Missing: D channel idle pattern and 56k adaptation. The unrestricted statement is refuted by four witnesses."
  },
  {
   "property": "C24",
   "status": "partial",
   "theorems": [
    "C24_octet_length",
    "C24_pack",
    "C24_septets2octets",
    "C24_pack_large_padding_refuted",
    "C24_encode_n",
    "C24_encode_alphabet_refuted",
    "C24_decode_n",
    "C24_decode_hdr_refuted",
    "C24_round_trip",
    "C24_round_trip_refuted",
    "C24_ussd_encode",
    "C24_ussd_exchange",
    "C24_ussd_round_trip_partial",
    "C24_ussd_round_trip_refuted"
   ],
   "note": "Packing is proved in full. Text round trips hold for the alphabet given in the theorem; characters the tables get wrong are refuted by name."
  },
  {
   "property": "C25",
   "status": "partial",
   "theorems": [
    "C25_arfcn2freq",
    "C25_roundtrip",
    "C25_freq2arfcn",
    "C25_uplink_flag_refuted",
    "C25_band",
    "C25_band_consistent",
    "C25_band_refuted"
   ],
   "note": "The uplink flag is not accepted back and a PCS-flagged ARFCN outside 1900 is still classified as such (refuted); the rest is proved."
  },
  {
   "property": "C26",
   "status": "partial",
   "theorems": [
    "C26_fn_time_fn",
    "C26_time_fn_time",
    "C26_result_in_range",
    "C26_rfn_past",
    "C26_rfn_same_window",
    "C26_rfn_residue",
    "C26_rfn_nearest_refuted",
    "C26_fncmp",
    "C26_fncmp_antisym",
    "C26_fncmp_antisym_refuted",
    "C26_fn_arith",
    "C26_mod_flr",
    "C26_mod_flr_refuted",
    "C26_mod_euc"
   ],
   "note": "gsm_rfn2fn is exact for frames in the past half window; frames ahead across a window border are refuted."
  },
  {
   "property": "C27",
   "status": "proved",
   "theorems": [
    "C27_to_bcd",
    "C27_from_bcd",
    "C27_round_trip",
    "C27_octets_equal_iff_cmp",
    "C27_out_of_range",
    "C27_injective_beyond_999_refuted",
    "C27_plmn_order",
    "C27_lai_order",
    "C27_rai_order",
    "C27_cgi_order",
    "C27_cgi_ps_order",
    "C27_rnc_order",
    "C27_gummei_order"
   ],
   "note": ""
  },
  {
   "property": "C28",
   "status": "proved",
   "theorems": [
    "C28_get",
    "C28_set",
    "C28_validate",
    "C28_add",
    "C28_del",
    "C28_invalid",
    "C28_history",
    "C28_overlaps",
    "C28_limit_exact",
    "C28_limit",
    "C28_limit_nothing_refuted",
    "C28_tmsi_limit",
    "C28_vty",
    "C28_vty_del",
    "C28_text_identifies_ranges_refuted"
   ],
   "note": ""
  },
  {
   "property": "C29",
   "status": "partial",
   "theorems": [
    "C29_parse_one",
    "C29_consumed",
    "C29_ie_unique",
    "C29_parse_message",
    "C29_parse_malformed",
    "C29_parse_safe",
    "C29_lv_overread_refuted",
    "C29_same_lv_refuted",
    "C29_encode_one",
    "C29_round_trip",
    "C29_encode_parse",
    "C29_long_tlv_refuted",
    "C29_no_type_refuted",
    "C29_old_half_refuted",
    "C29_gan_tag_refuted",
    "C29_gan_put_refuted",
    "C29_tvl_put_refuted"
   ],
   "note": "Bounds and round trips are proved for tlv_parse_one and tlv_parse; the missing leading LV over-read and other encoder limits are refuted by name."
  },
  {
   "property": "C30",
   "status": "proved",
   "theorems": [
    "C30_copy_exact",
    "C30_copy_refuted",
    "C30_merge_exact",
    "C30_merge_refuted"
   ],
   "note": "The statement says what the code does instead of what a user expects; both refutations are theorems."
  },
  {
   "property": "C31",
   "status": "partial",
   "theorems": [
    "C31_from_str",
    "C31_every_string_is_labels",
    "C31_to_str",
    "C31_text_unique",
    "C31_round_trip",
    "C31_long_label_refuted",
    "C31_qualify",
    "C31_qualify_exact_fit_refuted",
    "C31_qualify_from_imsi"
   ],
   "note": "Labels of 256 or more characters and empty inner labels do not survive (refuted); the rest is proved."
  },
  {
   "property": "C32",
   "status": "partial",
   "theorems": [
    "C32_range_chosen",
    "C32_roundtrip",
    "C32_range1024_refuted",
    "C32_split_exists"
   ],
   "note": "Proved except for 17 ARFCNs without ARFCN 0 in range 1024, which loses one (C32_range1024_refuted)."
  },
  {
   "property": "C33",
   "status": "partial",
   "theorems": [
    "C33_encode",
    "C33_decode",
    "C33_error_free",
    "C33_scan_partial"
   ],
   "note": "Encoder length and zero-error decoding and optimality are proved for flushed and truncated codes; the scan of end states for tail-biting codes is proved only in part (C33_scan_partial)."
  },
  {
   "property": "C34",
   "status": "proved",
   "theorems": [
    "C34_xcch",
    "C34_tch_fr",
    "C34_tch_hr",
    "C34_tch_f96",
    "C34_mcs1_dl",
    "C34_mcs1_ul",
    "C34_mcs5_ul",
    "C34_mcs5_dl",
    "C34_mcs7_dl",
    "C34_mcs7_ul",
    "C34_mcs8_dl",
    "C34_mcs8_ul",
    "C34_xcch_map",
    "C34_xcch_block",
    "C34_tch_map",
    "C34_mcs5_dl_map",
    "C34_mcs7_dl_map",
    "C34_mcs5_ul_map",
    "C34_mcs7_ul_map",
    "C34_swap",
    "C34_xcch_places",
    "C34_tch_fr_places",
    "C34_tch_f96_places",
    "C34_tch_fr_diagonal",
    "C34_tch_hr_diagonal",
    "C34_tch_f96_diagonal"
   ],
   "note": ""
  },
  {
   "property": "C35",
   "status": "proved",
   "theorems": [
    "C35_hexparse",
    "C35_hextext_unique",
    "C35_hexdump",
    "C35_roundtrip",
    "C35_bcd_digit",
    "C35_bcd2str",
    "C35_str2bcd",
    "C35_str2bcd_overflow_refuted",
    "C35_bcd_roundtrip",
    "C35_ubit_dump"
   ],
   "note": ""
  },
  {
   "property": "C36",
   "status": "proved",
   "theorems": [
    "C36_value",
    "C36_rate",
    "C36_rate_initial",
    "C36_difference"
   ],
   "note": ""
  },
  {
   "property": "C37",
   "status": "proved",
   "theorems": [
    "C37_history",
    "C37_wrap_refuted"
   ],
   "note": "Fewer than 2^32 sets per period are needed (C37_wrap_refuted)."
  },
  {
   "property": "C38",
   "status": "partial",
   "theorems": [
    "C38_roundtrip_partial",
    "C38_roundtrip_refuted",
    "C38_long_run_refuted",
    "C38_code_words"
   ],
   "note": "Proved for vectors that leave room in their buffer; a filled buffer is refuted."
  },
  {
   "property": "C39",
   "status": "proved",
   "theorems": [
    "C39_a5_1",
    "C39_a5_2",
    "C39_lengths",
    "C39_fn_count",
    "C39_twice"
   ],
   "note": ""
  },
  {
   "property": "C40",
   "status": "proved",
   "theorems": [
    "C40_luhn",
    "C40_luhn_einval",
    "C40_luhn_single",
    "C40_luhn_transposition",
    "C40_isqrt",
    "C40_str_to_int64",
    "C40_str_to_int64_errors",
    "C40_numeral_unique",
    "C40_str_to_int",
    "C40_str_to_int_errors"
   ],
   "note": ""
  },
  {
   "property": "C41",
   "status": "proved",
   "theorems": [
    "C41_llist_history",
    "C41_llist_traverse",
    "C41_llist_del_init",
    "C41_llist_fresh"
   ],
   "note": ""
  },
  {
   "property": "C42",
   "status": "proved",
   "theorems": [
    "C42_load_le",
    "C42_load_be",
    "C42_load_be_2",
    "C42_store_le",
    "C42_store_be",
    "C42_roundtrip_le",
    "C42_roundtrip_be",
    "C42_full_width",
    "C42_too_wide"
   ],
   "note": ""
  },
  {
   "property": "C43",
   "status": "proved",
   "theorems": [
    "C43_hop_standard",
    "C43_hop_orthogonal",
    "C43_hop_cyclic",
    "C43_hop_preconditions_refuted"
   ],
   "note": ""
  },
  {
   "property": "C44",
   "status": "proved",
   "theorems": [
    "C44_fn_remap",
    "C44_ccch_block",
    "C44_paging_group",
    "C44_group_pair"
   ],
   "note": ""
  },
  {
   "property": "C45",
   "status": "proved",
   "theorems": [
    "C45_tlli_type",
    "C45_tmsi_tlli_tmsi",
    "C45_ptmsi_identity",
    "C45_tlli2tmsi_other"
   ],
   "note": ""
  },
  {
   "property": "C46",
   "status": "proved",
   "theorems": [
    "C46_power_level",
    "C46_level_power",
    "C46_rxlev",
    "C46_dbm",
    "C46_dbm_overflow_refuted"
   ],
   "note": ""
  },
  {
   "property": "C47",
   "status": "partial",
   "theorems": [
    "C47_plmn_name",
    "C47_lai_name",
    "C47_rai_name2",
    "C47_cgi_name",
    "C47_cgi_ps_name",
    "C47_rnc_id_name",
    "C47_gummei_name",
    "C47_mnc_from_str",
    "C47_mnc_round_trip",
    "C47_imsi_valid",
    "C47_msisdn_valid",
    "C47_imei14_valid",
    "C47_imei15_valid",
    "C47_home_domain",
    "C47_mme_domain",
    "C47_mme_group_domain",
    "C47_domain_parser_exact_refuted",
    "C47_domain_keeps_mnc_length_refuted"
   ],
   "note": "The domain parser accepts trailing garbage and loses the MNC length (refuted); the rest is proved."
  },
  {
   "property": "C48",
   "status": "proved",
   "theorems": [
    "C48_shift_v_fixed",
    "C48_match_shift_tv_fixed",
    "C48_shift_tlv",
    "C48_match_shift_tlv",
    "C48_shift_lv"
   ],
   "note": ""
  },
  {
   "property": "C49",
   "status": "proved",
   "theorems": [
    "C49_validate",
    "C49_prot_parse",
    "C49_def_patch"
   ],
   "note": ""
  },
  {
   "property": "C50",
   "status": "partial",
   "theorems": [
    "C50_unique",
    "C50_lookup",
    "C50_alloc",
    "C50_counter_by_name",
    "C50_names",
    "C50_mangled_refuted",
    "C50_wrap_refuted"
   ],
   "note": "Names that need mangling bypass the duplicate check and the replacement index wraps at UINT_MAX (refuted); otherwise proved."
  },
  {
   "property": "C51",
   "status": "partial",
   "theorems": [
    "C51_valid",
    "C51_identifier",
    "C51_null",
    "C51_sanitize_chars",
    "C51_sanitize_valid_partial",
    "C51_sanitize_refuted"
   ],
   "note": "The result of sanitizing passes validation only for printable 7-bit text (C51_sanitize_refuted)."
  },
  {
   "property": "C52",
   "status": "partial",
   "theorems": [
    "C52_kasumi",
    "C52_permutation",
    "C52_kgcore",
    "C52_a5_4",
    "C52_a5_3",
    "C52_a5_dispatch",
    "C52_gea4_partial",
    "C52_gea3_partial",
    "C52_gea_wrap_refuted"
   ],
   "note": "GEA3/GEA4 proved for fewer than 8192 octets, where the 16-bit bit count does not wrap (C52_gea_wrap_refuted)."
  },
  {
   "property": "C53",
   "status": "proved",
   "theorems": [
    "C53_decode",
    "C53_empty_refuted"
   ],
   "note": "Length 0 is excluded by the statement; C53_empty_refuted shows why."
  },
  {
   "property": "C54",
   "status": "proved",
   "theorems": [
    "C54_crc16",
    "C54_ccitt",
    "C54_pieces",
    "C54_residue"
   ],
   "note": ""
  },
  {
   "property": "C55",
   "status": "proved",
   "theorems": [
    "C55_reassembly",
    "C55_everything",
    "C55_too_long",
    "C55_hangup",
    "C55_prepend",
    "C55_unbuffered_refuted"
   ],
   "note": ""
  },
  {
   "property": "C56",
   "status": "partial",
   "theorems": [
    "C56_read",
    "C56_read_all",
    "C56_cbsp",
    "C56_spurious_refuted",
    "C56_zero_length_refuted",
    "C56_write_partial",
    "C56_refused",
    "C56_idle",
    "C56_empty",
    "C56_partial_write_refuted"
   ],
   "note": "Transmit order and content proved while the kernel takes whole messages or fails; after a partial write they are false of the code (C56_partial_write_refuted). Reading proved without failing reads while a message is pending (C56_spurious_refuted)."
  },
  {
   "property": "C57",
   "status": "proved",
   "theorems": [
    "C57_encode",
    "C57_encode_tmsi",
    "C57_encode_refuses",
    "C57_decode",
    "C57_roundtrip",
    "C57_roundtrip_tmsi",
    "C57_l3",
    "C57_cmp",
    "C57_reserved_tmsi_refuted"
   ],
   "note": ""
  },
  {
   "property": "C58",
   "status": "proved",
   "theorems": [
    "C58_in_order",
    "C58_acknowledged",
    "C58_window_timer",
    "C58_no_false_errors",
    "C58_establish",
    "C58_loss_free",
    "C58_drains",
    "C58_gives_up",
    "C58_repeats",
    "C58_establish_gives_up",
    "C58_too_long_refuted",
    "C58_recovery_refuted",
    "C58_ready_again_refuted",
    "C58_supervision_refuted",
    "C58_reestablish_refuted"
   ],
   "note": "Proved for the mode without LAPD_F_RTS, after an establishment without loss: order and completeness under any losses, what is acknowledged has been delivered, window and timer, no false errors; without losses everything gets through in finitely many arrivals; the number of repetitions before giving up. Four stronger expectations fail and are refuted by name (over-long messages, recovery after a lost REJ, RR after RNR, re-establishment in the middle of a message)."
  },
  {
   "property": "C59",
   "status": "proved",
   "theorems": [
    "C59_transmit",
    "C59_receive",
    "C59_receive_64k",
    "C59_configure",
    "C59_end_to_end",
    "C59_delete",
    "C59_callback",
    "C59_add",
    "C59_overlap_refuted",
    "C59_offset_refuted",
    "C59_granularity_refuted"
   ],
   "note": "The call-backs are modelled as not reconfiguring the timeslot; in_cb_queue_empty enqueues for its own sub-channel. Overlapping places and places beyond the octet are accepted by the code and refuted by name."
  },
  {
   "property": "C60",
   "status": "proved",
   "theorems": [
    "C60_counts",
    "C60_rounding",
    "C60_timer",
    "C60_handled",
    "C60_one_usec_refuted",
    "C60_total_refuted"
   ],
   "note": "Proved for a configuration without T timers (T_defs NULL), up to 2^61 us of clock and 2147483646 granules. The effect of a change of the T timers is modelled; it loses time and is refuted by name."
  },
  {
   "property": "C61",
   "status": "partial",
   "theorems": [
    "C61_exactly_once",
    "C61_refused",
    "C61_decision",
    "C61_progress",
    "C61_timer",
    "C61_limits",
    "C61_restart_refuted",
    "C61_rate_busy",
    "C61_rate_refuted",
    "C61_order_refuted",
    "C61_stall_refuted",
    "C61_silence_refuted",
    "C61_flush_refuted"
   ],
   "note": "Conservation, queue order, bound, timer and progress proved. The rate limit is proved as long as the bucket has not run empty at a transmission (C61_rate_busy); in general it is false of the code (C61_rate_refuted). The output call-back is modelled as succeeding and not re-entering."
  },
  {
   "property": "C62",
   "status": "proved",
   "theorems": [
    "C62_fcs",
    "C62_fcs_unique",
    "C62_encode",
    "C62_encode_refuses",
    "C62_decode",
    "C62_decode_refuses",
    "C62_roundtrip",
    "C62_reencode",
    "C62_burst_detected",
    "C62_ui_refuted"
   ],
   "note": "UI, TEST and REMAP frames lose their information field in both directions (C62_ui_refuted); the theorems say so by giving information to XID and I+S frames only. Versions 0 and 1 (the code refuses 2)."
  },
  {
   "property": "C63",
   "status": "proved",
   "theorems": [
    "C63_encode",
    "C63_short",
    "C63_decode",
    "C63_csd_decode",
    "C63_roundtrip",
    "C63_reencode",
    "C63_rates",
    "C63_user_to_ir",
    "C63_ir_to_user",
    "C63_bad_rate",
    "C63_end_to_end",
    "C63_other_rate",
    "C63_end_to_end_3k6",
    "C63_dump",
    "C63_dump_refuted"
   ],
   "note": "osmo_v110_ubit_dump reads 80 bits of any shorter input (C63_dump_refuted). Text output of the dumps is modelled as rows of numbers."
  },
  {
   "property": "C64",
   "status": "proved",
   "theorems": [
    "C64_release",
    "C64_ownership",
    "C64_no_abort",
    "C64_abort_refuted",
    "C64_period",
    "C64_sends",
    "C64_only_when_up",
    "C64_deferred_release",
    "C64_waits",
    "C64_delivery",
    "C64_give_up",
    "C64_receive",
    "C64_stale_timer_refuted",
    "C64_unbounded_refuted",
    "C64_est_ind_type_refuted",
    "C64_second_delivery",
    "C64_early_release",
    "C64_abort",
    "C64_fail",
    "C64_unexpected"
   ],
   "note": "Repetition bound and sending only over an established connection are proved for callers that clear the instance when it is idle; without that they are false (C64_stale_timer_refuted, C64_unbounded_refuted). Call-backs do not re-enter the instance."
  },
  {
   "property": "C65",
   "status": "proved",
   "theorems": [
    "C65_total",
    "C65_stream",
    "C65_put",
    "C65_putstr",
    "C65_empty",
    "C65_flush",
    "C65_write",
    "C65_flush_all",
    "C65_flush_all_done",
    "C65_blocked",
    "C65_spin_refuted",
    "C65_storage"
   ],
   "note": "vty/buffer.c except buffer_flush_window; any sequence of calls on a fresh buffer and any answers of the kernel. C65_spin_refuted: a stale errno of EINTR together with a writev taking nothing keeps buffer_flush_all in its loop."
  },
  {
   "property": "C66",
   "status": "partial",
   "theorems": [
    "C66_lat_partial",
    "C66_lat_number_refuted",
    "C66_lat_dec",
    "C66_lat_exact",
    "C66_lat_roundtrip_partial",
    "C66_lat_mono_partial",
    "C66_lat_pole_refuted",
    "C66_lon",
    "C66_lon_dec",
    "C66_lon_exact",
    "C66_lon_roundtrip",
    "C66_lon_mono",
    "C66_lon_clamp",
    "C66_unc",
    "C66_unc_floor",
    "C66_enc",
    "C66_enc_refuse",
    "C66_enc_length_refuted",
    "C66_dec",
    "C66_roundtrip_partial",
    "C66_read",
    "C66_write",
    "C66_read_write"
   ],
   "note": "gad.c without its text functions. The full statement fails at the poles (C66_lat_pole_refuted), for the exact number of TS 23.032 (C66_lat_number_refuted) and for the value returned by osmo_gad_enc (C66_enc_length_refuted); everything else is proved for all inputs."
  },
  {
   "property": "C67",
   "status": "proved",
   "theorems": [
    "C67_filter",
    "C67_filter_exact",
    "C67_filter_only",
    "C67_filter_args",
    "C67_append",
    "C67_append_args",
    "C67_append_count_refuted",
    "C67_child"
   ],
   "note": "exec.c: the two environment functions and their use for the child of osmo_system_nowait2. The count returned by osmo_environment_append is stated as it is (C67_append_count_refuted)."
  },
  {
   "property": "C68",
   "status": "partial",
   "theorems": [
    "C68_digits",
    "C68_write_partial",
    "C68_west_refuted",
    "C68_read_partial",
    "C68_read_behind_refuted",
    "C68_roundtrip_partial",
    "C68_relative",
    "C68_enhanced",
    "C68_absolute",
    "C68_alphabet_partial",
    "C68_alphabet_deletion_refuted"
   ],
   "note": "gsm0411_utils.c without addresses and headers. Reading a time stamp is proved where struct tm has no tm_gmtoff; with it the code reads behind the time stamp (C68_read_behind_refuted). Zones west of Greenwich (C68_west_refuted) and messages marked for automatic deletion (C68_alphabet_deletion_refuted) are not handled by the code."
  },
  {
   "property": "C69",
   "status": "proved",
   "theorems": [
    "C69_registry",
    "C69_quiet",
    "C69_delivery",
    "C69_safe",
    "C69_unregister_itself_refuted",
    "C69_endless_refuted"
   ],
   "note": "signal.c, with handlers that change the registrations while being called. The precondition that a handler does not unregister itself is necessary (C69_unregister_itself_refuted), as is one for the end of a delivery (C69_endless_refuted). Nested deliveries are not modelled."
  },
  {
   "property": "C70",
   "status": "proved",
   "theorems": [
    "C70_feedback",
    "C70_period",
    "C70_words",
    "C70_fill"
   ],
   "note": "prbs.c, all functions; the sequences are infinite, positions without bound."
  },
  {
   "property": "C71",
   "status": "partial",
   "theorems": [
    "C71_accept",
    "C71_any_octets_partial",
    "C71_empty_cause_refuted",
    "C71_roundtrip",
    "C71_no_type"
   ],
   "note": "oap.c. The decoder is characterised for all octets; it reads out of bounds exactly where the octets end in an empty cause (C71_empty_cause_refuted), everything else is proved."
  },
  {
   "property": "C72",
   "status": "proved",
   "theorems": [
    "C72_next",
    "C72_walk",
    "C72_dump"
   ],
   "note": "rxlev_stat.c, all functions, for histories of any length."
  },
  {
   "property": "C73",
   "status": "partial",
   "theorems": [
    "C73_encode",
    "C73_decode",
    "C73_roundtrip",
    "C73_equal",
    "C73_any_octets_partial",
    "C73_cut_refuted"
   ],
   "note": "gsm29205.c, all functions. The decoder is characterised for all octets; it reads behind them exactly where a reference is cut off after at least 13 octets (C73_cut_refuted), everything else is proved."
  },
  {
   "property": "C74",
   "status": "proved",
   "theorems": [
    "C74_new",
    "C74_call",
    "C74_count",
    "C74_active",
    "C74_wrap_refuted"
   ],
   "note": "vector.c without vector_copy and freeing, for histories of fewer than 2^30 calls with slots below 2^30; without such a bound the doubling wraps (C74_wrap_refuted)."
  },
  {
   "property": "C75",
   "status": "proved",
   "theorems": [
    "C75_file",
    "C75_unambiguous"
   ],
   "note": "msgfile.c; the file is given as its lines, opening and getline are not modelled."
  },
  {
   "property": "C76",
   "status": "partial",
   "theorems": [
    "C76_card",
    "C76_token",
    "C76_gsm",
    "C76_refused",
    "C76_resync_partial",
    "C76_resync_refuted"
   ],
   "note": "auth_xor.c and auth_xor_2g.c. Resynchronisation is proved where the challenge the card answered is also that of the new vector; otherwise genuine tokens are refused (C76_resync_refuted). Resynchronisation of GSM subscribers is not modelled."
  },
  {
   "property": "C77",
   "status": "proved",
   "theorems": [
    "C77_channel",
    "C77_any",
    "C77_reorder",
    "C77_check",
    "C77_reset"
   ],
   "note": "hr_sid_class.c, gsm620.c and the reordering of half rate frames. The convolutional code and the parity bits of the channel are not part of this property (see C33)."
  }
 ]
}