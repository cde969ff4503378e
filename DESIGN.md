# Formal model of libosmocore in Rocq (Coq 8.16.1)

## 1. Layout

* `rocq/theories/Base.v` – shared helper library: machine integers as `Z` with
  explicit wrapping, the outcome type (`Ok`, `Err`, `Abort`, `UB`), list-backed memory.
* `rocq/theories/M_*.v` – models. One definition per C function; each carries a comment with
  the file and lines in `/repo` it models and every simplification made.
* `rocq/theories/S_*.v` – small specifications, written without reference to the model.
* `rocq/theories/P_*.v` – proofs (lemmas, invariants).
* `rocq/theories/T_*.v` – property theorems only, each closed by `exact lemma`, each followed by
  `Print Assumptions`, and with `Example`s showing that a concrete, non-trivial case meets the hypotheses.

## 2. Modelling conventions

* A byte is a `Z` in `[0,256)`; unsigned C arithmetic is `Z` arithmetic followed by an explicit `mod 2^n`
  where the C type wraps and the wrap can be reached.
* Memory is a list per buffer. A read or write outside the list is the distinct outcome `UB`, never
  silently defined. A panic (`osmo_panic`, `MSGB_ABORT`, `OSMO_ASSERT`) is `Abort`.
* Callbacks and the environment are function arguments (oracles) over which theorems quantify.
* Loops are structural recursion, folds or fuelled recursion; the fuel is proved sufficient.
* When the natural statement of a property is false of the code, the model stays faithful, the theorem
  proves the exact condition under which the property holds, and a companion theorem `*_refuted` exhibits
  the failing input. Section 5 lists these disagreements.

## 3. Plan per property

| id | modelled | how proved |
|----|----------|------------|
| C01 | msgb put/push/get/pull on a list buffer with indices | refinement to list append/prepend/take over operation lists, invariant by induction |
| C02 | msgb_trim, casts in put/push | exact guard + refutation witness |
| C03 | msgb_copy_resize | equality of projected fields, guard + witness |
| C04 | msgb_resize_area incl. memmove | list slicing lemma |
| C05 | msgb queue over linuxlist | refinement to list queue, induction on history |
| C06 | bits.c loops byte by byte | bit-indexed characterisation by induction on index |
| C07 | flip table, mask swap network | Z.testbit reasoning; table by full enumeration of 256 entries |
| C08, C09 | bitvec.c | bit-indexed frame lemmas, induction on field length |
| C10 | crcXXgen | GF(2) linearity by induction on message; divisibility spec |
| C11 | base64.c | induction on 3-byte groups; safety by loop invariant |
| C12 | write_queue.c with arbitrary write callback results | refinement to FIFO over operation lists |
| C13 | it_q.c as a labelled transition system with threads' program counters | inductive invariant over all schedules |
| C14 | strrb.c with modular uint16 indices | refinement to "last size-1" list |
| C15 | timer.c over an ordered collection, arbitrary callbacks | invariant over pass loop |
| C16 | rbtree.c as zipper-style functional algorithm | Okasaki/Cormen invariants over insert/delete |
| C17 | use_count.c | map refinement |
| C18, C19 | fsm.c state_chg/dispatch, termination over trees | invariants; tree induction |
| C20 | tdef.c | integer arithmetic |
| C21 | soft_uart.c | per-frame simulation, segmentation lemma |
| C22 | sercomm.c | transmitter/receiver simulation |
| C23 | isdnhdlc.c | bit-stuffing simulation |
| C24 | gsm_utils.c septets | bit-indexed characterisation |
| C25–C27 | gsm_utils.c / gsm23003.c | arithmetic; finite tables enumerated completely and lifted |
| C28 | gsm23236.c | set refinement over operation lists |
| C29, C30 | tlv_parser.c | bounds invariant; encode/parse inverse |
| C31 | apn.c | induction on labels |
| C32 | gsm48_arfcn_range_encode.c | tree recursion, decoder from the specification |
| C33 | conv.c | dynamic programming optimality by induction on trellis steps |
| C34 | gsm0503_interleaving.c | index maps, finite permutation enumerated completely, lifted to all contents |
| C35 | utils.c hex | induction |
| C36, C37 | rate_ctr.c, stat_item.c | history induction |
| C38 | bitcomp.c | prefix-freeness of the code table + induction |
| C39 | a5.c | xor algebra |
| C40 | utils.c | digit induction, arithmetic |
| C41 | linuxlist.h over a heap of next/prev pointers | representation invariant, refinement to sequences over operation histories |
| C42 | bitXXgen.h | induction on the number of bytes |
| C43, C44 | gsm0502.c | arithmetic; tables enumerated completely |
| C45, C46 | gsm_utils.c | bit and range arithmetic |
| C47 | gsm23003.c texts and checks | digit induction, printing is injective |
| C48, C49 | tlv_parser.c readers and validation | case analysis on the leading element, induction over definitions |
| C50 | rate_ctr.c registry | invariant over alloc/free histories |
| C51 | utils.c identifiers | induction on the text |
| C52 | kasumi.c, a5.c, gea.c | equality with the published cipher (Feistel structure inverted), loop invariants |
| C53 | gsm48_ie.c frequency list | Annex J program against tree recursion, per format |
| C54 | crc16.c | table entries checked against bit-serial steps, lifted by linearity |
| C55 | ipa.c stream receive, header | invariant: kept octets ++ unread stream = wire image of the frames to come; induction over calls with an oracle for reads |
| C56 | osmo_io.c, osmo_io_poll.c, CBSP segmentation | receive: pending ++ unread = concatenation of the messages to come; transmit: queue invariant over all histories (partial: kernel takes whole messages) |
| C57 | gsm48.c osmo_mobile_identity_* | nibble extensionality on top of the C35 BCD lemmas; inversion of the decoder; relation `carries` for layer 3 messages |
| C58 | lapd_core.c (without LAPD_F_RTS): init, establishment, I, S, SABM(E) and UA frames, T200, T203, segmentation, reassembly; two ends joined by lossy channels | absolute sequence numbers; sender invariant (history, window), monotone channel predicates, one invariant per direction preserved by every event; for runs without losses a sharper invariant (nothing is ever repeated) and a measure that every arrival decreases; induction over the number of T200 expiries for giving up |
| C59 | i460_mux.c: ts_init, subchan_add/del, mux_enqueue, mux_out with the queue-empty call-back, demux_in (both paths) | octet-level facts by exhaustive evaluation over offsets, rates and octets; induction over octets, sub-channels and calls; queues as one bit string (line) |
| C60 | time_cc.c: set_flag, the timer call-back, counting, reporting, forgetting, scheduling, T timer updates | one invariant over reports and (possibly late) timers; the counter as a closed formula of the flag's history |
| C61 | gprs_bssgp.c: flow control of one BVC or MS (bucket, queue, timer, new limits, flush) | one invariant (queue, depth, timer) over all events; permutation and FIFO equations; the counter as the level of TS 48.018 and a telescoping sum for the rate |
| C62 | rlp.c: encode, decode, FCS with its table | bits in order of transmission as the specification; the table as eight shifts of the reversed register, related to the remainder theorem of C10; closed forms of encoder and decoder |
| C63 | v110.c and gsm44021.c: three frame formats, RA1 for twelve rates, dumps | the layouts drawn as lists of cells and tables 5 and 6 as the specification; the straight-line copies executed on symbolic bits with an arbitrary rest of the buffer |
| C64 | gsm0411_smc.c: the SMC entity, both state tables, its timer and message ownership; call-backs as outputs, not re-entrant | monitors over the visible history as the specification (S_smc); an invariant for a caller that clears the idle instance, all its transitions enumerated (tcase); ownership as a permutation over any history |
| C65 | vty/buffer.c: the chunk queue, all functions except buffer_flush_window; the kernel's answers to write/writev and errno as arguments | the queue seen through buffer_getstr as the specification (S_vbuf); chunk invariant preserved by every call; a run accounts for every octet as taken or held, by induction; progress of the flush loop by the number of octets held |
| C66 | gad.c: latitude, longitude and uncertainty conversions, PDU of a point with uncertainty circle, raw read/write of all shapes; not the texts | TS 23.032's inequalities and lengths as the specification (S_gad); linear integer arithmetic over the divisions; the table by evaluation over its 128 entries |
| C67 | exec.c: str_in_list, osmo_environment_filter, osmo_environment_append and the environment osmo_system_nowait2 builds; not descriptors, user and exec | arrays of pointers as lists, a permitted entry as KEY=VALUE with the key in the list (S_exec); the loops by induction over the environment with the array split at the write position |
| C68 | gsm0411_utils.c: gsm411_bcdify, gsm411_unbcdify, gsm340_gen_scts, gsm340_scts, gsm340_validity_period and its helpers, gsm338_get_sms_alphabet; not addresses, message references and headers | semi-octets, the table of TS 23.040 and the groups of TS 23.038 written down separately (S_smsutil); localtime, mktime and time as arguments; octet cases by computation over all 256 values, lifted with forall_byte; the time stamp for every field value |
| C69 | signal.c: registration, unregistration and dispatch; handlers as arbitrary functions of all calls so far giving the registrations and unregistrations they perform; not handlers that dispatch further signals | entries numbered in the order of registration, so the list is always sorted; one invariant over the delivery loop (called so far = everything of the subsystem in front of the current entry); freed entries are UB |
| C70 | prbs.c: the four generators, osmo_prbs_state_init, osmo_prbs_get_ubit, osmo_prbs_get_ubits | recurrence, period and words of ITU-T O.150 stated on the infinite sequence of delivered bits (S_prbs); the recurrence and the reconstruction of the state from the next bits are computed for every register state and lifted to all positions by induction; the period from the first return of the initial state; filling by induction over the buffer |
| C71 | oap.c: osmo_oap_decode and osmo_oap_encode on top of the TLV functions of C12; the message buffer as the octets put in | elements tag, length, value and what a sequence of them says written down separately (S_oap); the loop of the decoder by induction over the elements (acceptance) and over the octets (everything else) |
| C72 | rxlev_stat.c as 32 buckets of 128 octets over the bit vector model (M_rxlev.v); the history of measurements is the specification (S_rxlev.v) | invariant: a bit is set in a bucket iff the history has that channel at that level; walk by induction on the distance to 1024 |
| C73 | gsm29205.c, all functions (M_gcr.v); octet layout as one list expression (S_gcr.v); message buffer as octets and room | all octets split into those starting with a reference, those in which one is cut off, and the rest; decoder computed on each |
| C74 | vty/vector.c without vector_copy and freeing (M_vector.v); memory does not run out; the specification is a map and the effect of each call on it (S_vector.v) | invariant over any history: slots from the active number on are NULL; doubling by induction on fuel, trimming by induction on the slot |
| C75 | msgfile.c (M_msgfile.v): the line is cut in place, items are offsets into it; opening, getline and memory are not modelled; the specification splits lines at colons (S_msgfile.v) | the loop equals a structural pass over the line; strings read back at the offsets by splitting the line |
| C76 | auth_xor.c, auth_xor_2g.c and osmo_auth_c3 (M_authxor.v), over the load and store helpers of C42; the card as a separate specification (S_authxor.v) | symbolic computation on lists of 16 octets, cancellation of exclusive or |
| C77 | hr_sid_class.c, the tables and functions of gsm620.c and the half rate reordering of gsm0503_coding.c (M_hrsid.v); the code word on the channel as a separate specification (S_hrsid.v) | loop invariants; the masks are matched with the bit order tables as an identity of sums over the 112 bits, valid for all frames |

## 4. Trusted base

* Coq 8.16.1's kernel (including its `vm_compute` reduction machine).
* The faithfulness of the hand-written models to the C text, checked by reading only.
* The platform: two's complement, 8-bit bytes, 32-bit `int`, 64-bit `long`, pointers and `size_t`.
* libc functions (`strtoll`, `printf` family, `sscanf`, `memcpy`, `memmove`, `strlen`, `qsort`) are modelled
  as C11/glibc describe them, for the formats the code uses.
* `Print Assumptions` after every theorem prints "Closed under the global context": no axiom is used, not
  even one of the standard library.

### 4.1 What is modelled

* `M_a5.v` – `src/gsm/a5.c`: `_a5_12_parity`, `_a5_12_majority`, `_a5_12_clock`, `_a5_1_clock`, `_a5_1_get_output`, `_a5_1`, `_a5_2_clock`, `_a5_2_get_output`, `_a5_2`; `include/osmocom/gsm/a5.h`: `osmo_a5_fn_count`
* `M_apn.v` – `src/gsm/apn.c`: `osmo_apn_to_str`, `osmo_apn_from_str`, `osmo_apn_qualify_buf`, `osmo_apn_qualify_from_imsi_buf`
* `M_arfcn.v` – `src/gsm/gsm_utils.c`: `gsm_arfcn2band_rc`, `gsm_arfcn2band`, `gsm_arfcn2freq10`, `gsm_freq102arfcn`, `ms_pwr_ctl_lvl`, `ms_pwr_dbm`, `rxlev2dbm`, `dbm2rxlev`, `gprs_tlli_type`, `gprs_tlli2tmsi`, `gprs_tmsi2tlli`; `include/osmocom/gsm/gsm_utils.h`
* `M_authxor.v` – `src/gsm/auth_xor.c`: `xor`, `xor_gen_vec`, `xor_gen_vec_auts`; `src/gsm/auth_xor_2g.c`: `xor2g_gen_vec`; `src/gsm/auth_core.c`: `osmo_auth_c3`
* `M_base64.v` – `src/core/base64.c`: `osmo_base64_encode`, `osmo_base64_decode`
* `M_bfc.v` – `src/gb/gprs_bssgp.c`: `bssgp_fc_init`, `bssgp_fc_needs_queueing`, `fc_queue_timer_cfg`, `fc_enqueue`, `bssgp_fc_in`, `fc_timer_cb`, `bssgp_rx_fc_bvc`, `bssgp_fc_flush_queue`
* `M_bitgen.v` – `include/osmocom/core/bitXXgen.h.tpl`: `osmo_load{16,32,64}{le,be}_ext`, `osmo_load*be_ext_2`, `osmo_store*_ext`, `osmo_load*`, `osmo_store*`
* `M_bits.v` – `src/core/bits.c`: `osmo_ubit2pbit`, `osmo_nibble_shift_right`, `osmo_nibble_shift_left_unal`, `osmo_ubit2sbit`, `osmo_sbit2ubit`, `osmo_pbit2ubit`, `osmo_ubit2pbit_ext`, `osmo_pbit2ubit_ext`, `osmo_bit_reversal`, `osmo_revbytebits_32`, `osmo_revbytebits_8`, `osmo_revbytebits_buf`
* `M_bitvec.v` – `src/core/bitvec.c`: `bitval2mask`, `bitvec_get_bit_pos`, `bitvec_get_bit_pos_high`, `bitvec_get_nth_set_bit`, `bitvec_set_bit_pos`, `bitvec_set_bit`, `bitvec_get_bit_high`, `bitvec_set_bits`, `bitvec_set_u64`, `bitvec_set_uint`, `bitvec_get_int16_msb`, `bitvec_get_uint`, `bitvec_fill`, `bitvec_spare_padding`, `bitvec_find_bit_pos`, `bitvec_get_bytes`, `bitvec_set_bytes`, `bitvec_alloc`, `bitvec_read_field`, `bitvec_write_field`, `leading_bits`, `bitvec_zero`, `bitvec_rl`, `bitvec_rl_curbit`, `bitvec_shiftl`, `bitvec_add_array`; `include/osmocom/core/bitvec.h`
* `M_conv.v` – `src/core/conv.c`: `osmo_conv_get_input_length`, `osmo_conv_get_output_length`, `osmo_conv_encode_load_state`, `_conv_encode_do_output`, `osmo_conv_encode_raw`, `osmo_conv_encode_flush`, `osmo_conv_encode`, `osmo_conv_decode_reset`, `osmo_conv_decode_init`, `osmo_conv_decode_rewind`, `osmo_conv_decode_scan`, `osmo_conv_decode_flush`, `osmo_conv_decode_get_best_end_state`, `osmo_conv_decode_get_output`, `osmo_conv_decode`; `include/osmocom/core/conv.h`
* `M_crc.v` – `src/core/crcXXgen.c.tpl`: `osmo_crc*gen_compute_bits`, `osmo_crc*gen_check_bits`, `osmo_crc*gen_set_bits`; `src/coding/gsm0503_parity.c`
* `M_crc16.v` – `src/core/crc16.c`: `osmo_crc16`, `osmo_crc16_ccitt`; `include/osmocom/core/crc16.h`: `osmo_crc16_byte`, `osmo_crc16_ccitt_byte`
* `M_exec.v` – `src/core/exec.c`: `str_in_list`, `osmo_environment_filter`, `osmo_environment_append`, `osmo_system_nowait2`
* `M_fsm.v` – `src/core/fsm.c`: `state_chg`, `_osmo_fsm_inst_dispatch`, `osmo_fsm_inst_free`, `_osmo_fsm_inst_term`, `_osmo_fsm_inst_term_children`, `osmo_fsm_inst_alloc`, `osmo_fsm_inst_unlink_parent`, `osmo_fsm_inst_change_parent`, `osmo_fsm_inst_alloc_child`, `fsm_tmr_cb`; `include/osmocom/core/fsm.h`: `osmo_fsm_term_cause_name`; `src/core/timer.c`: `osmo_timers_update`
* `M_gad.v` – `src/gsm/gad.c`: `osmo_gad_enc_lat`, `osmo_gad_dec_lat`, `osmo_gad_enc_lon`, `osmo_gad_dec_lon`, `osmo_gad_dec_unc`, `osmo_gad_enc_unc`, `osmo_gad_enc_ell_point_unc_circle`, `osmo_gad_dec_ell_point_unc_circle`, `osmo_gad_raw_len`, `osmo_gad_raw_write`, `osmo_gad_raw_read`, `osmo_gad_enc`, `osmo_gad_dec`; `include/osmocom/gsm/protocol/gsm_23_032.h`; `include/osmocom/gsm/gad.h`
* `M_gcr.v` – `src/gsm/gsm29205.c`: `osmo_enc_gcr`, `osmo_dec_gcr`, `osmo_gcr_eq`; `include/osmocom/gsm/gsm29205.h`; `include/osmocom/gsm/tlv.h`: `msgb_lv_put`, `lv_put`
* `M_gsmtime.v` – `include/osmocom/gsm/gsm0502.h`: `gsm0502_fncmp`, `gsm0502_get_n_pag_blocks`, `gsm0502_get_ccch_group`, `gsm0502_get_paging_group`; `src/gsm/gsm0502.c`: `fn_remap_tables_build`, `gsm0502_fn_remap`, `gsm0502_hop_seq_gen`, `gsm0502_fn2ccch_block`, `gsm0502_calc_paging_group`; `src/gsm/gsm_utils.c`: `gsm_fn2gsmtime`, `gsm_gsmtime2fn`, `GSM_RFN_THRESHOLD`; `include/osmocom/gsm/gsm_utils.h`: `gsm_fn2rfn`; `include/osmocom/core/utils.h`; `src/gsm/rsl.c`: `rsl_ccch_conf_to_bs_cc_chans`; `src/gsm/gsm48.c`: `gsm48_number_of_paging_subchannels`
* `M_hdlc.v` – `src/core/isdnhdlc.c`: `osmo_isdnhdlc_rcv_init`, `osmo_isdnhdlc_decode`, `check_frame`, `osmo_isdnhdlc_out_init`, `osmo_isdnhdlc_encode`; `include/osmocom/core/isdnhdlc.h`
* `M_hex.v` – `src/core/utils.c`: `osmo_bcd2char`, `osmo_char2bcd`, `osmo_bcd2str`, `osmo_str2bcd`, `osmo_hexparse`, `osmo_hexdump_buf`, `osmo_ubit_dump_buf`
* `M_hrsid.v` – `src/codec/hr_sid_class.c`: `count_ones_under_mask`, `osmo_hr_sid_classify`; `src/codec/gsm620.c`: `osmo_hr_check_sid`, `osmo_hr_sid_reset`; `src/coding/gsm0503_coding.c`: `tch_hr_reassemble`, `tch_hr_disassemble`, `tch_hr_d_to_b`, `tch_hr_b_to_d`
* `M_i460.v` – `src/isdn/i460_mux.c`: `osmo_i460_subchan_count`, `osmo_i460_has_single_64k_schan`, `demux_subchan_append_bit`, `demux_subchan_extract_bits`, `osmo_i460_demux_in`, `osmo_i460_mux_enqueue`, `mux_schan_provide_bit`, `mux_subchan_provide_bits`, `mux_timeslot_provide_bits`, `osmo_i460_mux_out`, `subchan_reset`, `osmo_i460_ts_init`, `find_unused_subchan_idx`, `osmo_i460_subchan_add`, `alloc_bitbuf`, `osmo_i460_subchan_del`; `include/osmocom/isdn/i460_mux.h`
* `M_ident.v` – `src/core/utils.c`: `osmo_separated_identifiers_valid`, `osmo_identifier_valid`, `osmo_identifier_sanitize_buf`
* `M_ilv.v` – `src/coding/gsm0503_interleaving.c`: `every function`; `src/coding/gsm0503_mapping.c`: `every function`; `src/coding/gsm0503_coding.c`
* `M_ilvtab.v` – `src/coding/gsm0503_tables.c`
* `M_iofd.v` – `src/core/osmo_io.c`: `iofd_handle_segmentation`, `iofd_handle_segmented_read`, `iofd_msgb_pending`, `iofd_msgb_pending_or_alloc`, `iofd_txqueue_enqueue`, `iofd_txqueue_enqueue_front`, `iofd_txqueue_dequeue`, `osmo_iofd_write_msgb`, `iofd_handle_send_completion`; `src/core/osmo_io_poll.c`: `iofd_poll_ofd_cb_recvmsg_sendmsg`; `src/gsm/cbsp.c`: `osmo_cbsp_segmentation_cb`
* `M_ipa.v` – `src/gsm/ipa.c`: `ipa_msg_alloc`, `ipa_msg_recv_buffered`, `ipa_msg_recv`, `ipa_prepend_header`; `include/osmocom/gsm/protocol/ipaccess.h`
* `M_itq.v` – `src/core/it_q.c`: `_osmo_it_q_enqueue`, `_osmo_it_q_dequeue`, `osmo_it_q_fd_cb`, `osmo_it_q_flush`
* `M_kasumi.v` – `src/gsm/kasumi.c`: `kasumi_FI`, `kasumi_FO`, `kasumi_FL`, `_kasumi`, `_kasumi_key_expand`, `_kasumi_kgcore`; `src/gsm/auth_core.c`: `osmo_c4`; `src/gsm/a5.c`: `_a5_4`, `_a5_3`, `osmo_a5`; `src/gsm/gea.c`: `gea4`; `include/osmocom/core/bits.h`: `osmo_rol16`
* `M_lapd.v` – `src/isdn/lapd_core.c`: `send_dl_l3`, `send_dl_simple`, `mdl_error`, `lapd_set_mode`, `do_mod`, `lapd_dl_init2`, `lapd_start_t200`, `lapd_dl_newstate`, `lapd_send_rr`, `lapd_send_ua`, `lapd_send_i`, `lapd_dl_flush_hist`, `lapd_acknowledge`, `lapd_data_req`, `lapd_recv_dlsap`, `lapd_est_req`, `lapd_send_resend`, `lapd_t200_cb`, `lapd_t203_cb`, `lapd_rx_s`, `lapd_rx_i`, `lapd_rx_u_sabm`, `lapd_rx_u_ua`, `lapd_ph_data_ind`, `lapd_rx_u`; `include/osmocom/isdn/lapd_core.h`
* `M_llist.v` – `include/osmocom/core/linuxlist.h`: `__llist_add`, `llist_add`, `llist_add_tail`, `__llist_del`, `llist_del`, `llist_del_init`, `llist_move`, `llist_move_tail`, `llist_empty`, `__llist_splice`, `llist_splice_init`, `llist_count`
* `M_mi.v` – `src/gsm/gsm48.c`: `osmo_mobile_identity_decode`, `osmo_mobile_identity_encoded_len`, `osmo_mobile_identity_encode_buf`, `osmo_mobile_identity_decode_from_l3_buf`, `osmo_mobile_identity_cmp`; `include/osmocom/gsm/protocol/gsm_04_08.h`: `gsm48_pdisc_name`, `gsm48_hdr_msg_type_r99`
* `M_msgb.v` – `include/osmocom/core/msgb.h`: `msgb_reserve`, `msgb_alloc_headroom_c`, `msgb_tailroom`, `msgb_headroom`, `msgb_put`, `msgb_get`, `msgb_push`, `msgb_pull`, `msgb_put_u8`, `msgb_put_u16`, `msgb_put_u32`, `msgb_push_u8`, `msgb_push_u16`, `msgb_push_u32`, `msgb_get_u8`, `msgb_get_u16`, `msgb_get_u32`, `msgb_pull_u8`, `msgb_pull_u16`, `msgb_pull_u32`, `msgb_push_tl`, `msgb_pull_to_l3`, `msgb_pull_to_l2`, `msgb_trim`, `msgb_l3trim`, `msgb_test_invariant`; `src/core/msgb.c`: `msgb_alloc_c`, `msgb_reset`, `msgb_copy_resize_c`, `msgb_copy_c`, `msgb_resize_area`
* `M_msgfile.v` – `src/core/msgfile.c`: `handle_line`, `alloc_entry`, `osmo_config_list_parse`; `include/osmocom/core/msgfile.h`
* `M_msgq.v` – `src/core/msgb.c`: `msgb_enqueue`, `msgb_dequeue`; `include/osmocom/core/msgb.h`: `msgb_enqueue_count`, `msgb_dequeue_count`, `msgb_queue_free`
* `M_nri.v` – `src/gsm/gsm23236.c`: `osmo_nri_v_validate`, `nri_v_matches_range`, `nri_range_overlaps_range`, `nri_range_touches`, `nri_range_extend`, `osmo_nri_v_matches_ranges`, `osmo_nri_range_validate`, `osmo_nri_range_overlaps_ranges`, `osmo_nri_v_limit_by_ranges`, `osmo_tmsi_nri_v_get`, `osmo_tmsi_nri_v_set`, `osmo_tmsi_nri_v_limit_by_ranges`, `nri_ranges_add_entry_sorted`, `osmo_nri_ranges_add`, `osmo_nri_ranges_del`, `osmo_nri_ranges_to_str_buf`, `osmo_nri_parse`, `osmo_nri_parse_range`, `osmo_nri_ranges_vty_add`, `osmo_nri_ranges_vty_del`; `include/osmocom/gsm/gsm23236.h`
* `M_num.v` – `src/core/utils.c`: `osmo_luhn`, `osmo_isqrt32`, `osmo_str_to_int64`, `osmo_str_to_int`
* `M_oap.v` – `src/gsm/oap.c`: `osmo_oap_decode`, `osmo_oap_encode`; `include/osmocom/gsm/oap.h`; `include/osmocom/gsm/protocol/gsm_04_08_gprs.h`; `include/osmocom/gsm/tlv.h`: `msgb_tlv_put`
* `M_plmn.v` – `src/gsm/gsm23003.c`: `is_n_digits`, `osmo_imsi_str_valid`, `osmo_msisdn_str_valid`, `osmo_imei_str_valid`, `to_bcd`, `osmo_plmn_to_bcd`, `osmo_plmn_from_bcd`, `osmo_mnc_from_str`, `osmo_mnc_cmp`, `osmo_plmn_cmp`, `osmo_lai_cmp`, `osmo_rai_cmp`, `osmo_cgi_cmp`, `osmo_cgi_ps_cmp`, `osmo_rnc_id_cmp`, `osmo_mme_id_cmp`, `osmo_gummei_cmp`, `osmo_mcc_name_buf`, `osmo_mnc_name_buf`, `osmo_plmn_name_buf`, `osmo_lai_name_buf`, `osmo_rai_name2_buf`, `osmo_cgi_name_buf`, `osmo_cgi_ps_name_buf`, `osmo_rnc_id_name_buf`, `osmo_gummei_name_buf`, `osmo_gen_home_network_domain`, `osmo_parse_home_network_domain`, `osmo_gen_mme_domain`, `osmo_parse_mme_domain`, `osmo_gen_mme_group_domain`; `include/osmocom/gsm/gsm23003.h`
* `M_prbs.v` – `src/core/prbs.c`: `osmo_prbs_state_init`, `osmo_prbs_process_bit`, `osmo_prbs_get_ubit`, `osmo_prbs_get_ubits`; `include/osmocom/core/prbs.h`
* `M_range.v` – `src/gsm/gsm48_arfcn_range_encode.c`: `greatest_power_of_2_lesser_or_equal_to`, `mod`, `osmo_gsm48_range_enc_find_index`, `_range_enc_arfcns`, `osmo_gsm48_range_enc_determine_range`, `osmo_gsm48_range_enc_filter_arfcns`, `write_orig_arfcn`, `write_all_wn`, `osmo_gsm48_range_enc_128`, `osmo_gsm48_range_enc_256`, `osmo_gsm48_range_enc_512`, `osmo_gsm48_range_enc_1024`; `src/gsm/gsm48_ie.c`: `smod`, `gsm48_decode_freq_list`; `include/osmocom/gsm/gsm48_arfcn_range_encode.h`; `include/osmocom/gsm/protocol/gsm_04_08.h`
* `M_rate.v` – `src/core/rate_ctr.c`: `rate_ctrl_group_desc_validate`, `mangle_identifier_ifneeded`, `rate_ctr_group_desc_mangle`, `rate_ctr_get_unused_name_idx`, `rate_ctr_get_group_by_name_idx`, `rate_ctr_group_alloc`, `rate_ctr_group_free`, `rate_ctr_add`, `rate_ctr_difference`, `interval_expired`, `rate_ctr_group_intv`, `rate_ctr_timer_cb`, `rate_ctr_reset`, `rate_ctr_group_get_ctr`, `rate_ctr_group_reset`, `rate_ctr_get_by_name`; `include/osmocom/core/rate_ctr.h`
* `M_rbtree.v` – `src/core/rbtree.c`: `__rb_rotate_left`, `__rb_rotate_right`, `rb_insert_color`, `__rb_erase_color`, `rb_erase`, `rb_last`, `rb_prev`, `rb_first`, `rb_next`, `rb_replace_node`; `include/osmocom/core/linuxrbtree.h`: `rb_set_parent`, `rb_set_color`, `rb_link_node`; `src/core/timer.c`: `__add_timer`
* `M_rlp.v` – `src/gsm/rlp.c`: `osmo_rlp_fcs_compute`, `osmo_rlp_decode`, `osmo_rlp_encode`; `include/osmocom/gsm/rlp.h`
* `M_rxlev.v` – `src/gsm/rxlev_stat.c`: `rxlev_stat_reset`, `rxlev_stat_input`, `rxlev_stat_get_next`, `rxlev_stat_dump`; `include/osmocom/gsm/rxlev_stat.h`
* `M_sept.v` – `src/gsm/gsm_utils.c`: `gsm_septet_lookup`, `gsm_get_octet_len`, `gsm_7bit_decode_n_hdr`, `gsm_7bit_decode_n`, `gsm_7bit_decode_n_ussd`, `gsm_septet_encode`, `gsm_septet_pack`, `gsm_septets2octets`, `gsm_7bit_encode_n`, `gsm_7bit_encode_n_ussd`
* `M_sercomm.v` – `src/core/sercomm.c`: `osmo_sercomm_init`, `osmo_sercomm_sendmsg`, `osmo_sercomm_tx_queue_depth`, `osmo_sercomm_drv_pull`, `dispatch_rx_msg`, `osmo_sercomm_drv_rx_char`; `include/osmocom/core/sercomm.h`: `osmo_sercomm_alloc_msgb`
* `M_signal.v` – `src/core/signal.c`: `osmo_signal_register_handler`, `osmo_signal_unregister_handler`, `osmo_signal_dispatch`; `include/osmocom/core/linuxlist.h`
* `M_smc.v` – `src/gsm/gsm0411_smc.c`: `gsm411_smc_init`, `gsm411_mmsms_cp_ack`, `gsm411_smc_clear`, `gsm411_tx_cp_error`, `gsm411_mnsms_est_req`, `gsm411_mmsms_send_msg`, `gsm411_mmsms_est_cnf`, `cp_timer_expired`, `gsm411_mmsms_cp_data`, `gsm411_mnsms_data_req`, `gsm411_mnsms_rel_req`, `gsm411_mmsms_cp_error`, `gsm411_mmsms_rel_ind`, `gsm411_mnsms_abort_req`, `gsm411_smc_send`, `gsm411_smc_recv`; `include/osmocom/gsm/protocol/gsm_04_11.h`; `include/osmocom/gsm/gsm0411_smc.h`; `src/gsm/gsm0411_utils.c`: `gsm411_msgb_alloc`; `include/osmocom/gsm/protocol/gsm_04_08.h`; `src/core/timer.c`
* `M_smsutil.v` – `src/gsm/gsm0411_utils.c`: `gsm411_bcdify`, `gsm411_unbcdify`, `gsm340_gen_scts`, `gsm340_scts`, `gsm340_vp_default`, `gsm340_vp_relative`, `gsm340_vp_absolute`, `gsm340_vp_relative_integer`, `gsm340_vp_relative_semioctet`, `gsm340_validity_period`, `gsm338_get_sms_alphabet`; `include/osmocom/gsm/protocol/gsm_04_11.h`
* `M_stat.v` – `src/core/stat_item.c`: `osmo_stat_item_group_alloc`, `osmo_stat_item_set`, `osmo_stat_item_inc`, `osmo_stat_item_dec`, `osmo_stat_item_flush`, `osmo_stat_item_reset`; `src/core/stat_item_internal.h`
* `M_strrb.v` – `src/core/strrb.c`: `osmo_strrb_create`, `_osmo_strrb_is_bufindex_valid`, `osmo_strrb_get_nth`, `osmo_strrb_elements`, `osmo_strrb_add`; `include/osmocom/core/strrb.h`
* `M_suart.v` – `src/core/soft_uart.c`: `osmo_soft_uart_flush_rx`, `suart_rx_ch`, `suart_rx_bit`, `osmo_soft_uart_rx_ubits`, `suart_tx_bit`, `suart_tx_pending`, `osmo_soft_uart_tx_ubits`, `osmo_soft_uart_configure`, `osmo_soft_uart_set_rx`, `osmo_soft_uart_set_tx`, `osmo_soft_uart_alloc`; `include/osmocom/core/soft_uart.h`
* `M_t4.v` – `src/core/bitcomp.c`: `t4_rle`, `osmo_t4_encode`
* `M_tdef.v` – `src/core/tdef.c`: `osmo_tdef_factor`, `osmo_tdef_round`, `osmo_tdef_get_entry`, `osmo_tdef_val_in_range`, `osmo_tdefs_reset`, `osmo_tdef_get`, `osmo_tdef_set`, `osmo_tdef_get_state_timeout`, `_osmo_tdef_fsm_inst_state_chg`; `include/osmocom/core/tdef.h`: `osmo_tdef_unit_name`; `src/core/fsm.c`: `state_chg`
* `M_timecc.v` – `src/core/time_cc.c`: `osmo_time_cc_forget_sum`, `osmo_time_cc_update_from_tdef`, `osmo_time_cc_schedule_timer`, `osmo_time_cc_cleanup`, `osmo_time_cc_start`, `osmo_time_cc_count_time`, `osmo_time_cc_report`, `osmo_time_cc_init`, `osmo_time_cc_set_flag`, `osmo_time_cc_timer_cb`; `include/osmocom/core/time_cc.h`
* `M_timer.v` – `src/core/timer.c`: `osmo_timer_del`, `osmo_timer_add`, `osmo_timer_schedule`, `osmo_timer_pending`, `osmo_timer_remaining`, `osmo_timers_update`, `update_nearest`, `osmo_timers_prepare`, `osmo_timers_nearest_ms`, `osmo_timers_check`; `include/osmocom/core/timer_compat.h`; `include/osmocom/core/timer.h`
* `M_tlv.v` – `src/gsm/tlv_parser.c`: `tlv_parse_one`, `tlv_parse2`, `tlv_parse`, `tlv_encode_one`, `tlv_encode_ordered`, `tlv_encode`, `tlv_def_patch`, `osmo_shift_v_fixed`, `osmo_match_shift_tv_fixed`, `osmo_shift_tlv`, `osmo_match_shift_tlv`, `osmo_shift_lv`, `osmo_tlv_prot_validate_tp`, `osmo_tlv_prot_parse`, `osmo_tlvp_copy`, `osmo_tlvp_merge`; `include/osmocom/gsm/tlv.h`: `TVLV_GROSS_LEN`, `VTVLV_GAN_GROSS_LEN`, `vt_gan_put`, `tlv_put`, `tl16v_put`, `tvlv_put`, `vtvlv_gan_put`, `msgb_tl16v_put`, `msgb_tvlv_put`, `msgb_vtvlv_gan_put`, `v_put`, `tv_put`, `tv_fixed_put`, `msgb_tlv_put`, `msgb_tv_put`, `msgb_tv_fixed_put`, `msgb_v_put`, `tvl_put`, `msgb_tvl_put`
* `M_use.v` – `src/core/use_count.c`: `count_safe`, `osmo_use_count_total`, `osmo_use_count_find`, `osmo_use_count_by`, `osmo_use_count_repurpose_zero_entry`, `_osmo_use_count_get_put`, `osmo_use_count_free`, `osmo_use_count_make_static_entries`; `include/osmocom/core/use_count.h`
* `M_v110.v` – `src/isdn/v110.c`: `osmo_v110_decode_frame`, `osmo_v110_encode_frame`, `osmo_v110_ubit_dump`, `v110_adapt_600_to_IR8000`, `v110_adapt_IR8000_to_600`, `v110_adapt_1200_to_IR8000`, `v110_adapt_IR8000_to_1200`, `v110_adapt_2400_to_IR8000`, `v110_adapt_IR8000_to_2400`, `v110_adapt_Nx3600_to_IR`, `v110_adapt_IR_to_Nx3600`, `v110_adapt_Nx4800_to_IR`, `v110_adapt_IR_to_Nx4800`, `v110_adapt_Nx12000_to_IR`, `v110_adapt_IR_to_Nx12000`, `osmo_v110_sync_ra1_get_user_data_chunk_bitlen`, `osmo_v110_sync_ra1_get_user_data_rate`, `osmo_v110_sync_ra1_get_intermediate_rate`, `osmo_v110_sync_ra1_user_to_ir`, `osmo_v110_sync_ra1_ir_to_user`; `src/gsm/gsm44021.c`: `osmo_csd_12k_6k_decode_frame`, `osmo_csd_12k_6k_encode_frame`, `osmo_csd_3k6_decode_frame`, `osmo_csd_3k6_encode_frame`, `osmo_csd_ubit_dump`; `include/osmocom/isdn/v110.h`
* `M_vbuf.v` – 
* `M_vector.v` – 
* `M_wqueue.v` – `src/core/write_queue.c`: `osmo_wqueue_init`, `osmo_wqueue_enqueue_quiet`, `osmo_wqueue_enqueue`, `osmo_wqueue_clear`, `osmo_wqueue_set_maxlen`, `osmo_wqueue_bfd_cb`; `include/osmocom/core/write_queue.h`; `include/osmocom/core/select.h`

The list is derived from the file and line citations in the models; macros and
tables are cited by line in the comment of each definition. Where one model function stands for a family of macro-generated functions
(`bitXXgen.h`, `crcXXgen.c`) the width is a parameter.

### 4.2 What is not modelled


* Everything in `/repo` that 4.1 does not name, in particular: VTY, control interface, logging, sockets and
  select loop, Gb/NS/BSSGP, LAPDm, GSUP, the IPA CCM protocol, SIM, GSMTAP, MILENAGE, COMP128, speech codecs and the channel
  coding functions above interleaving/mapping/parity/convolution.
* Memory allocation failure, talloc hierarchies and hardware/OS effects, except where a model says otherwise.
* Concurrency, except the inter-thread queue (C13), whose interleavings are modelled.
* Data races, signals and reentrancy from other threads.

## 5. Disagreements between natural statement and code

Each is a fact about the code found while proving. Those with a theorem are named.

* **msgb**: `msgb_trim` ignores headroom (C02_trim_refuted); put/push with a length of 2^31 or more pass the room
  check; `msgb_resize_area` may grow past the buffer (C04_grow_refuted).
* **bits**: unpacking zero bits writes one octet group (C06_pbit2ubit_zero_refuted); C06_nibble_single_refuted.
* **bitvec**: `bitvec_shiftl` leaves an octet unshifted (C08_shiftl_refuted); run length beyond `cur_bit`
  (C08_run_length_refuted); field lengths above the type's width (C08_write_field_256_refuted,
  C08_read_field_wrap_refuted, C08_get_uint_33_refuted); 32-bit size wrap of set/get bytes (C09_wrap_refuted).
* **crcXXgen**: the 32/64-bit variants with a full-width code shift by the width (C10_full_width_refuted).
* **base64**: decoding the empty text leaves `*olen` unset (C11_empty_olen_refuted).
* **write queue**: one over `max_length` when the callback enqueues and returns -EAGAIN (C12_maxlen_refuted).
* **it_q**: unbounded with `max_length` = UINT_MAX (C13_unbounded_max_refuted).
* **strrb**: `get_nth` beyond the count returns old strings after wrapping (C14_beyond_refuted).
* **timer**: `osmo_timers_nearest_ms` wraps beyond 24.8 days (C15_nearest_ms_wraps_refuted); unnormalised
  microseconds break the order; nested `osmo_timers_update` is not modelled.
* **use_count**: total of mixed signs clamps entry by entry (C17_total_mixed_refuted); NULL token with static entries
  (C17_null_token_refuted).
* **fsm**: state change within onleave (C18_nested_leave_refuted); timeout truncated instead of clamped
  (C18_timeout_clamp_refuted); termination within callbacks (C19_sibling_survives_refuted,
  C19_term_children_refuted, C19_term_in_leave_refuted, C19_reparent_event_refuted).
* **tdef**: the CUSTOM unit is treated as seconds in `osmo_tdef_fsm_inst_state_chg`.
* **soft_uart**: more than 255 data and stop bits, enlarging the buffer, buffers of 65536 and more, flush in the middle
  of a character (C21_*_refuted).
* **sercomm**: DLCI 0, 0x7D and 0x7E are escaped but not unescaped (C22_dlci0_refuted); DLCI 129 and above index past
  the queues.
* **isdnhdlc**: tail of a too long frame returned as good (C23_long_refuted); first call writes two octets into a buffer
  of one (C23_first_call_refuted); endless loop on a one-octet frame (C23_one_octet_refuted); aborted frame accepted
  (C23_abort_refuted).
* **7-bit text**: wrong table entries, shift by padding above 7, header longer than the data, USSD strips a legitimate CR
  (C24_*_refuted).
* **arfcn / time**: C25_uplink_flag_refuted, C25_band_refuted, C26_rfn_nearest_refuted, C26_fncmp_antisym_refuted (exactly
  half a hyperframe), C26_mod_flr_refuted, C43_hop_preconditions_refuted, C46_dbm_overflow_refuted.
* **gsm23003**: BCD of values above 999 (C27_injective_beyond_999_refuted); domain parser accepts garbage and loses the MNC
  length (C47_*_refuted); home network domain needs 34 octets, not the documented 33.
* **NRI**: division by zero without any value (C28_limit_nothing_refuted); printed ranges are ambiguous
  (C28_text_identifies_ranges_refuted); bit lengths of 16 and more.
* **TLV**: C29_lv_overread_refuted, C29_same_lv_refuted, C29_long_tlv_refuted, C29_no_type_refuted, C29_old_half_refuted,
  C29_gan_tag_refuted, C29_tvl_put_refuted, C30_copy_refuted, C30_merge_refuted.
* **APN**: C31_long_label_refuted, C31_qualify_exact_fit_refuted; a buffer of length 0 is written.
* **IPA**: `ipa_msg_recv` (no place to keep a partial message) loses a message that arrives in two pieces: C55_unbuffered_refuted.
* **osmo_io**: after a partial write `iofd_handle_send_completion` reduces iov_len but does not advance iov_base, so the peer gets the start of the message again and never its end (C56_partial_write_refuted); a failing read (EAGAIN, EINTR) while part of a message is pending hands this part to read_cb and loses it (C56_spurious_refuted); a segmentation call-back that returns 0 is called for ever (C56_zero_length_refuted).
* **BSSGP flow control**: a PDU sent when the bucket has run empty is not counted (TS 48.018 sets the bucket to its length), so a full bucket may pass every 10 ms whatever the rate (C61_rate_refuted); a PDU that fits overtakes queued ones (C61_order_refuted); rates below 100 octets/s never leak (C61_stall_refuted); the leak wraps at 2^32 (C61_silence_refuted); bssgp_fc_flush_queue does not reset queue_depth (C61_flush_refuted); each PDU queued restarts the timer, which puts off the head (C61_restart_refuted).
* **bitvec**: bitvec_rl_curbit leaves the current bit one short of the end of the run when the bits run out inside the octet in which it started, and may report more bits than max_bits (C08_run_length_curbit_refuted).
* **soft_uart**: characters received correctly are handed over with the error flag of a later, unfinished character when the buffer is flushed at that moment (C21_flag_refuted).
* **TLV**: the pointer returned by vtvlv_gan_put is not behind the element (C29_gan_put_refuted).
* **RLP** (C62_ui_refuted): TS 24.022 gives UI and TEST frames an information field; osmo_rlp_encode leaves it out and
  osmo_rlp_decode reports none, both without an error (only XID and I+S frames carry information).
* **V.110** (C63_dump_refuted): osmo_v110_ubit_dump prints "short input data" for less than 80 bits and then reads 80 bits
  all the same, past the end of every shorter input.
* **gsm411_smc**: CP-ERROR, MMSMS-REL-IND, an abort and an unexpected message leave the acknowledgement timer running; without gsm411_smc_clear it sends the next message before its connection is confirmed (C64_stale_timer_refuted). CP-DATA received while an acknowledgement is awaited makes the instance idle with message and timer kept, and each timeout then starts the count anew: unbounded repetition (C64_unbounded_refuted). MMSMS-EST-IND is taken for CP-DATA whatever its type (C64_est_ind_type_refuted). A message of more than 896 octets is accepted and aborts the program when it is sent (C64_abort_refuted).
* **buffer_flush_all** compares errno with EINTR also after a writev that succeeded: with errno left at EINTR by an earlier call and a writev that takes nothing it never returns (C65_spin_refuted).
* **osmo_gad_enc_lat** codes 90 degrees North and South (and everything beyond) as 0 with the sign: the poles decode to the equator, and osmo_gad_enc accepts them (C66_lat_pole_refuted). Its rounding gives the number of TS 23.032 for up to one micro degree more (C66_lat_number_refuted). **osmo_gad_enc** returns the size of a pointer instead of the number of octets (C66_enc_length_refuted).
* **osmo_environment_append** called without entries to append returns the number of entries without the null pointer, otherwise with it (C67_append_count_refuted).
* **gsm0411_utils.c**: where struct tm has tm_gmtoff (glibc), gsm340_scts takes the zone twice, the second time from the octet behind the seven of the time stamp (C68_read_behind_refuted); a zone west of Greenwich is written and read without the sign of TS 23.040 (C68_west_refuted); the alphabet of messages marked for automatic deletion is reported as unknown (C68_alphabet_deletion_refuted).
* **signal.c**: a handler that unregisters itself while being called makes the delivery go on from a freed entry (C69_unregister_itself_refuted); one that registers another each time keeps it going for ever (C69_endless_refuted).
* **oap.c**: a cause of length zero is not refused; the octet behind it is read, out of bounds at the end of a message (C71_empty_cause_refuted).
* **osmo_dec_gcr** (C73_cut_refuted): the decoder checks for 13 octets, which suffices for a network of 3 octets only. With a network of 4 or 5 octets and an element of 13 (or 14) octets it copies up to two octets from behind the element. Exactly the references cut off after at least 13 octets are affected.
* **vector_ensure** (C74_wrap_refuted): the number of slots is doubled as an unsigned int; from 2^31 slots on it wraps to 0, less memory is allocated than before and the clearing writes outside it.
* **xor_gen_vec_auts** (C76_resync_refuted): the challenge the card answered (rand_auts) is never used; the token is checked against the challenge for the new vector instead. A genuine token is refused unless both are the same. (The Milenage implementation uses rand_auts.)
* **time_cc**: with a granularity of 1 us and the default threshold the counter is one ahead (C60_one_usec_refuted); when a T timer changes the granularity while the flag is true, the time since the last update is lost, also from total_sum (C60_total_refuted).
* **I.460**: overlapping sub-channels are accepted and corrupt each other (C59_overlap_refuted); so is a bit offset that takes a sub-channel beyond the octet (C59_offset_refuted); with one 64k sub-channel the call-back ignores num_bits (C59_granularity_refuted).
* **LAPD**: a message longer than the peer's reassembly limit is delivered with its middle missing instead of being refused (C58_too_long_refuted); one lost REJ F=1 makes the link fail, because a poll is not answered in the sequence error condition (C58_recovery_refuted); RR does not end the peer busy condition (C58_ready_again_refuted); an incomplete message survives re-establishment and is prepended to the next (C58_reestablish_refuted); a REJ that acknowledges the last outstanding frame leaves neither T200 nor T203 running (C58_supervision_refuted).
* **Mobile Identity**: after an error osmo_mobile_identity_decode() leaves tmsi = 0, the documentation says GSM_RESERVED_TMSI (C57_reserved_tmsi_refuted).
* **range encoding**: C32_range1024_refuted; C53_empty_refuted; SI2quater's own range helper (not modelled) never reports F0.
* **conv**: the tail-biting end state search traces states before checking their error.
* **hex, numbers**: C35_str2bcd_overflow_refuted; `osmo_luhn` overflows for strings above about 26 million digits.
* **rate_ctr, stat_item**: C50_mangled_refuted, C50_wrap_refuted, C37_wrap_refuted; inc/dec overflow.
* **T.4**: C38_roundtrip_refuted, C38_long_run_refuted.
* **ciphers**: GEA bit count wraps at 8192 octets (C52_gea_wrap_refuted); A5/4 reads an uninitialised octet without effect.
* **identifiers**: control and 8-bit characters survive sanitizing (C51_sanitize_refuted).

## 6. Axioms per theorem

Every theorem in `T_*.v` is followed by `Print Assumptions`. All of them print "Closed under the global context".
No file uses `Axiom`, `Parameter`, `Admitted`, `admit`, functors, module types, or switches off a kernel check.
Theorem names per property are in `MANIFEST.json`.

## 7. Reading the log of seeded edits

`seeded/LOG.jsonl` records edits of the model made in a scratch copy. Most were generated and run by a script: each
lemma whose proof no longer goes through is skipped, and `theorems_failed` lists the property theorems that rest on a
skipped lemma. This has two limits.
* A theorem is listed when its proof script broke. That its statement is false of the edited model was not established
  separately, except where the note says so. `C56_idle`, for one, broke on an edit of which it still holds.
* An edit that breaks some script is therefore not proof that the theorems are strong enough to exclude it. An edit that
  breaks none is a survivor, and was either tightened against or judged equivalent by reading.

Entries whose note says "shown false ... by a concrete counterexample" are stronger: there, an instance of the named
theorem's statement was proved false of the edited model, and the same text does not prove of the unedited one.
