{"id": "C01", "title": "msgb behaves as a bounded byte deque", "statement": "For any msgb and any sequence of put/push/get/pull (and their u8/u16/u32 forms), the byte string between data and tail evolves exactly like an abstract byte sequence to which bytes are appended/prepended/removed at the ends; bytes already in the message are never altered; a call that does not fit (put beyond tailroom, push beyond headroom, get/pull beyond length) panics instead of returning; len always equals tail-data and headroom+len+tailroom always equals the allocated size.", "quantifier": "every msgb size, every headroom, every operation sequence, every operand length below 2^31", "why_tests_cant": "the property is over all operation histories and all buffer sizes; tests exercise a handful of sequences", "anchors": ["include/osmocom/core/msgb.h: msgb_put, msgb_push, msgb_get, msgb_pull, msgb_put_u8/u16/u32, msgb_reserve, msgb_test_invariant", "src/core/msgb.c: msgb_alloc_c"]}
{"id": "C02", "title": "msgb_trim / length-cast guards", "statement": "msgb_trim(len) leaves the first min(len,oldlen) data bytes unchanged and keeps the message inside its allocation exactly when headroom+len <= data_len; the code's own check (len <= data_len) admits calls that leave tail beyond the end of the buffer, and msgb_put/msgb_push with a length >= 2^31 pass the room check.", "quantifier": "every msgb state satisfying the invariant and every requested length", "why_tests_cant": "the failing inputs are a thin slice (nonzero headroom and len > data_len - headroom) of all states x lengths", "anchors": ["include/osmocom/core/msgb.h: msgb_trim, msgb_put, msgb_push, msgb_l3trim"]}
{"id": "C03", "title": "msgb_copy / msgb_copy_resize", "statement": "A successful msgb_copy yields a distinct buffer with equal size, equal data bytes, equal headroom and equal layer-pointer offsets and leaves the source unchanged; msgb_copy_resize to new_len is inside the new buffer exactly when headroom+len <= new_len, and returns NULL iff new_len < len.", "quantifier": "every valid msgb and every new length", "why_tests_cant": "quantifies over all buffers and lengths, including ones where only the headroom makes it overflow", "anchors": ["src/core/msgb.c: msgb_copy_resize_c, msgb_copy_c"]}
{"id": "C04", "title": "msgb_resize_area", "statement": "For an area inside [data,tail], a successful resize keeps all bytes before the area and all bytes after it (shifted by the size change), keeps min(old,new) leading area bytes, and the new length is len+new-old; layer pointers at or after the area end move by the same delta and others stay; areas not contained in the message panic.", "quantifier": "every valid msgb, every contained area, every new size that fits", "why_tests_cant": "all positions and sizes", "anchors": ["src/core/msgb.c: msgb_resize_area"]}
{"id": "C05", "title": "msgb queue FIFO with counter", "statement": "For any interleaving of msgb_enqueue_count and msgb_dequeue_count, messages come out in the order they went in, each exactly once, dequeue on empty returns NULL, and the counter equals the number of queued messages (mod 2^32).", "quantifier": "every operation sequence", "why_tests_cant": "all histories", "anchors": ["src/core/msgb.c: msgb_enqueue, msgb_dequeue", "include/osmocom/core/msgb.h: msgb_enqueue_count, msgb_dequeue_count", "include/osmocom/core/linuxlist.h"]}
{"id": "C06", "title": "packed/unpacked bit conversion round trip", "statement": "osmo_pbit2ubit(osmo_ubit2pbit(x)) = x for every array of 0/1 bits, the packed length is ceil(n/8), trailing pad bits are 0, and bit i of the input is bit 7-(i mod 8) of byte i/8; the _ext variants write only the addressed bits (all other bits of the destination unchanged) in both MSB and LSB order and round-trip.", "quantifier": "every bit string of every length >= 1, every offset, both bit orders", "why_tests_cant": "unbounded lengths and offsets", "anchors": ["src/core/bits.c: osmo_ubit2pbit, osmo_pbit2ubit, osmo_ubit2pbit_ext, osmo_pbit2ubit_ext, osmo_ubit2sbit, osmo_sbit2ubit"]}
{"id": "C07", "title": "bit reversal", "statement": "osmo_revbytebits_8/_32/_buf and osmo_bit_reversal(k) permute bit positions exactly as documented (bit i of each group moves to position i xor k) and are involutions.", "quantifier": "every 32-bit value, every mode 0..31, every byte, every buffer", "why_tests_cant": "2^32 x 32 inputs", "anchors": ["src/core/bits.c: osmo_bit_reversal, osmo_revbytebits_32, osmo_revbytebits_8, osmo_revbytebits_buf, flip_table"]}
{"id": "C08", "title": "bitvec field write/read", "statement": "bitvec_write_field(v,len) followed by bitvec_read_field(len) at the same index returns v mod 2^len; the write changes only the addressed bits and advances the index by len; an out-of-range write fails with a negative code; single-bit get/set obey the same laws, including the 0x2b-relative L/H values.", "quantifier": "every vector, index, value and length <= 64", "why_tests_cant": "all positions and values", "anchors": ["src/core/bitvec.c: bitvec_set_u64, bitvec_set_bit_pos, bitvec_get_bit_pos, bitvec_get_bit_pos_high, bitvec_write_field, bitvec_read_field, bitvec_set_uint, bitvec_get_uint"]}
{"id": "C09", "title": "bitvec byte-run access at arbitrary bit offset", "statement": "bitvec_set_bytes then bitvec_get_bytes at the same (arbitrary, unaligned) bit position returns the bytes; exactly the 8*count addressed bits change; both reject runs that do not fit.", "quantifier": "every vector, offset, byte string", "why_tests_cant": "all alignments and lengths", "anchors": ["src/core/bitvec.c: bitvec_set_bytes, bitvec_get_bytes"]}
{"id": "C10", "title": "CRC generator", "statement": "osmo_crcXXgen_check_bits accepts the bits written by osmo_crcXXgen_set_bits; the CRC register after n bits is the remainder of the message polynomial modulo the generator (so the CRC is affine over GF(2)); with an odd-constant-term generator every single-bit error and every burst error not longer than the code is detected.", "quantifier": "every code (poly, init, remainder, width), every message length and content, every error pattern of the class", "why_tests_cant": "all messages and error positions", "anchors": ["src/core/crcXXgen.c.tpl: osmo_crcXXgen_compute_bits, _check_bits, _set_bits"]}
{"id": "C11", "title": "base64 round trip and buffer safety", "statement": "osmo_base64_decode(osmo_base64_encode(x)) = x for every byte string, with the documented output length and -ENOBUFS exactly when the destination is too small; decode never writes more bytes than it announced/dlen for any input whatsoever.", "quantifier": "every byte string; for safety every input string", "why_tests_cant": "all lengths and contents", "anchors": ["src/core/base64.c: osmo_base64_encode, osmo_base64_decode"]}
{"id": "C12", "title": "osmo_wqueue", "statement": "Messages reach the write callback in enqueue order, never duplicated; a message whose write returns -EAGAIN is retried before any later one; enqueue fails with -ENOSPC exactly when the queue is at max_length; current_length equals the number of queued messages; the write-interest flag is set whenever the queue is non-empty.", "quantifier": "every interleaving of enqueue, select callbacks with any write-callback results, clear and set_maxlen", "why_tests_cant": "all histories and callback results", "anchors": ["src/core/write_queue.c: osmo_wqueue_enqueue_quiet, osmo_wqueue_bfd_cb, osmo_wqueue_clear, osmo_wqueue_set_maxlen"]}
{"id": "C13", "title": "inter-thread queue", "statement": "Under every interleaving of lock-protected enqueue/dequeue/flush and of the eventfd increments and reads, items are delivered FIFO exactly once, the length never exceeds max_length, and whenever items are queued and no enqueue is between its unlock and its eventfd write, the eventfd count is at least the number of queued items (no lost wake-up).", "quantifier": "every schedule of any number of threads", "why_tests_cant": "interleavings", "anchors": ["src/core/it_q.c: _osmo_it_q_enqueue, _osmo_it_q_dequeue, osmo_it_q_flush, osmo_it_q_fd_cb"]}
{"id": "C14", "title": "string ring buffer keeps the last size-1 entries", "statement": "After any sequence of osmo_strrb_add, osmo_strrb_get_nth(i) returns the i-th oldest of the last min(n,size-1) strings added (truncated to 239 bytes), osmo_strrb_elements is that count, and get_nth beyond it returns NULL.", "quantifier": "every size 1..65535, every add sequence", "why_tests_cant": "all histories", "anchors": ["src/core/strrb.c"]}
{"id": "C15", "title": "timer firing", "statement": "osmo_timers_update fires every timer whose timeout is <= now, fires none whose timeout is later, fires each at most once per scheduling, never fires a timer deleted before its turn (including by an earlier callback in the same pass), and a timer re-armed by a callback is not fired in the same pass; within one pass timers fire in reverse order of expiry.", "quantifier": "every set of timers, every callback behaviour (arbitrary add/del/schedule of any timers), every clock value", "why_tests_cant": "all callback interactions", "anchors": ["src/core/timer.c: osmo_timer_add, osmo_timer_del, osmo_timer_schedule, osmo_timers_update, osmo_timers_prepare, osmo_timers_nearest_ms"]}
{"id": "C16", "title": "red-black tree", "statement": "rb_insert_color after linking and rb_erase preserve in-order contents (insert adds / erase removes exactly one node, order of others unchanged) and the red-black balance invariant, so height <= 2*log2(n+1); rb_first/rb_next enumerate the in-order sequence.", "quantifier": "every tree reachable by any sequence of insertions and deletions", "why_tests_cant": "all histories and shapes", "anchors": ["src/core/rbtree.c: rb_insert_color, rb_erase, __rb_erase_color, rb_first, rb_next"]}
{"id": "C17", "title": "use counting", "statement": "osmo_use_count_get_put changes exactly the count of the given token by the given amount, refuses (-ERANGE, count unchanged) when it would leave int32, and osmo_use_count_by of every other token is unchanged; at most one entry exists per live token.", "quantifier": "every sequence of get/put with any tokens and amounts", "why_tests_cant": "all histories", "anchors": ["src/core/use_count.c: _osmo_use_count_get_put, count_safe, osmo_use_count_total"]}
{"id": "C18", "title": "FSM transitions and dispatch", "statement": "An osmo_fsm instance changes state only along permitted transitions, an event reaches the current state's action only if permitted there (or allstate), a refused transition/event changes nothing; a state change without keep_timer leaves the timer armed exactly when a timeout was given.", "quantifier": "every FSM description, every sequence of dispatch / state_chg calls", "why_tests_cant": "all FSM definitions and event sequences", "anchors": ["src/core/fsm.c: state_chg, _osmo_fsm_inst_dispatch"]}
{"id": "C19", "title": "FSM termination cascade", "statement": "osmo_fsm_inst_term on an instance terminates all its descendants, each exactly once, children before the parent's cleanup, parent event dispatched only when the cause is not PARENT, and no instance is freed while its own termination is running; after termination no events are delivered.", "quantifier": "every instance tree", "why_tests_cant": "all trees", "anchors": ["src/core/fsm.c: _osmo_fsm_inst_term, _osmo_fsm_inst_term_children"]}
{"id": "C20", "title": "timer definition unit conversion", "statement": "osmo_tdef_get in a coarser unit rounds up (never returns a shorter time, less than one unit longer), in a finer unit is exact or clamps to ULONG_MAX, 0 stays 0; osmo_tdef_set stores a value only if in [min,max].", "quantifier": "every value, unit pair and definition", "why_tests_cant": "2^64 values", "anchors": ["src/core/tdef.c: osmo_tdef_round, osmo_tdef_factor, osmo_tdef_get, osmo_tdef_set, osmo_tdef_val_in_range"]}
{"id": "C21", "title": "soft-UART round trip", "statement": "Bits produced by the soft-UART transmitter for any byte sequence, pulled in any segmentation, when fed (in any segmentation) to a receiver with the same configuration yield the same bytes (low num_data_bits) in order without error flags; no byte taken from tx_cb is lost; idle line bits add nothing.", "quantifier": "every configuration accepted by osmo_soft_uart_configure with data+stop bits <= 255, every byte sequence, every segmentation", "why_tests_cant": "all segmentations and data", "anchors": ["src/core/soft_uart.c: suart_rx_bit, suart_tx_bit, osmo_soft_uart_tx_ubits, osmo_soft_uart_rx_ubits"]}
{"id": "C22", "title": "sercomm framing", "statement": "Frames pulled from a sercomm transmitter octet by octet and fed to a receiver are delivered with the same payload and DLCI, in per-queue order with lower DLCIs first; payload octets 7E, 7D and 00 never appear raw between flags. This holds exactly for DLCIs that need no escaping: the address octet 0x00 is escaped by the transmitter but not un-escaped by the receiver.", "quantifier": "every payload, every DLCI, every queue history", "why_tests_cant": "all payloads", "anchors": ["src/core/sercomm.c: osmo_sercomm_drv_pull, osmo_sercomm_drv_rx_char, osmo_sercomm_sendmsg"]}
{"id": "C23", "title": "ISDN HDLC round trip", "statement": "For every frame, osmo_isdnhdlc_encode's output fed to osmo_isdnhdlc_decode yields the frame; six consecutive ones never occur inside a stuffed frame; a frame whose FCS does not match is reported as CRC error.", "quantifier": "every payload of every length", "why_tests_cant": "all contents", "anchors": ["src/core/isdnhdlc.c: osmo_isdnhdlc_encode, osmo_isdnhdlc_decode"]}
{"id": "C24", "title": "GSM 7-bit packing", "statement": "Packing septets into octets and unpacking returns the septets for every septet string; the packed length is ceil(7n/8); encoding then decoding text over the representable alphabet returns the text; gsm_7bit_encode_n never produces more than n octets.", "quantifier": "every septet string/representable text, every limit n", "why_tests_cant": "all strings and alignments", "anchors": ["src/gsm/gsm_utils.c: gsm_septet_pack, gsm_7bit_decode_n_hdr, gsm_septet_encode, gsm_7bit_encode_n, gsm_get_octet_len"]}
{"id": "C25", "title": "ARFCN and frequency maps", "statement": "gsm_freq102arfcn(gsm_arfcn2freq10(a)) = a for every ARFCN in a defined range and both directions; ARFCNs outside yield 0xffff; gsm_arfcn2band_rc classifies consistently.", "quantifier": "every 16-bit ARFCN", "why_tests_cant": "the full 16-bit space and both directions", "anchors": ["src/gsm/gsm_utils.c: gsm_arfcn2freq10, gsm_freq102arfcn, gsm_arfcn2band_rc, gsm_ranges"]}
{"id": "C26", "title": "GSM frame-number arithmetic", "statement": "gsm_gsmtime2fn(gsm_fn2gsmtime(fn)) = fn for every frame number below GSM_MAX_FN; gsm_rfn2fn reconstructs the frame number nearest in the past half window from its residue; results are always below GSM_MAX_FN.", "quantifier": "every frame number and residue", "why_tests_cant": "2715648 x 42432 combinations", "anchors": ["src/gsm/gsm_utils.c: gsm_fn2gsmtime, gsm_gsmtime2fn, gsm_rfn2fn", "include/osmocom/gsm/gsm0502.h"]}
{"id": "C27", "title": "PLMN BCD coding and ordering", "statement": "osmo_plmn_from_bcd(osmo_plmn_to_bcd(p)) = p for every MCC<=999 and valid MNC; osmo_plmn_cmp is a total order whose equality coincides with equality of the represented PLMN.", "quantifier": "every PLMN", "why_tests_cant": "all values and triples for transitivity", "anchors": ["src/gsm/gsm23003.c: osmo_plmn_to_bcd, osmo_plmn_from_bcd, osmo_mnc_cmp, osmo_plmn_cmp"]}
{"id": "C28", "title": "NRI in TMSI and NRI range lists", "statement": "osmo_tmsi_nri_v_set then _get returns the NRI and leaves all other TMSI bits unchanged; osmo_nri_ranges_add/del maintain a sorted list of disjoint non-adjacent ranges whose value set is exactly the union/difference; osmo_nri_v_limit_by_ranges returns a value in the ranges.", "quantifier": "every TMSI, NRI, bit length; every sequence of add/del", "why_tests_cant": "all histories", "anchors": ["src/gsm/gsm23236.c"]}
{"id": "C29", "title": "TLV parsing is memory safe and inverts encoding", "statement": "tlv_parse_one never reads outside the given buffer, returns a consumed length between 1 and buf_len, and parsing the output of the encoder returns the tag, length and value; tlv_parse terminates for every input.", "quantifier": "every buffer, every definition table", "why_tests_cant": "all byte strings", "anchors": ["src/gsm/tlv_parser.c: tlv_parse_one, tlv_parse2, tlv_encode_one", "include/osmocom/gsm/tlv.h"]}
{"id": "C30", "title": "TLV copy and merge", "statement": "A user expects osmo_tlvp_copy to duplicate every present IE and osmo_tlvp_merge to add src's IEs with their lengths; the code does neither: copy never duplicates a value and merge leaves the length of merged IEs stale.", "quantifier": "every parsed TLV set", "why_tests_cant": "holds for every input, not a sample", "anchors": ["src/gsm/tlv_parser.c: osmo_tlvp_copy, osmo_tlvp_merge"]}
{"id": "C31", "title": "APN encoding", "statement": "osmo_apn_to_str(osmo_apn_from_str(s)) = s for every label string with labels <= 255 octets, no writes beyond max_apn_enc_len, failure exactly when it does not fit; osmo_apn_to_str never reads beyond apn_enc_len.", "quantifier": "every string and every encoded buffer", "why_tests_cant": "all strings", "anchors": ["src/gsm/apn.c: osmo_apn_to_str, osmo_apn_from_str"]}
{"id": "C32", "title": "ARFCN range encoding", "statement": "For every frequency list accepted by osmo_gsm48_range_enc_determine_range, the W values produced by the range encoder decode (by the TS 44.018 Annex J decoding rule) to exactly the original set, and the bit packing loses nothing.", "quantifier": "every ARFCN set within the range limits", "why_tests_cant": "combinatorially many sets", "anchors": ["src/gsm/gsm48_arfcn_range_encode.c"]}
{"id": "C33", "title": "convolutional coding", "statement": "The convolutional encoder output length is as announced for every termination mode and puncturing; Viterbi decoding of an error-free codeword returns the original bits with zero accumulated error, and in general returns a codeword at minimum distance.", "quantifier": "every code (next_output/next_state tables), every input", "why_tests_cant": "all inputs", "anchors": ["src/core/conv.c"]}
{"id": "C34", "title": "GSM 05.03 interleavers are permutations", "statement": "Each interleaving function followed by the matching deinterleaver is the identity, and burst mapping followed by unmapping is the identity.", "quantifier": "every bit block", "why_tests_cant": "all contents", "anchors": ["src/coding/gsm0503_interleaving.c", "src/coding/gsm0503_mapping.c"]}
{"id": "C35", "title": "hex string conversion", "statement": "osmo_hexparse(osmo_hexdump(x)) = x; osmo_hexparse never writes more than max_len bytes and rejects odd/invalid digits; dump output is always NUL terminated within the buffer.", "quantifier": "every byte string and every input string", "why_tests_cant": "all strings", "anchors": ["src/core/utils.c: osmo_hexparse, osmo_hexdump_buf, osmo_bcd2char, osmo_char2bcd"]}
{"id": "C36", "title": "rate counters", "statement": "rate_ctr_add accumulates exactly; after any schedule of 1-second ticks, the per-interval rates are the exact differences over the last completed interval.", "quantifier": "every sequence of add and timer ticks", "why_tests_cant": "all histories", "anchors": ["src/core/rate_ctr.c"]}
{"id": "C37", "title": "stat items", "statement": "osmo_stat_item's min/max/sum/n over a reporting period are those of the values set during the period; flush starts the next period at the last value.", "quantifier": "every sequence of set/inc/dec/flush", "why_tests_cant": "all histories", "anchors": ["src/core/stat_item.c"]}
{"id": "C38", "title": "T.4 run-length bitmap compression (EGPRS ACK)", "statement": "For every bit vector for which osmo_t4_encode succeeds, reading its output with the code tables of ITU-T T.4, starting with the colour osmo_t4_encode returns, gives back the bits of the vector.", "quantifier": "every bitmap", "why_tests_cant": "all bitmaps", "anchors": ["src/core/bitcomp.c"]}
{"id": "C39", "title": "A5 keystream application", "statement": "The A5/1 and A5/2 downlink and uplink keystreams depend only on key and frame number; ciphering twice restores the text.", "quantifier": "every key, frame number and burst", "why_tests_cant": "all keys and frames", "anchors": ["src/gsm/a5.c"]}
{"id": "C40", "title": "Luhn checksum and integer helpers", "statement": "osmo_luhn detects every single-digit error and every adjacent transposition other than 09/90; osmo_isqrt32 returns floor(sqrt(x)); osmo_str_to_int accepts exactly in-range integers.", "quantifier": "every digit string; every 32-bit value", "why_tests_cant": "all inputs", "anchors": ["src/core/utils.c: osmo_luhn, osmo_isqrt32, osmo_str_to_int64, osmo_str_to_int"]}
{"id": "C41", "title": "Linked lists stay consistent under every operation history", "statement": "Starting from initialised list heads, after any sequence of llist_add, llist_add_tail, llist_del, llist_move, llist_move_tail and llist_splice_init calls that respects the documented preconditions (an added node is not on a list, a removed or moved node is on one), every list contains exactly the nodes, in exactly the order, that the corresponding operations on plain sequences give. Iterating a list visits exactly these nodes once and terminates, and llist_empty is true exactly for the empty sequence.", "quantifier": "every finite family of lists, every operation history of any length", "why_tests_cant": "Aliasing between neighbouring nodes and lists depends on the complete history; tests visit a handful of shapes.", "anchors": ["include/osmocom/core/linuxlist.h:llist_add", "include/osmocom/core/linuxlist.h:llist_del", "include/osmocom/core/linuxlist.h:llist_splice_init"]}
{"id": "C42", "title": "Unaligned integer load and store", "statement": "For every width w and every n not larger than the width in bytes, osmo_load{16,32,64}{le,be}_ext return the little/big-endian value of the first n bytes (the plain big-endian variant left-aligned, the _2 variant right-aligned), osmo_store*_ext write exactly the low n bytes of the value and touch nothing else, so load after store returns the value modulo 2^(8n). Larger n panics.", "quantifier": "all widths, byte counts, buffers and values", "why_tests_cant": "64-bit value space and buffer contents are not enumerable.", "anchors": ["include/osmocom/core/bit16gen.h", "include/osmocom/core/bit32gen.h", "include/osmocom/core/bit64gen.h"]}
{"id": "C43", "title": "frequency hopping sequence", "statement": "gsm0502_hop_seq_gen returns the channel TS 45.002 section 6.2.3 prescribes and never reads outside the mobile allocation; two users with the same HSN and allocation but different MAIO never share a channel in any frame; cyclic hopping visits every channel once per N frames.", "quantifier": "every frame number, HSN 0..63, MAIO 0..63 and allocation of 1..64 channels", "why_tests_cant": "orthogonality relates two arbitrary users over 2715648 frames times all parameters", "anchors": ["src/gsm/gsm0502.c: gsm0502_hop_seq_gen, rn_table"]}
{"id": "C44", "title": "block boundaries and paging groups", "statement": "gsm0502_fn_remap maps the last frame of every traffic/FACCH block to the first frame of that block (within one repeat length, across hyperframe wrap) and returns any other frame unchanged; gsm0502_fn2ccch_block gives block k exactly on its four frames; paging and CCCH group are those of TS 45.002 6.5.2, in range, and together identify the subscriber slot.", "quantifier": "every frame number and channel type, every IMSI and legal control channel description", "why_tests_cant": "must hold for all frame numbers including the wrap and for all IMSIs", "anchors": ["src/gsm/gsm0502.c: gsm0502_fn_remap, gsm0502_fn2ccch_block, gsm0502_calc_paging_group", "include/osmocom/gsm/gsm0502.h: gsm0502_get_ccch_group, gsm0502_get_paging_group", "src/gsm/gsm48.c: gsm48_number_of_paging_subchannels"]}
{"id": "C45", "title": "TLLI and P-TMSI conversion", "statement": "gprs_tlli_type partitions all 32-bit values by the ranges of TS 23.003; a local or foreign TLLI derived from a P-TMSI has the requested type and converts back to the P-TMSI; other TLLIs are refused.", "quantifier": "every 32-bit TLLI / P-TMSI", "why_tests_cant": "2^32 values", "anchors": ["src/gsm/gsm_utils.c: gprs_tlli_type, gprs_tlli2tmsi, gprs_tmsi2tlli"]}
{"id": "C46", "title": "power level and signal level conversion", "statement": "The power control level chosen for a requested power is within 1 dB of it after limiting to the band's range, every level's power is reproduced by the level chosen for it; RxLev and dBm conversions are inverse and saturate.", "quantifier": "every band, every power and level value", "why_tests_cant": "must hold for every value, including saturation at the ends of the C types", "anchors": ["src/gsm/gsm_utils.c: ms_pwr_ctl_lvl, ms_pwr_dbm, rxlev2dbm, dbm2rxlev"]}
{"id": "C47", "title": "Network identity texts and validity checks", "statement": "The printed names of PLMN, LAI, RAI, CGI, CGI-PS, RNC id and GUMMEI always fit the library's static buffers and print two identities alike exactly when the comparison functions call them equal; osmo_mnc_from_str accepts exactly one- to three-digit strings and inverts osmo_mnc_name; osmo_imsi/msisdn/imei_str_valid accept exactly the digit strings of the documented lengths (with the Luhn digit for IMEI); home network and MME domain texts parse back to the identity they were generated from.", "quantifier": "every structure value (including out-of-range MCC/MNC) and every text", "why_tests_cant": "injectivity is about all pairs and validity about all strings", "anchors": ["src/gsm/gsm23003.c: osmo_plmn_name_buf, osmo_lai_name_buf, osmo_rai_name2_buf, osmo_cgi_name_buf, osmo_cgi_ps_name_buf, osmo_rnc_id_name_buf, osmo_gummei_name_buf, osmo_mnc_from_str, osmo_mnc_name_buf, osmo_imsi_str_valid, osmo_msisdn_str_valid, osmo_imei_str_valid, osmo_gen_home_network_domain, osmo_parse_home_network_domain, osmo_gen_mme_domain, osmo_parse_mme_domain"]}
{"id": "C48", "title": "Sequential TLV readers", "statement": "osmo_shift_v_fixed, osmo_match_shift_tv_fixed, osmo_shift_tlv, osmo_match_shift_tlv and osmo_shift_lv either consume exactly the leading element and return its tag and value, or leave the data untouched (no match), or consume all remaining data and return -1; they do so exactly when the data starts with a complete element, and never read beyond it.", "quantifier": "every octet string, tag and length", "why_tests_cant": "all octet strings and truncation points", "anchors": ["src/gsm/tlv_parser.c: osmo_shift_v_fixed, osmo_match_shift_tv_fixed, osmo_shift_tlv, osmo_match_shift_tlv, osmo_shift_lv"]}
{"id": "C49", "title": "Validation of parsed messages", "statement": "osmo_tlv_prot_parse accepts a message exactly when it is well formed, every mandatory IE is present and the first occurrence of no IE is shorter than its minimum; a missing IE is reported in preference to a short one. tlv_def_patch fills exactly the empty slots.", "quantifier": "every definition, mandatory list, minimum lengths and octet string", "why_tests_cant": "all octet strings and protocol definitions", "anchors": ["src/gsm/tlv_parser.c: osmo_tlv_prot_validate_tp, osmo_tlv_prot_parse, tlv_def_patch"]}
{"id": "C50", "title": "registry of counter groups", "statement": "rate_ctr_group_alloc keeps (group name, index) pairs unique: a free pair is granted as requested, a taken one is replaced by an index above all used ones, and rate_ctr_get_group_by_name_idx finds exactly the group of that name and index; every registered name is a valid identifier.", "quantifier": "every history of group allocations, frees, counter operations and timer ticks", "why_tests_cant": "all histories and all names/indices", "anchors": ["src/core/rate_ctr.c: rate_ctr_group_alloc, rate_ctr_get_unused_name_idx, rate_ctr_get_group_by_name_idx, rate_ctr_group_free"]}
{"id": "C51", "title": "identifier validation and sanitizing", "statement": "osmo_separated_identifiers_valid / osmo_identifier_valid accept exactly the non-empty strings of letters, digits, '-', ':', '@', '_' and given separators; osmo_identifier_sanitize_buf keeps the length, leaves legal characters alone and its result passes osmo_identifier_valid.", "quantifier": "every string, separator set and replacement character", "why_tests_cant": "unbounded set of strings", "anchors": ["src/core/utils.c: osmo_separated_identifiers_valid, osmo_identifier_valid, osmo_identifier_sanitize_buf"]}
{"id": "C52", "title": "KASUMI based ciphers produce the published key stream", "statement": "For every 16-octet key and every 64-bit block the KASUMI implementation returns the value of the published block cipher (a permutation of the blocks for each key); the key stream core writes exactly the octets needed for the requested number of bits and nothing behind them; osmo_a5 with algorithm 4 (3) gives the downlink the first 114 and the uplink the next 114 bits of the stream of that frame, independent of stack contents and of which direction is requested; GEA3/GEA4 fill the requested number of octets with the stream of the given input value and direction; unknown algorithms are refused.", "quantifier": "all keys, blocks, frame numbers, input values, directions, lengths and buffer contents", "why_tests_cant": "2^128 keys times 2^64 blocks; tests compare a handful of published vectors", "anchors": ["src/gsm/kasumi.c:_kasumi", "src/gsm/kasumi.c:_kasumi_key_expand", "src/gsm/kasumi.c:_kasumi_kgcore", "src/gsm/a5.c:osmo_a5", "src/gsm/a5.c:_a5_4", "src/gsm/gea.c:gea3", "src/gsm/gea.c:gea4"]}
{"id": "C53", "title": "Frequency list decoding is the list of TS 44.018", "statement": "gsm48_decode_freq_list, given the octets of a frequency list of any length from 1, marks in the caller's table exactly the ARFCNs listed according to TS 44.018 10.5.2.13 (bit map 0, ranges 1024/512/256/128 with the Annex J program, variable bit map), clears the mark on all others, changes no other bits of the table, never reads an octet outside the list, and returns -EINVAL (with all marks cleared) iff the list is shorter than its format's minimum.", "quantifier": "all octet strings, all table contents, all frqt octets", "why_tests_cant": "The decoder is several hundred hand-written lines of nested modular formulas and length checks; each of the W combinations and each truncation length is a separate path.", "anchors": ["src/gsm/gsm48_ie.c: gsm48_decode_freq_list", "include/osmocom/gsm/protocol/gsm_04_08.h: struct gsm48_range_1024"]}
{"id": "C54", "title": "Table driven CRC-16 and CCITT CRC equal their polynomial definition", "statement": "For every buffer, length and start value, osmo_crc16() and osmo_crc16_ccitt() return the register of the bit-serial CRC with the polynomials x^16+x^15+x^2+1 and x^16+x^12+x^5+1 (least significant bit first); computing in pieces equals computing at once; a message followed by two octets leaves the HDLC residue 0xF0B8 exactly when the octets are its frame check sequence.", "quantifier": "all octet sequences, all 16 bit start values, all splits of the buffer", "why_tests_cant": "Tests compare a few check values; a single wrong table entry or a wrong shift only shows for some inputs of unbounded many.", "anchors": ["src/core/crc16.c: osmo_crc16, osmo_crc16_ccitt, osmo_crc16_table, osmo_crc16_ccitt_table", "include/osmocom/core/crc16.h: osmo_crc16_byte, osmo_crc16_ccitt_byte"]}
{"id": "C55", "title": "IPA messages survive any segmentation of the stream", "statement": "A caller polling a stream socket with ipa_msg_recv_buffered (keeping *tmp_msg between calls) receives exactly the IPA frames with payload written by the peer, in order, unchanged, each with its payload length, for every way the octets are split over reads and every pattern of EAGAIN and EINTR; empty frames are skipped; nothing else is returned; less than one frame is ever kept; a length field beyond the buffer gives -EIO without overrun.", "quantifier": "every sequence of frames of at most 1197 payload octets, every schedule of partial, empty and interrupted reads", "why_tests_cant": "the number of segmentations is exponential in the stream length", "anchors": ["src/gsm/ipa.c: ipa_msg_recv_buffered, ipa_msg_recv, ipa_prepend_header, ipa_msg_alloc"]}
{"id": "C56", "title": "osmo_io: stream messages are delivered whole and in order, queued writes keep their order", "statement": "With a segmentation call-back that recognises every message (as osmo_cbsp_segmentation_cb does for CBSP), the read call-back of an osmo_io descriptor receives exactly the messages of the byte stream, in order and unchanged, for every pattern of how many octets each read finds; less than one message is ever pending and all are delivered once all octets are read. On the transmit side accepted messages are, in order, those reported to the write call-back followed by those still queued; the peer receives exactly the concatenation of the messages reported as written; the queue never exceeds its limit; EAGAIN loses and duplicates nothing; a write is refused exactly for an empty message or a full queue.", "quantifier": "every sequence of recognised messages, every availability pattern, every interleaving of writes and writability events with every kernel result", "why_tests_cant": "the segmentations of a stream and the interleavings of writes, partial writes and errors are unbounded", "anchors": ["src/core/osmo_io.c: iofd_handle_segmentation, iofd_handle_segmented_read, iofd_handle_send_completion, iofd_txqueue_enqueue, iofd_txqueue_enqueue_front, iofd_txqueue_dequeue, osmo_iofd_write_msgb", "src/core/osmo_io_poll.c: iofd_poll_ofd_cb_recvmsg_sendmsg", "src/gsm/cbsp.c: osmo_cbsp_segmentation_cb"]}
{"id": "C57", "title": "Mobile Identity coding is an exact inverse pair, safe on any layer 3 message", "statement": "osmo_mobile_identity_encode_buf() writes exactly the 3GPP TS 24.008 10.5.1.4 coding of an IMSI (6-15 digits), IMEI (14 or 15), IMEISV (16) or TMSI, of the length osmo_mobile_identity_encoded_len() announces, and touches no other octet; osmo_mobile_identity_decode() accepts exactly the octet strings that are such codings and returns the identity coded (so decode after encode is the identity, up to upper case of hexadecimal digits), every other octet string yields a negative code and type NONE. osmo_mobile_identity_decode_from_l3_buf() never reads outside any message and finds exactly the identity carried by Location Updating Request, CM Service and Re-establishment Request, IMSI Detach, Identity Response, Paging Response and Talker Indication. osmo_mobile_identity_cmp() is a total order.", "quantifier": "all identities and digit strings, all octet strings up to 255 octets, all layer 3 messages of any length and content, both allow_hex settings", "why_tests_cant": "tests try some identities and some malformed messages; exactness and memory safety range over all octet strings", "anchors": ["src/gsm/gsm48.c: osmo_mobile_identity_decode, osmo_mobile_identity_encoded_len, osmo_mobile_identity_encode_buf, osmo_mobile_identity_decode_from_l3_buf, osmo_mobile_identity_cmp"]}
{"id": "C58", "title": "LAPD delivers the messages of layer 3 in order, complete and once, over a lossy link", "statement": "Two LAPD data links (lapd_dl_init2 with any window size, sequence number range 2..128, N200, flags; roles network and user) are connected by channels that may lose any frame. After establishment, whatever the interleaving of DL-DATA requests, frame arrivals, losses and T200/T203 expiries, the messages indicated at each end are an initial part of those requested at the other, even when one end finally gives up; an end in the multiple frame state with nothing queued and all acknowledged has had everything delivered; at most k frames are unacknowledged and T200 runs as long as one is; losses never cause a protocol error indication; when no frame is lost and no timer expires, everything requested is delivered after finitely many arrivals, without any error indication; an end that hears nothing repeats its last frame N200 times and then reports it.", "quantifier": "all configurations that fit together, all message sequences up to the reassembly limit, all interleavings of requests (also from within an indication), arrivals, losses and timer expiries, of any length", "why_tests_cant": "tests replay a few frame exchanges; modular sequence numbers and retransmission go wrong only under particular combinations of losses and timeouts", "anchors": ["src/isdn/lapd_core.c: lapd_dl_init2, lapd_ph_data_ind, lapd_rx_i, lapd_rx_s, lapd_rx_u, lapd_acknowledge, lapd_send_i, lapd_t200_cb, lapd_t203_cb, lapd_data_req, lapd_est_req"]}
{"id": "C59", "title": "I.460 multiplexing carries every sub-channel's bits in order, complete and without touching its neighbours", "statement": "For a timeslot configured by osmo_i460_ts_init and up to eight osmo_i460_subchan_add calls with places that fit the octet and do not overlap, and for whatever messages are enqueued on (or supplied on demand by) each sub-channel: osmo_i460_mux_out yields octets whose bits at a sub-channel's positions are exactly its queued bits in order, then what it supplies, then ones; no sub-channel alters another's positions, unused positions are 1 and nothing is lost between calls. osmo_i460_demux_in, however the octets are cut into calls, hands each sub-channel exactly the bits of its positions in order, num_bits per call-back. So a receiver configured with the same rate and offset is given the sender's bits.", "quantifier": "all configurations, message contents, lengths of transmission and ways to cut the received octets into calls", "why_tests_cant": "the test multiplexes fixed patterns in two configurations; interleaving of different rates, queue boundaries and chunk boundaries are unbounded", "anchors": ["src/isdn/i460_mux.c: osmo_i460_ts_init, osmo_i460_subchan_add, osmo_i460_subchan_del, osmo_i460_mux_enqueue, osmo_i460_mux_out, osmo_i460_demux_in"]}
{"id": "C60", "title": "The cumulative time counter reports exactly the time the flag was true, rounded as configured", "statement": "For every configuration of osmo_time_cc and every history of osmo_time_cc_set_flag calls, with the counter's timer handled at any time after it expires: whenever no expired timer waits, the rate counter has been incremented exactly as often as the flag's history is worth - one increment at threshold, threshold + gran, threshold + 2 gran, ... of true time, hence floor, ceiling or rounding to the nearest as documented - and surplus time is forgotten exactly when the flag was false for forget_sum_usec. total_sum is the time for which the flag was true, repeated reports of the same value have no effect, and a timer is armed for the next increment.", "quantifier": "all configurations, all histories of reports at any (non-decreasing) times, all delays of the timer", "why_tests_cant": "the test replays one schedule per configuration with punctual timers; the claim is about the sum over arbitrary histories", "anchors": ["src/core/time_cc.c: osmo_time_cc_init, osmo_time_cc_set_flag, osmo_time_cc_cleanup, osmo_time_cc_timer_cb, osmo_time_cc_report"]}
{"id": "C61", "title": "BSSGP flow control loses, duplicates and reorders no queued PDU, bounds its queue, and keeps to the leak rate", "statement": "For every bucket size, leak rate, queue limit and every sequence of bssgp_fc_in calls, timer expiries and FLOW-CONTROL-BVC updates at any times: each PDU offered is passed to the output call-back at once, queued, or refused (-EIO when larger than the bucket, -ENOSPC when the queue is full) - exactly one of these; queued PDUs are passed on once each in the order they were queued; the queue never exceeds max_queue_depth; while PDUs wait and the rate is not zero, the timer runs, and when enough has leaked its expiry passes the head on. The volume passed on in any period is at most the room in the bucket plus the leak rate times the period.", "quantifier": "all configurations, all sequences of PDUs of any length, all times, all updates of the limits", "why_tests_cant": "the flow-control test feeds a handful of equal PDUs at one rate; conservation, boundedness and the rate limit are claims about every arrival pattern", "anchors": ["src/gb/gprs_bssgp.c: bssgp_fc_in, bssgp_fc_init, bssgp_fc_needs_queueing, fc_enqueue, fc_queue_timer_cfg, fc_timer_cb, bssgp_rx_fc_bvc, bssgp_fc_flush_queue"]}
{"id": "C62", "title": "Radio Link Protocol frames are coded as TS 24.022 draws them, and their check sequence catches every burst of 24 bits", "statement": "osmo_rlp_fcs_compute gives, for every octet string, the frame check sequence of TS 24.022 (complement of the remainder modulo the generator of degree 24, register preset to ones). osmo_rlp_encode puts every frame of a known type that fits into 240 or 576 bits as C/R, S bits, N(S), P/F, N(R), information padded with zeros and FCS, touches nothing behind the frame, and refuses everything else. osmo_rlp_decode reads every octet string of these sizes back, field by field; decoding an encoded frame gives the frame back; encoding a decoded frame gives the octets back exactly when the FCS was right and the bits the decoder ignores were zero. A frame hit by an error burst of at most 24 bits never passes the FCS comparison.", "quantifier": "all frames, all octet strings, all error bursts", "why_tests_cant": "the RLP test decodes and encodes a few literal frames; error detection and the round trips are claims about every frame and every burst", "anchors": ["src/gsm/rlp.c: osmo_rlp_decode, osmo_rlp_encode, osmo_rlp_fcs_compute, rlp_fcs_table", "include/osmocom/gsm/rlp.h: struct osmo_rlp_frame_decoded"]}
{"id": "C63", "title": "V.110 frames and rate adaptation carry user bits unchanged", "statement": "osmo_v110_encode_frame and the two osmo_csd_*_encode_frame functions put every decoded frame into 80, 60 or 36 bits exactly as V.110 and TS 44.021 draw it, touching nothing behind; the decoders store every bit under its name and leave alone what the frame does not carry; encode and decode undo each other (80 bit frames exactly if the synchronisation pattern was right). The synchronous rate adaptation fills E1..E3 and D1..D48 as Tables 5 and 6 of V.110 say, refuses every other chunk length, rate or E1..E3, and a chunk of user bits that goes through RA1, any of the frames and RA1 backwards arrives unchanged at every rate; a frame is accepted at another rate exactly if that rate has the same code. A chunk lasts as long as a frame. Short buffers are refused unchanged.", "quantifier": "all bit values, all twelve rates, all contents of the structures and buffers beforehand, all buffer sizes", "why_tests_cant": "the tests compare a few literal frames; that no bit is lost, doubled or displaced for any content and any rate is a claim about all of them", "anchors": ["src/isdn/v110.c: osmo_v110_decode_frame, osmo_v110_encode_frame, osmo_v110_ubit_dump, osmo_v110_sync_ra1_user_to_ir, osmo_v110_sync_ra1_ir_to_user, osmo_v110_sync_ra1_get_user_data_rate", "src/gsm/gsm44021.c: osmo_csd_12k_6k_decode_frame, osmo_csd_12k_6k_encode_frame, osmo_csd_3k6_decode_frame, osmo_csd_3k6_encode_frame, osmo_csd_ubit_dump"]}
{"id": "C64", "title": "The SMS control layer delivers, repeats, gives up and releases as TS 04.11 says, and loses no message buffer", "statement": "gsm411_smc_send/_recv and the timer: a message given with EST-REQ or DATA-REQ is sent as CP-DATA once the connection is up and again after each period without an acknowledgement, at most three times in all, always with the data of the last accepted request; the periods add up to TC1A. An acknowledgement ends it; after the third period the user gets exactly one error indication and the lower layer exactly one release. A release asked for while a message is in flight is done exactly when that is acknowledged. Leaving a connection releases it exactly once, or not at all if the lower layer did. Received CP-DATA is acknowledged once and indicated once, unchanged. Every message buffer handed in is freed, passed on or still stored, exactly one of these; a buffer from the lower layer is never freed. The bounds on repetition and on sending only over an established connection are for callers that clear the instance whenever it is idle again.", "quantifier": "all histories of requests, indications with any message and CP type, and timeouts; all message contents", "why_tests_cant": "there is no unit test of the layer; what is claimed is about every interleaving of requests, indications and timeouts", "anchors": ["src/gsm/gsm0411_smc.c: gsm411_smc_init, gsm411_smc_clear, gsm411_smc_send, gsm411_smc_recv, cp_timer_expired", "include/osmocom/gsm/gsm0411_smc.h: struct gsm411_smc_inst"]}
{"id": "C65", "title": "The VTY output buffer delivers every octet once and in order, whatever the kernel does", "statement": "For any sequence of buffer_put, buffer_putc, buffer_putstr, buffer_flush_available, buffer_flush_all, buffer_write and buffer_reset on a fresh buffer, and any answers of the kernel (partial writes, EAGAIN, EINTR, errors): what the kernel took, followed by what buffer_getstr returns, is what was accepted. Nothing overtakes what is waiting. The status returned is EMPTY exactly if all is written, ERROR only on an error other than EAGAIN or EINTR, and a failed buffer_write accepts nothing. buffer_flush_all writes everything if the kernel keeps taking octets and makes no system call after the kernel would block. The chunks take at most what is held plus less than two chunks, and no octet outside a chunk is touched.", "quantifier": "every chunk size, every sequence of calls with every octet string, every sequence of kernel answers", "why_tests_cant": "Chunk boundaries, partial writes and interruptions combine without bound; a test sees one schedule of the kernel.", "anchors": ["src/vty/buffer.c: buffer_new, buffer_getstr, buffer_empty, buffer_reset, buffer_add, buffer_put, buffer_putc, buffer_putstr, buffer_flush_available, buffer_flush_all, buffer_write", "include/osmocom/vty/buffer.h: buffer_status_t"]}
{"id": "C66", "title": "Geographical area coding keeps positions up to its resolution and refuses malformed PDUs", "statement": "osmo_gad_enc_lat/_lon/_unc give the numbers of TS 23.032; encoding undoes decoding for every number; decoding undoes encoding up to 10 (latitude) and 21 (longitude) micro degrees towards zero, keeps the sign and the order, and is idempotent; the uncertainty code is the largest whose radius is not above the given one, and the table is the published formula. osmo_gad_enc writes exactly the eight octets of a point with uncertainty circle, returns their number and refuses what is out of range; osmo_gad_dec returns the value of each field or refuses. osmo_gad_raw_read accepts a PDU exactly if its length is the one its shape (and number of points) asks for, never reads beyond it, and osmo_gad_raw_write gives the same octets back.", "quantifier": "all 32 bit coordinates and radii, all 24 bit numbers, all octet strings", "why_tests_cant": "Rounding and range errors sit at single values (the poles, the date line, the boundaries of the fixed point grid) among 2^32 inputs.", "anchors": ["src/gsm/gad.c: osmo_gad_enc_lat, osmo_gad_dec_lat, osmo_gad_enc_lon, osmo_gad_dec_lon, osmo_gad_enc_unc, osmo_gad_dec_unc, osmo_gad_enc, osmo_gad_dec, osmo_gad_raw_read, osmo_gad_raw_write", "include/osmocom/gsm/protocol/gsm_23_032.h: union gad_raw"]}
{"id": "C67", "title": "A child process gets exactly the permitted environment", "statement": "osmo_environment_filter stores exactly those entries KEY=VALUE of the given environment whose key (up to the first '=', at most 255 characters) is in the whitelist, unchanged and in order, as many as fit in front of the final null pointer, and touches nothing behind; osmo_environment_append keeps the entries there are and adds the new ones in order as far as there is room; both always end the array and never write beyond it. The shell started by osmo_system_nowait gets the permitted entries followed by the additional ones, at most 1023, whatever the array held before; without a whitelist nothing of the own environment.", "quantifier": "every environment, whitelist, additional environment, array size and previous content", "why_tests_cant": "A single entry leaking past the whitelist or an array that is exactly full depends on lengths and keys without bound.", "anchors": ["src/core/exec.c: osmo_environment_filter, osmo_environment_append, str_in_list, osmo_system_nowait2"]}
{"id": "C68", "title": "Times, validity periods and alphabets of short messages follow the standards", "statement": "Two-digit numbers are coded as swapped decimal semi-octets and read back unchanged. gsm340_gen_scts writes exactly seven octets holding the local time and its zone in quarters of an hour; gsm340_scts reads such a time stamp, and nothing behind it, as the time that was written for all years from 1981 to 2080 and every zone. gsm340_validity_period gives the minutes of TS 23.040 for every format and octet, longer for a larger relative value, the whole minutes left for an absolute time and two days where none or a reserved one is given. gsm338_get_sms_alphabet gives the alphabet of TS 23.038 for every data coding scheme.", "quantifier": "every time and zone, every octet of a time stamp or validity period, every format and every data coding scheme", "why_tests_cant": "Tests look at single time stamps in the zone of the test machine; wrong zones, century boundaries and reads behind the field depend on all field values and on what follows in memory.", "anchors": ["src/gsm/gsm0411_utils.c: gsm411_bcdify, gsm411_unbcdify, gsm340_gen_scts, gsm340_scts, gsm340_validity_period, gsm338_get_sms_alphabet"]}
{"id": "C69", "title": "A signal reaches every registered handler exactly once", "statement": "After any history of registrations and unregistrations, osmo_signal_dispatch calls each handler registered for the subsystem exactly once, in the order of registration, with the signal, the signal's data and the data given at registration, and no other function. Handlers may register and unregister others while being called: when the delivery ends no registration has been called twice and every one that is still there, including new ones, has been called; no freed registration is used as long as no handler unregisters itself. Unregistering removes one registration with exactly this subsystem, function and data and leaves all others.", "quantifier": "every history of registrations, every signal, and every behaviour of the handlers towards the list, depending on all calls so far", "why_tests_cant": "The effect of a handler that changes the list depends on its position and on all other registrations; use of a freed entry usually goes unnoticed in a test.", "anchors": ["src/core/signal.c: osmo_signal_register_handler, osmo_signal_unregister_handler, osmo_signal_dispatch"]}
{"id": "C70", "title": "Pseudo random bit sequences are those of ITU-T O.150", "statement": "The bits delivered by osmo_prbs_get_ubit after osmo_prbs_state_init form, for each of the four generators, the sequence of O.150: every bit is the sum modulo two of the outputs of the two stages named there (6/7, 5/9, 9/11, 14/15); the sequence repeats after exactly 2^w - 1 bits and not earlier; no word of w bits comes twice in a period and there are never w zeros in a row. osmo_prbs_get_ubits stores exactly as many next bits as asked for and touches nothing behind, and it does not matter how the bits are divided into calls.", "quantifier": "every position of the infinite sequences, every register state, every buffer and every division into calls", "why_tests_cant": "Tests compare a prefix of the sequence with stored data; the period, the absence of stuck states and the independence of the division into calls concern all positions.", "anchors": ["src/core/prbs.c: osmo_prbs7, osmo_prbs9, osmo_prbs11, osmo_prbs15, osmo_prbs_state_init, osmo_prbs_process_bit, osmo_prbs_get_ubit, osmo_prbs_get_ubits"]}
{"id": "C71", "title": "OAP messages survive encoding and decoding, and any octets are decoded safely", "statement": "Every Osmocom Authentication Protocol message encoded by osmo_oap_encode is appended to the buffer in at most 70 octets and given back field by field by osmo_oap_decode. For any octets the decoder reads nothing outside of them and succeeds exactly for a type followed by elements tag, length, value in which the known ones have the lengths of the protocol and the client identity is not zero; the message then says what the last element of each kind says, and unknown elements are skipped. Otherwise one of two errors is returned.", "quantifier": "every message, every sequence of elements and every sequence of octets", "why_tests_cant": "The decoder is fed by the network; lengths, order, repetition and truncation of the elements are unbounded and tests try a handful.", "anchors": ["src/gsm/oap.c: osmo_oap_decode, osmo_oap_encode"]}
{"id": "C72", "title": "Reception level statistics remember exactly the measured channels", "statement": "After a reset and any sequence of measurements, asking for the next channel after a given one at a given level returns the lowest higher-numbered channel that was measured at that level, or -1 if there is none. Levels from 31 on count as one level, and channel numbers from 1024 on are ignored. Going on from each answer therefore visits exactly the measured channels, ascending and once each, and ends; the dump prints exactly these for each of the 32 levels, highest first. No channel number or level makes the code touch memory outside the statistics.", "quantifier": "all sequences of measurements of 16 bit channel numbers at 8 bit levels, all levels asked for, all 16 bit signed starting points", "why_tests_cant": "There are unboundedly many measurement histories, 1024 channels and 32 levels packed in bits; a channel lost, or shown at the wrong level, depends on the history and the position.", "anchors": ["src/gsm/rxlev_stat.c:rxlev_stat_input", "src/gsm/rxlev_stat.c:rxlev_stat_get_next", "src/gsm/rxlev_stat.c:rxlev_stat_reset", "src/gsm/rxlev_stat.c:rxlev_stat_dump", "include/osmocom/gsm/rxlev_stat.h:struct rxlev_stats"]}
{"id": "C73", "title": "Global Call References survive encoding and decoding, and malformed ones are refused", "statement": "For every Global Call Reference with a network of 3 to 5 octets, encoding appends exactly the octets of 3GPP TS 29.205 and returns their number; other references append nothing. Decoding octets that start with a reference gives back that reference and its length, whatever follows it and whatever was in the structure before. Decoding what was encoded gives a reference equal to the original, where equality compares exactly network, node and call reference. Octets that do not start with a reference are refused without reading behind them.", "quantifier": "all references, all message buffers with room for the element, all octet strings offered to the decoder", "why_tests_cant": "The network has a variable length and all lengths of the input must be combined with it; a read behind the input shows in a test only for particular lengths, if at all.", "anchors": ["src/gsm/gsm29205.c:osmo_enc_gcr", "src/gsm/gsm29205.c:osmo_dec_gcr", "src/gsm/gsm29205.c:osmo_gcr_eq", "include/osmocom/gsm/gsm29205.h:struct osmo_gcr_parsed"]}
{"id": "C74", "title": "Vectors behave as maps from slots to pointers, however they grow and shrink", "statement": "A new vector shows NULL in every slot. After any sequence of calls, storing without naming a slot uses the lowest empty slot and returns it, storing at a slot and removing from a slot change that slot only, looking up never changes anything, and every lookup, also beyond the allocated slots, shows the last pointer stored there. The count is the number of slots that are not NULL. All slots from the number of active slots on are NULL, and if NULL was never stored explicitly that number is the lowest with this property. This holds for slots below 2^30; when the allocated number of slots would exceed 32 bits, memory outside the allocation is written.", "quantifier": "all initial sizes, all sequences of fewer than 2^30 calls with slots below 2^30 and any pointers, all slots looked up", "why_tests_cant": "Growth by doubling, reuse of holes and trimming of trailing empty slots depend on the whole history of calls; there are unboundedly many.", "anchors": ["src/vty/vector.c:vector_init", "src/vty/vector.c:vector_ensure", "src/vty/vector.c:vector_empty_slot", "src/vty/vector.c:vector_set", "src/vty/vector.c:vector_set_index", "src/vty/vector.c:vector_lookup", "src/vty/vector.c:vector_lookup_ensure", "src/vty/vector.c:vector_unset", "src/vty/vector.c:vector_count"]}
{"id": "C75", "title": "Message files give exactly the entries of their well-formed lines", "statement": "Reading a message file gives the entries of its lines in the order of the lines. A line gives an entry exactly if it does not start with '#' and has at least three colons: the first three colons separate country, network, option and text, further colons belong to the text, and each field ends at the first line feed or carriage return in it. Other lines give nothing. No line makes the parser read or write outside it.", "quantifier": "all files, as lists of any number of lines of any length and content without NUL", "why_tests_cant": "Positions and number of the separators, empty fields and line ends combine without bound; the strings are cut in place and read back through pointers into the line.", "anchors": ["src/core/msgfile.c:handle_line", "src/core/msgfile.c:alloc_entry", "src/core/msgfile.c:osmo_config_list_parse", "include/osmocom/core/msgfile.h:struct osmo_config_entry"]}
{"id": "C76", "title": "XOR authentication: network and card agree, forged tokens are refused, resynchronisation works", "statement": "For every key, challenge, sequence number and management field, the vector of the XOR-3G algorithm holds a token that a card following 3GPP TS 34.108 accepts, from which it finds that sequence number and field, and the response and keys that the card computes; every token the card accepts is of this form. The GSM response and key are those of the conversion functions of 3GPP TS 33.102, and for XOR-2G the first 4 and the next 8 octets of the sum of key and challenge. Other kinds of subscribers and keys of other lengths are refused without a vector. A resynchronisation token that the card made for the challenge it was sent moves the sequence number to that of the card; any other token is refused and changes nothing.", "quantifier": "all keys, challenges, sequence numbers below 2^48, management fields, authentication and resynchronisation tokens", "why_tests_cant": "The agreement of both sides is an equation over all 128 bit keys and challenges; refusal must hold for each of the 2^112 tokens.", "anchors": ["src/gsm/auth_xor.c:xor_gen_vec", "src/gsm/auth_xor.c:xor_gen_vec_auts", "src/gsm/auth_xor_2g.c:xor2g_gen_vec", "src/gsm/auth_core.c:osmo_auth_c3", "include/osmocom/crypt/auth.h:struct osmo_auth_vector"]}
{"id": "C77", "title": "Half rate SID frames are recognised by the number of wrong bits, whatever happens on the channel", "statement": "When a half rate SID frame is sent and any 112 bits are received instead, the frame the receiver puts together is classified by the number of wrong bits in the 79 bits of the code word, and in its 62 protected bits, alone: valid SID with at most two wrong protected bits, or invalid SID if those have turned the mode to unvoiced so that the frame was put together in the wrong order; otherwise invalid SID with at most 10 wrong bits (15 if the decoder flagged the frame as uncertain), otherwise speech. The bad frame flag is raised exactly for uncertain frames with 16 to 25 wrong bits. Any other frame is classified in the same way. Frames come back unchanged from reordering for the channel and back. The check for the error-free code word accepts exactly SID frames; resetting makes a SID frame of any frame, keeping its 33 parameter bits.", "quantifier": "all 14-octet frames, all 112 received bits, with and without the uncertainty flag, whatever the output buffers held", "why_tests_cant": "There are 2^79 patterns of errors in the code word; the masks for frames put together in the wrong order must agree with both bit order tables, bit by bit.", "anchors": ["src/codec/hr_sid_class.c:osmo_hr_sid_classify", "src/codec/gsm620.c:osmo_hr_check_sid", "src/codec/gsm620.c:osmo_hr_sid_reset", "src/codec/gsm620.c:gsm620_unvoiced_bitorder", "src/codec/gsm620.c:gsm620_voiced_bitorder", "src/coding/gsm0503_coding.c:tch_hr_d_to_b", "src/coding/gsm0503_coding.c:tch_hr_b_to_d"]}
