{
 "C02": {
  "note": "C02_trim gives the exact guard used by the code; C02_trim_refuted shows the unrestricted statement fails when there is headroom."
 },
 "C04": {
  "note": "C04_resize_area holds within the guard; C04_grow_refuted exhibits growth past the buffer when headroom is present."
 },
 "C06": {
  "note": "Two corner cases outside the documented use are refuted by name (zero length unpacking, a single nibble)."
 },
 "C08": {
  "note": "The statement is proved. bitvec_shiftl, which the statement does not mention, is covered only in part (C08_shiftl_partial, refuted in general)."
 },
 "C12": {
  "status": "partial",
  "note": "The length bound holds except when the write callback itself enqueues and then returns -EAGAIN (C12_maxlen_refuted); everything else is proved."
 },
 "C13": {
  "note": "The length bound needs max_length < UINT_MAX (C13_unbounded_max_refuted)."
 },
 "C14": {
  "status": "partial",
  "note": "The last clause fails after the buffer has wrapped: get_nth beyond the count returns an old string (C14_beyond_refuted). The rest is proved."
 },
 "C18": {
  "status": "partial",
  "note": "The exact behaviour is proved; a state change made inside onleave bypasses the check (C18_nested_leave_refuted) and a huge timeout is truncated (C18_timeout_clamp_refuted)."
 },
 "C19": {
  "status": "partial",
  "note": "Proved for callbacks that do not terminate or reparent relatives in the middle of a termination; four refutations show what goes wrong otherwise."
 },
 "C21": {
  "note": "Proved for frames of at most 255 data and stop bits and unchanged configuration; refutations mark the border."
 },
 "C22": {
  "note": "Round trip proved for all payloads and all DLCIs that need no escaping, as the statement says (C22_roundtrip_partial); C22_dlci0_refuted exhibits the rest."
 },
 "C23": {
  "status": "partial",
  "note": "Proved for the 64 kbit/s B channel mode, frames of at least two octets that fit the receive buffer. Missing: D channel idle pattern and 56k adaptation. The unrestricted statement is refuted by four witnesses."
 },
 "C24": {
  "status": "partial",
  "note": "Packing is proved in full. Text round trips hold for the alphabet given in the theorem; characters the tables get wrong are refuted by name."
 },
 "C25": {
  "status": "partial",
  "note": "The uplink flag is not accepted back and a PCS-flagged ARFCN outside 1900 is still classified as such (refuted); the rest is proved."
 },
 "C26": {
  "status": "partial",
  "note": "gsm_rfn2fn is exact for frames in the past half window; frames ahead across a window border are refuted."
 },
 "C29": {
  "status": "partial",
  "note": "Bounds and round trips are proved for tlv_parse_one and tlv_parse; the missing leading LV over-read and other encoder limits are refuted by name."
 },
 "C30": {
  "note": "The statement says what the code does instead of what a user expects; both refutations are theorems."
 },
 "C31": {
  "status": "partial",
  "note": "Labels of 256 or more characters and empty inner labels do not survive (refuted); the rest is proved."
 },
 "C32": {
  "status": "partial",
  "note": "Proved except for 17 ARFCNs without ARFCN 0 in range 1024, which loses one (C32_range1024_refuted)."
 },
 "C33": {
  "status": "partial",
  "note": "Encoder length and zero-error decoding and optimality are proved for flushed and truncated codes; the scan of end states for tail-biting codes is proved only in part (C33_scan_partial)."
 },
 "C37": {
  "note": "Fewer than 2^32 sets per period are needed (C37_wrap_refuted)."
 },
 "C38": {
  "status": "partial",
  "note": "Proved for vectors that leave room in their buffer; a filled buffer is refuted."
 },
 "C47": {
  "status": "partial",
  "note": "The domain parser accepts trailing garbage and loses the MNC length (refuted); the rest is proved."
 },
 "C50": {
  "status": "partial",
  "note": "Names that need mangling bypass the duplicate check and the replacement index wraps at UINT_MAX (refuted); otherwise proved."
 },
 "C51": {
  "status": "partial",
  "note": "The result of sanitizing passes validation only for printable 7-bit text (C51_sanitize_refuted)."
 },
 "C52": {
  "status": "partial",
  "note": "GEA3/GEA4 proved for fewer than 8192 octets, where the 16-bit bit count does not wrap (C52_gea_wrap_refuted)."
 },
 "C53": {
  "note": "Length 0 is excluded by the statement; C53_empty_refuted shows why."
 },
 "C56": {
  "status": "partial",
  "note": "Transmit order and content proved while the kernel takes whole messages or fails; after a partial write they are false of the code (C56_partial_write_refuted). Reading proved without failing reads while a message is pending (C56_spurious_refuted)."
 },
 "C58": {
  "note": "Proved for the mode without LAPD_F_RTS, after an establishment without loss: order and completeness under any losses, what is acknowledged has been delivered, window and timer, no false errors; without losses everything gets through in finitely many arrivals; the number of repetitions before giving up. Four stronger expectations fail and are refuted by name (over-long messages, recovery after a lost REJ, RR after RNR, re-establishment in the middle of a message)."
 },
 "C59": {
  "note": "The call-backs are modelled as not reconfiguring the timeslot; in_cb_queue_empty enqueues for its own sub-channel. Overlapping places and places beyond the octet are accepted by the code and refuted by name."
 },
 "C60": {
  "note": "Proved for a configuration without T timers (T_defs NULL), up to 2^61 us of clock and 2147483646 granules. The effect of a change of the T timers is modelled; it loses time and is refuted by name."
 },
 "C61": {
  "status": "partial",
  "note": "Conservation, queue order, bound, timer and progress proved. The rate limit is proved as long as the bucket has not run empty at a transmission (C61_rate_busy); in general it is false of the code (C61_rate_refuted). The output call-back is modelled as succeeding and not re-entering."
 },
 "C62": {
  "note": "UI, TEST and REMAP frames lose their information field in both directions (C62_ui_refuted); the theorems say so by giving information to XID and I+S frames only. Versions 0 and 1 (the code refuses 2)."
 },
 "C63": {
  "note": "osmo_v110_ubit_dump reads 80 bits of any shorter input (C63_dump_refuted). Text output of the dumps is modelled as rows of numbers."
 },
 "C64": {
  "note": "Repetition bound and sending only over an established connection are proved for callers that clear the instance when it is idle; without that they are false (C64_stale_timer_refuted, C64_unbounded_refuted). Call-backs do not re-enter the instance."
 },
 "C65": {
  "note": "vty/buffer.c except buffer_flush_window; any sequence of calls on a fresh buffer and any answers of the kernel. C65_spin_refuted: a stale errno of EINTR together with a writev taking nothing keeps buffer_flush_all in its loop."
 },
 "C66": {
  "status": "partial",
  "note": "gad.c without its text functions. The full statement fails at the poles (C66_lat_pole_refuted), for the exact number of TS 23.032 (C66_lat_number_refuted) and for the value returned by osmo_gad_enc (C66_enc_length_refuted); everything else is proved for all inputs."
 },
 "C67": {
  "note": "exec.c: the two environment functions and their use for the child of osmo_system_nowait2. The count returned by osmo_environment_append is stated as it is (C67_append_count_refuted)."
 },
 "C68": {
  "status": "partial",
  "note": "gsm0411_utils.c without addresses and headers. Reading a time stamp is proved where struct tm has no tm_gmtoff; with it the code reads behind the time stamp (C68_read_behind_refuted). Zones west of Greenwich (C68_west_refuted) and messages marked for automatic deletion (C68_alphabet_deletion_refuted) are not handled by the code."
 },
 "C69": {
  "note": "signal.c, with handlers that change the registrations while being called. The precondition that a handler does not unregister itself is necessary (C69_unregister_itself_refuted), as is one for the end of a delivery (C69_endless_refuted). Nested deliveries are not modelled."
 },
 "C70": {
  "note": "prbs.c, all functions; the sequences are infinite, positions without bound."
 },
 "C71": {
  "status": "partial",
  "note": "oap.c. The decoder is characterised for all octets; it reads out of bounds exactly where the octets end in an empty cause (C71_empty_cause_refuted), everything else is proved."
 },
 "C72": {
  "note": "rxlev_stat.c, all functions, for histories of any length."
 },
 "C73": {
  "status": "partial",
  "note": "gsm29205.c, all functions. The decoder is characterised for all octets; it reads behind them exactly where a reference is cut off after at least 13 octets (C73_cut_refuted), everything else is proved."
 },
 "C74": {
  "note": "vector.c without vector_copy and freeing, for histories of fewer than 2^30 calls with slots below 2^30; without such a bound the doubling wraps (C74_wrap_refuted)."
 },
 "C75": {
  "note": "msgfile.c; the file is given as its lines, opening and getline are not modelled."
 },
 "C76": {
  "status": "partial",
  "note": "auth_xor.c and auth_xor_2g.c. Resynchronisation is proved where the challenge the card answered is also that of the new vector; otherwise genuine tokens are refused (C76_resync_refuted). Resynchronisation of GSM subscribers is not modelled."
 },
 "C77": {
  "status": "proved",
  "note": "hr_sid_class.c, gsm620.c and the reordering of half rate frames. The convolutional code and the parity bits of the channel are not part of this property (see C33)."
 }
}