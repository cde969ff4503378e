-Q theories Verif
theories/Base.v
theories/Lib.v
theories/M_a5.v
theories/M_apn.v
theories/M_arfcn.v
theories/M_authxor.v
theories/M_base64.v
theories/M_bfc.v
theories/M_bitgen.v
theories/M_bits.v
theories/M_bitvec.v
theories/M_conv.v
theories/M_crc.v
theories/M_crc16.v
theories/M_exec.v
theories/M_fsm.v
theories/M_gad.v
theories/M_gcr.v
theories/M_gsmtime.v
theories/M_hdlc.v
theories/M_hex.v
theories/M_hrsid.v
theories/M_i460.v
theories/M_ident.v
theories/M_ilv.v
theories/M_ilvtab.v
theories/M_iofd.v
theories/M_ipa.v
theories/M_itq.v
theories/M_kasumi.v
theories/M_lapd.v
theories/M_llist.v
theories/M_mi.v
theories/M_msgb.v
theories/M_msgfile.v
theories/M_msgq.v
theories/M_nri.v
theories/M_num.v
theories/M_oap.v
theories/M_plmn.v
theories/M_prbs.v
theories/M_range.v
theories/M_rate.v
theories/M_rbtree.v
theories/M_rlp.v
theories/M_rxlev.v
theories/M_sept.v
theories/M_sercomm.v
theories/M_signal.v
theories/M_smc.v
theories/M_smsutil.v
theories/M_stat.v
theories/M_strrb.v
theories/M_suart.v
theories/M_t4.v
theories/M_tdef.v
theories/M_timecc.v
theories/M_timer.v
theories/M_tlv.v
theories/M_use.v
theories/M_v110.v
theories/M_vbuf.v
theories/M_vector.v
theories/M_wqueue.v
theories/P_a5.v
theories/P_apn.v
theories/P_arfcn.v
theories/P_authxor.v
theories/P_base64.v
theories/P_bfc.v
theories/P_bitgen.v
theories/P_bits.v
theories/P_bitvec.v
theories/P_bitvec2.v
theories/P_conv.v
theories/P_conv2.v
theories/P_conv3.v
theories/P_crc.v
theories/P_crc16.v
theories/P_exec.v
theories/P_fsm.v
theories/P_fsm2.v
theories/P_gad.v
theories/P_gcr.v
theories/P_gsmtime.v
theories/P_hdlc.v
theories/P_hdlc2.v
theories/P_hdlc3.v
theories/P_hdlc4.v
theories/P_hex.v
theories/P_hrsid.v
theories/P_i460.v
theories/P_ilv.v
theories/P_ilvdiag.v
theories/P_iofd.v
theories/P_ipa.v
theories/P_itq.v
theories/P_kasumi.v
theories/P_lapd.v
theories/P_lapd2.v
theories/P_lapd3.v
theories/P_llist.v
theories/P_mi.v
theories/P_msgb.v
theories/P_msgfile.v
theories/P_msgq.v
theories/P_nri.v
theories/P_num.v
theories/P_num2.v
theories/P_numtext.v
theories/P_oap.v
theories/P_plmn.v
theories/P_prbs.v
theories/P_range.v
theories/P_range2.v
theories/P_range3.v
theories/P_range4.v
theories/P_range5.v
theories/P_range6.v
theories/P_range7.v
theories/P_rate.v
theories/P_rategrp.v
theories/P_rbtree.v
theories/P_rbtree2.v
theories/P_rlp.v
theories/P_rlp2.v
theories/P_rlp3.v
theories/P_rxlev.v
theories/P_sept.v
theories/P_sercomm.v
theories/P_signal.v
theories/P_smc.v
theories/P_smc2.v
theories/P_smsutil.v
theories/P_stat.v
theories/P_strrb.v
theories/P_suart.v
theories/P_suart2.v
theories/P_t4.v
theories/P_tdef.v
theories/P_timecc.v
theories/P_timer.v
theories/P_tlv.v
theories/P_use.v
theories/P_v110.v
theories/P_vbuf.v
theories/P_vector.v
theories/P_wqueue.v
theories/S_a5.v
theories/S_apn.v
theories/S_arfcn.v
theories/S_authxor.v
theories/S_base64.v
theories/S_bfc.v
theories/S_bits.v
theories/S_conv.v
theories/S_crc.v
theories/S_crc16.v
theories/S_exec.v
theories/S_fsm.v
theories/S_gad.v
theories/S_gcr.v
theories/S_gsmtime.v
theories/S_hdlc.v
theories/S_hex.v
theories/S_hrsid.v
theories/S_i460.v
theories/S_ilv.v
theories/S_iofd.v
theories/S_ipa.v
theories/S_itq.v
theories/S_kasumi.v
theories/S_lapd.v
theories/S_llist.v
theories/S_mi.v
theories/S_msgb.v
theories/S_msgfile.v
theories/S_msgq.v
theories/S_nri.v
theories/S_num.v
theories/S_oap.v
theories/S_plmn.v
theories/S_prbs.v
theories/S_range.v
theories/S_rate.v
theories/S_rbtree.v
theories/S_rlp.v
theories/S_rxlev.v
theories/S_sept.v
theories/S_sercomm.v
theories/S_signal.v
theories/S_smc.v
theories/S_smsutil.v
theories/S_stat.v
theories/S_suart.v
theories/S_t4.v
theories/S_tdef.v
theories/S_timecc.v
theories/S_timer.v
theories/S_tlv.v
theories/S_use.v
theories/S_v110.v
theories/S_vbuf.v
theories/S_vector.v
theories/S_wqueue.v
theories/Str.v
theories/T_a5.v
theories/T_apn.v
theories/T_arfcn.v
theories/T_authxor.v
theories/T_base64.v
theories/T_bfc.v
theories/T_bitgen.v
theories/T_bits.v
theories/T_bitvec.v
theories/T_conv.v
theories/T_crc.v
theories/T_crc16.v
theories/T_exec.v
theories/T_fsm.v
theories/T_gad.v
theories/T_gcr.v
theories/T_gsmtime.v
theories/T_hdlc.v
theories/T_hex.v
theories/T_hrsid.v
theories/T_i460.v
theories/T_ident.v
theories/T_ilv.v
theories/T_iofd.v
theories/T_ipa.v
theories/T_itq.v
theories/T_kasumi.v
theories/T_lapd.v
theories/T_llist.v
theories/T_mi.v
theories/T_msgb.v
theories/T_msgfile.v
theories/T_nri.v
theories/T_num.v
theories/T_oap.v
theories/T_plmn.v
theories/T_prbs.v
theories/T_range.v
theories/T_rate.v
theories/T_rbtree.v
theories/T_rlp.v
theories/T_rxlev.v
theories/T_sept.v
theories/T_sercomm.v
theories/T_signal.v
theories/T_smc.v
theories/T_smsutil.v
theories/T_stat.v
theories/T_strrb.v
theories/T_suart.v
theories/T_t4.v
theories/T_tdef.v
theories/T_timecc.v
theories/T_timer.v
theories/T_tlv.v
theories/T_use.v
theories/T_v110.v
theories/T_v110d.v
theories/T_vbuf.v
theories/T_vector.v
theories/T_wqueue.v
