-Q theories Verif
theories/Bytes.v
theories/M_base64.v
theories/M_util.v
theories/M_message.v
theories/S_base64.v
theories/S_text.v
theories/P_bytes.v
theories/P_base64.v
theories/P_util.v
theories/P_util2.v
theories/P_message.v
theories/T_text.v
theories/M_codec.v
theories/S_codec.v
theories/P_codec.v
theories/T_codec.v
theories/M_aes.v
theories/S_aes.v
theories/P_aes.v
theories/T_aes.v
theories/M_cipher.v
theories/S_cipher.v
theories/P_cipher.v
theories/T_cipher.v
theories/M_ctx.v
theories/S_ctx.v
theories/P_ctx.v
theories/P_ctx2.v
theories/P_ctx3.v
theories/P_ctx4.v
theories/P_ctx5.v
theories/P_ctx6.v
theories/T_ctx.v
theories/M_access.v
theories/S_access.v
theories/P_access.v
theories/T_access.v
theories/M_replay.v
theories/S_replay.v
theories/P_replay.v
theories/T_replay.v
theories/M_cycle.v
theories/S_cycle.v
theories/P_cycle.v
theories/T_cycle.v
theories/M_incoming.v
theories/S_incoming.v
theories/P_incoming.v
theories/P_incoming2.v
theories/P_incoming3.v
theories/P_incoming4.v
theories/P_incoming5.v
theories/P_incoming6.v
theories/P_incoming7.v
theories/P_incoming8.v
theories/T_incoming.v
theories/M_packet.v
theories/S_packet.v
theories/P_packet.v
theories/T_packet.v
theories/M_fw.v
theories/S_fw.v
theories/P_fw.v
theories/P_fw2.v
theories/P_fw3.v
theories/P_fw4.v
theories/P_fw5.v
theories/P_fw6.v
theories/P_fw7.v
theories/P_fw8.v
theories/P_fw9.v
theories/P_fw10.v
theories/P_fw11.v
theories/T_fw.v
theories/M_conf.v
theories/S_conf.v
theories/P_conf.v
theories/T_conf.v
theories/M_accfile.v
theories/S_accfile.v
theories/P_accfile.v
theories/P_accfile2.v
theories/P_accfile3.v
theories/P_accfile4.v
theories/P_accfile5.v
theories/P_accfile6.v
theories/T_accfile.v
theories/M_hash.v
theories/S_hash.v
theories/P_hash1.v
theories/P_hash2.v
theories/P_hash3.v
theories/P_hash4.v
theories/P_hash5.v
theories/P_hash6.v
theories/T_hash.v
theories/M_client.v
theories/M_send.v
theories/S_client.v
theories/P_client.v
theories/P_client2.v
theories/P_client3.v
theories/P_client4.v
theories/P_client5.v
theories/S_send.v
theories/P_send.v
theories/P_send2.v
theories/P_send3.v
theories/P_send4.v
theories/P_client6.v
theories/T_client.v
theories/P_send5.v
theories/T_send.v
theories/M_rc.v
theories/S_rc.v
theories/P_rc.v
theories/P_rc2.v
theories/P_rc3.v
theories/P_rc4.v
theories/P_rc5.v
theories/P_rc6.v
theories/P_rc7.v
theories/P_rc8.v
theories/T_rc.v
theories/P_rc9.v
theories/P_rc10.v
theories/T_rcsave.v
theories/P_rc11.v
theories/P_rc12.v
theories/P_rc13.v
theories/P_rc14.v
theories/P_rc15.v
theories/T_rcback.v
theories/M_last.v
theories/T_last.v
theories/M_fwinit.v
theories/S_fwinit.v
theories/P_fwinit.v
theories/P_fwinit2.v
theories/P_fwinit3.v
theories/T_fwinit.v
theories/M_daemon.v
theories/S_daemon.v
theories/P_daemon.v
theories/P_daemon2.v
theories/P_daemon3.v
theories/T_daemon.v
theories/P_daemon4.v
theories/S_end.v
theories/T_end.v
theories/M_start.v
theories/S_start.v
theories/P_start.v
theories/P_start2.v
theories/P_start3.v
theories/T_start.v
theories/P_start4.v
theories/S_start2.v
theories/P_start5.v
theories/T_start2.v
theories/M_pid.v
theories/S_pid.v
theories/P_pid.v
theories/T_pid.v
theories/M_life.v
theories/S_life.v
theories/P_life.v
theories/T_life.v
theories/M_resolve.v
theories/S_resolve.v
theories/P_resolve.v
theories/P_resolve2.v
theories/T_resolve.v
theories/M_extcmd.v
theories/S_extcmd.v
theories/P_extcmd.v
theories/T_extcmd.v
theories/M_tcp.v
theories/S_tcp.v
theories/P_tcp.v
theories/T_tcp.v
theories/M_pf.v
theories/S_pf.v
theories/P_pf.v
theories/P_pf2.v
theories/P_pf3.v
theories/T_pf.v
theories/S_safe.v
theories/P_safe.v
theories/T_safe.v
theories/M_ipfw.v
theories/S_ipfw.v
theories/P_ipfw.v
theories/P_ipfw2.v
theories/P_ipfw3.v
theories/P_ipfw4.v
theories/P_ipfw5.v
theories/P_ipfw6.v
theories/P_ipfw7.v
theories/T_ipfw.v
theories/M_firewd.v
theories/S_firewd.v
theories/P_firewd.v
theories/P_firewd2.v
theories/P_firewd3.v
theories/P_firewd4.v
theories/P_firewd5.v
theories/P_firewd6.v
theories/T_firewd.v
theories/M_gpg.v
theories/S_gpg.v
theories/P_gpg.v
theories/P_gpg2.v
theories/P_gpg3.v
theories/T_gpg.v
theories/M_nfq.v
theories/S_nfq.v
theories/P_nfq.v
theories/T_nfq.v
theories/M_dbm.v
theories/S_dbm.v
theories/P_dbm.v
theories/T_dbm.v
theories/M_old.v
theories/S_old.v
theories/P_old.v
theories/P_old2.v
theories/P_old3.v
theories/P_old4.v
theories/P_old5.v
theories/T_old.v
theories/S_dir.v
theories/M_dir.v
theories/P_dir.v
theories/T_dir.v
theories/S_list.v
theories/M_list.v
theories/P_list.v
theories/T_list.v
