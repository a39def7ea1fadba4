-Q theories Verif
theories/GoBase.v
theories/GoLemmas.v
theories/Words.v
theories/SM3_spec.v
theories/SM3_model.v
theories/SM3_hist_spec.v
theories/SM3_proofs.v
theories/P_SM3.v
theories/SM4_tables.v
theories/SM4_spec.v
theories/SM4_model.v
theories/SM4_proofs.v
theories/SM4_modes.v
theories/P_SM4.v
theories/EC_group.v
theories/NT.v
theories/FastZ.v
theories/Prime_cert.v
theories/Fp.v
theories/SM2_curve_spec.v
theories/SM2_group.v
theories/Jacobian.v
theories/SM2_jac.v
theories/SM2_order.v
theories/BigBytes.v
theories/Asn1_model.v
theories/SM2_spec.v
theories/SM2_model.v
theories/SM2_proofs.v
theories/P_SM2.v
theories/X509_spec.v
theories/X509_model.v
theories/X509_proofs.v
theories/P_X509.v
theories/CBC.v
theories/Keys_model.v
theories/Keys_proofs.v
theories/P_Keys.v
theories/HMAC.v
theories/TLS_record_model.v
theories/TLS_rec_proofs.v
theories/TLS_io_proofs.v
theories/TLS_close_model.v
theories/TLS_close_proofs.v
theories/P_TLS_record.v
theories/P_TLS_close.v
theories/TLS_prf_model.v
theories/TLS_prf_spec.v
theories/TLS_prf_proofs.v
theories/P_TLS_prf.v
theories/TLS_gmka_model.v
theories/P_TLS_gmka.v
theories/TLS_ticket_model.v
theories/P_TLS_ticket.v
theories/TLS_msg_model.v
theories/TLS_msg_proofs.v
theories/P_TLS_msg.v
theories/TLS_neg_model.v
theories/P_TLS_neg.v
theories/P_TLS_header.v
theories/P256_field_model.v
theories/P256_model.v
theories/P256_rel.v
theories/P256_recode.v
theories/P256_abs.v
theories/P256_ideal.v
theories/P256_group.v
theories/P256_flag.v
theories/P_P256.v
theories/P_P256_runs.v
theories/P256_asm_model.v
theories/P256_asm_code.v
theories/P256_ord_model.v
theories/P_P256_ord.v
theories/TLS_hs_model.v
theories/TLS_hs_proofs.v
theories/TLS_hs_bytes.v
theories/TLS_hs_server.v
theories/TLS_hs_client.v
theories/TLS_hs_spec.v
theories/P_TLS_hs_server.v
theories/P_TLS_hs_client.v
theories/P_TLS_hs_agree.v
theories/TLS_hs_run.v
theories/P_TLS_hs_run.v
theories/P_TLS_hs_example.v
theories/P_TLS_hs_refuted.v
theories/TLS_hs_safe.v
theories/P_TLS_hs_resume.v
theories/P_TLS_hs_resume_ex.v
theories/P_TLS_hs_safe.v
theories/P_TLS_hs_crash.v
theories/Asn1_go.v
theories/X509C_model.v
theories/X509C_ext_proofs.v
theories/X509C_spec.v
theories/X509C_proofs.v
theories/Asn1_local.v
theories/P_X509C.v
theories/P_X509C_parse.v
theories/P_X509C_csr.v
theories/P_X509C_crl.v
theories/P_X509C_ex.v
theories/P_X509C_ext.v
theories/TLS_sync_model.v
theories/TLS_sync_proofs.v
theories/P_TLS_sync.v
theories/TLS_hs_conn.v
theories/TLS_hs_conn_proofs.v
theories/TLS_hs_sim.v
theories/TLS_hs_marks.v
theories/P_TLS_hs_conn.v
theories/P_TLS_hs_conn_ex.v
theories/TLS_hs_wire.v
theories/TLS_hs_wire2.v
theories/P_TLS_hs_wire.v
theories/P_TLS_hs_wire_ex.v
theories/TLS_std_model.v
theories/TLS_std_spec.v
theories/TLS_std_proofs.v
theories/TLS_std_server.v
theories/P_TLS_std_server.v
theories/P_TLS_std_server2.v
theories/TLS_std_client.v
theories/P_TLS_std_client.v
theories/P_TLS_std_client2.v
theories/P_TLS_std_agree.v
theories/P_TLS_std_example.v
theories/P_TLS_std_crash.v
theories/TLS_std_safe.v
theories/TLS_std_safe2.v
theories/P_TLS_std_safe.v
theories/P_TLS_std_safe2.v
theories/P_TLS_std_safe_ex.v
theories/TLS_keypair_model.v
theories/P_TLS_keypair.v
theories/P_TLS_keypair_ex.v
theories/TLS_dial_model.v
theories/P_TLS_dial.v
theories/P_TLS_sni.v
theories/P_TLS_sni_ex.v
theories/P_TLS_hs_safe2.v
theories/P_TLS_hs_safe2_ex.v
theories/P_TLS_std_offer.v
theories/X509_roots_model.v
theories/P_X509_roots.v
theories/X509_pkcs1_model.v
theories/P_X509_pkcs1.v
theories/X509_sec1_model.v
theories/P_X509_sec1.v
theories/TLS_aead_model.v
theories/P_TLS_aead.v
theories/TLS_mac_model.v
theories/P_TLS_mac.v
theories/TLS_gmkeypair_model.v
theories/P_TLS_gmkeypair.v
theories/P_TLS_gmkeypair_ex.v
theories/TLS_connstate_model.v
theories/P_TLS_connstate.v
