
c("C12","proved","C12_keygen C12_reader_failure C12_keygen_arm64 C12_all_keys_reachable","For any curve implementation that is right on the one base multiplication made; unconditional for arm64 (standard-library curve).")
c("C13","proved","C13_sign_verify C13_sign_verify_good C13_hyps C13_degenerate_nonces","Verifies exactly when r and s are nonzero; relative to the curve implementation being right on the calls made (see C29/C30).")
c("C14","proved","C14_digest_sign_verify C14_digest_sign_verify_good C14_message_is_digest")
c("C15","partial","C15_every_key_signs_refuted C15_other_keys_sign_partial","FALSE of the code: D = n-1 is generated and can never sign. Proved: the refutation, and that all other keys sign.")
c("C16","proved","C16_out_of_range_rejected")
c("C17","partial","C17_exact_acceptance C17_standard_acceptance_refuted C17_standard_partial","FALSE of the code: t = r+s = 0 mod n is not rejected. Proved: exact acceptance set, refutation for every public key, and equivalence outside the two missing checks.")
c("C18","partial","C18_reader_failure_refuted C18_reader_failure_partial","FALSE of the code: a failing reader panics (nil nonce).")
c("C19","proved","C19_encrypt_result C19_decrypt_inverts_encrypt C19_good")
c("C20","proved","C20_only_authenticated C20_tampering")
c("C21","partial","C21_encrypt_terminates_refuted C21_termination_condition_partial","FALSE of the code: an all-zero key stream loops forever (nonce not redrawn). Proved: concrete key and nonce, and the exact termination condition.")
c("C22","partial","C22_malformed_refuted C22_off_curve_accepted_refuted C22_off_curve_example_refuted C22_no_crash_partial","FALSE of the code: exact panic condition, and off-curve C1 accepted.")
c("C23","proved","C23_point_round_trip C23_decode_encode")
c("C24","proved","C24_kdf")
c("C25","proved","C25_identity_hash C25_getZ_default_id C25_long_id_wraps")
c("C26","proved","C26_der_signature C26_accepts_only_der C26_string_accepts_only C26_string_api")
c("C27","proved","C27_asn1_round_trip")
c("C28","proved","C28_curve_is_cyclic_group_of_prime_order")
c("C33","proved","C33_hostname C33_hyps")
c("C34","proved","C34_ip_hosts C34_hyps")
c("C35","proved","C35_name_constraint C35_cases","ASCII names (strings.EqualFold's Unicode folding is not modelled).")
c("C36","proved","C36_chains_are_valid_paths C36_signed_by C36_hyps")
c("C37","proved","C37_path_length")
c("C38","proved","C38_terminates")
c("C39","proved","C39_chain_usage C39_verify_usage")
c("C40","proved","C40_pool_is_a_set C40_lookup C40_hyps","copy is a field-by-field duplication; in a functional model independence of the copy is immediate and not stated.")
c("C70","partial","C70_completeness_refuted C70_finds_a_chain_partial","FALSE of the code: the chain cache combined with a path-length limit makes Verify reject a leaf that has a valid path. Proved: the refutation, and completeness when no certificate limits path lengths.")
c("C41","partial","C41_round_trip_partial C41_empty_data_refuted aes_hmac_hyps","FALSE of the code for empty data (decryption always fails). Proved: round trip for every non-empty data below 2^28 bytes, every password and random draw; AES and HMAC are parameters with the stated contracts.")
c("C42","partial","C42_outcome_partial C42_no_panic_refuted C42_padding_checked_refuted","FALSE of the code: malformed IV/data lengths crash, and unpadded data whose last byte is 0 is accepted. Proved: the exact outcome on every decoded input, and both refutations.")
c("C43","partial","C43_always_aes256_partial C43_requested_cipher_refuted","FALSE of the code: every request is encrypted with AES-256-CBC. Proved: exactly that, and the refutation for AES-128.")
c("C44","proved","C44_pbkdf2 C44_hyps")
c("C45","proved","C45_private_key_round_trip C45_public_key_round_trip C45_hyps_pem C45_hyps_key","AES, HMAC, PEM armour and the curve are parameters with stated contracts.")
c("C46","proved","C46_parse_ec_private_key C46_no_panic")
c("C71","partial","C71_aes128_label_refuted","FALSE of the code: data labelled AES-128-CBC is decrypted exactly as if it were labelled AES-256-CBC, for every input.")

c("C47","proved","C47_record_round_trip C47_gm_suite","all suites: stream, AEAD (Open inverts Seal) and CBC with explicit or chained IV; the GM SM4-SM3 suite's halves are shown in sync from ChangeCipherSpec for all keys")
c("C48","proved","C48_accepts_exactly C48_stream","iff, including what the code does when the padding overlaps the MAC; AEAD suites delegate to Open")
c("C49","proved","C49_extractPadding C49_empty","payloads up to 2^31 bytes")
c("C50","proved","C50_counts_records C50_never_wraps","over every history of encrypt/decrypt calls")
c("C51","proved","C51_fragmentation_irrelevant fetch_n_pure","any number of readRecord calls by an arbitrary client; temporary errors retried")
c("C52","proved","C52_write","for halves in sync with a receiver and overhead at most 1000 bytes; the transport write is assumed to succeed")
c("C53","proved","C53_flood C53_tolerated C53_data_resets C53_alert_ends C53_sticky","")
c("C54","proved","C54_no_entry_after_close C54_turned_away C54_one_close C54_counter C54_close_notify C54_no_deadlock","small-step interleaving model of activeCall, c.out and closeNotifySent; fewer than 2^29 calls (int32 counter)")
c("C72","proved","C72_end_to_end C72_writes","untampered, untruncated stream; suites as in C47")
c("C73","proved","C73_parsed_keys_on_curve C73_pem_keys_on_curve","")
c("C55","proved","C55_pHash_is_P_hash C55_pHash_SM3 C55_prf_of_every_version C55_prefix C55_master_secret C55_key_block","stdlib hashes are parameters (streaming object implementing a function); SM3 is the repository's own modelled object")
c("C56","proved","C56_gm_finished C56_tls_finished C56_chunking_irrelevant C56_gm_certificate_digest","")
c("C57","proved","C57_reserved_labels_refused C57_long_context_refused C57_exported_material C57_contexts_separated","")
c("C58","proved","C58_same_pre_master_secret C58_client_produces C58_hyps","")
c("C59","partial","C59_high_byte_ignored_refuted C59_wrong_length_accepted_refuted C59_long_messages_refused_refuted C59_low_byte_partial C59_server_message_partial","FALSE of the code: the high byte of the length prefix of ClientKeyExchange is ignored. Proved: the refutations and exactly which part of the prefix is checked.")
c("C60","proved","C60_signed_data C60_signed_data_injective C60_honest_server_accepted C60_accepts_only_verified","")
c("C61","proved","C61_tickets_round_trip C61_key_split","AES, SHA-256 and SHA-512 are parameters with stated contracts; hypotheses inhabited by C61_hyps")
c("C62","proved","C62_accepted_iff_authentic C62_unmarshal_then_marshal C62_marshal_then_unmarshal C62_tag_tampering_detected","")
c("C74","partial","C74_client_message_crashes_server_refuted C74_wellformed_messages_partial","FALSE of the code: a short ciphertext in ClientKeyExchange makes sm2.Decrypt panic. Proved: the refutation, and no panic when the ciphertext has at least its fixed-size parts.")
c("C63","proved","C63_serverKeyExchange C63_clientKeyExchange C63_finished C63_certificateStatus C63_serverHelloDone C63_helloRequest C63_nextProto C63_newSessionTicket C63_certificateVerify C63_certificate C63_certificateRequest C63_certificateRequestGM C63_clientHello C63_serverHello","wire limits are stated as hypotheses; inhabited by C63_clientHello_hyps, C63_serverHello_hyps, C63_small_hyps")
c("C64","proved","C64_serverKeyExchange C64_clientKeyExchange C64_finished C64_certificateStatus C64_serverHelloDone C64_helloRequest C64_nextProto C64_newSessionTicket C64_certificateVerify C64_certificate C64_certificateRequest C64_certificateRequestGM C64_clientHello C64_serverHello","")
c("C75","proved","C75_certificate C75_clientKeyExchange C75_certificateVerify C75_certificateRequest","certificateRequestMsgGM is the instance hasSig = false")
c("C65","proved","C65_mutual_version C65_client_version C65_hyps")
c("C66","proved","C66_mutual_suite C66_server_selection C66_suite_conditions C66_default_suites C66_fallback C66_protocol C66_hyps","also: default suite list, TLS_FALLBACK_SCSV, ALPN/NPN selection")
c("C67","proved","C67_lru C67_hyps","every history; the answer is given by the trace alone (last value put, number of distinct keys touched since)")
c("C68","proved","C68_by_name C68_other_cases C68_labels_exist_unique C68_trimmed_exists_unique C68_hyps","strings.ToLower is a parameter")
c("C69","proved","C69_any_overlap C69_inexact_overlap C69_hyps")
c("C76","partial","C76_default_minimum_refuted C76_what_is_accepted_partial","FALSE of the code: with MinVersion unset, SSL 3.0 and every number from 0x0101 up are negotiated.")
c("C78","partial","C78_encryption_key_ignored_refuted C78_signing_key_matches_partial C78_hyps","FALSE of the code: encKeyPEMBlock is never read. Proved: result independent of it, and what is checked.")
c("C79","partial","C79_own_key_ignored_refuted C79_ticket_keys_partial","FALSE of the code: a SessionTicketKey set on the config returned by GetConfigForClient is ignored. Proved: refutation and exact behaviour.")
c("C80","partial","C80_enabled_without_keys_refuted C80_keys_present_partial C80_set_keys","FALSE of the code when the original config has tickets disabled. Proved: refutation, and the property in every other case.")
c("C81","partial","C81_upper_case_names_refuted C81_lower_case_names_partial C81_name_map_partial","FALSE of the code: names with upper-case letters in the certificate are never matched. Proved: refutation, and the property for names whose lower-case, dot-trimmed form is carried.")
c("C82","proved","C82_delivered_is_authentic C82_bad_header C82_bad_body","Every delivered payload comes from an authentic, correctly versioned, legally sized application_data record; refusals and their alerts. Non-vacuity: C82_hyps.")
c("C29","partial","C29_ScalarMult_partial C29_ScalarBaseMult_partial C29_ScalarMult_exceptional_refuted C29_generator_refuted C29_ScalarMult_wrong_refuted C29_sm2p256Mul_refuted","FALSE of the code: (n-6)P comes out as (0,0) for every P, and the assembly's field multiplication drops carries, e.g. 1*P <> P for the curve point with abscissa 1. Proved: refutations, and the property for every run in which no field operation returned a wrong word and k mod n <> n-6 (ScalarMult); Booth recoding, window loops, exceptional cases of the addition are covered for all scalars. Non-vacuity: C29_hyps.")
c("C30","partial","C30_PreScalarMult_partial C30_CombinedMult_partial","Proved for all points and scalars, incl. s=0, t=0, sG = tP and sG = -tP, for runs in which no field operation returned a wrong word; without that hypothesis false for the reason in C29.")
c("C31","partial","C31_inverse_chain C31_inverse_words_partial","The addition chain is the (p-2)-th power and the inverse, for all field elements (C31_inverse_chain); for the machine words under the hypothesis that no multiplication of the run lost a carry.")
c("C32","partial","C32_Inverse_refuted C32_OrdSqr_refuted","FALSE of the code: the instructions of sm2p256OrdSqr drop a carry (two instructions are commented out), Inverse(2)*2 <> 1 mod n. Proved: the refutation, on the instructions themselves.")
c("C83","proved","C83_server_flow C83_server_finished C83_C90_hyps","Model of gm_handshake_server_double.go over an arbitrary record layer; full handshakes; for resumed ones see C96. Hypothesis wire_ok only bounds the transcript below 2^59 bytes.")
c("C84","proved","C84_server_secrets C84_server_hello C83_C90_hyps","As C83. The server may complete at a version other than 1.1 if configured so; the theorem names the version.")
c("C85","proved","C85_client_authenticated","Signature and chain checks through X509 model C33-C40; RSA/ECDSA verification is a parameter.")
c("C86","proved","C86_client_flow C86_client_finished C86_client_secrets C83_C90_hyps","As C83, client side.")
c("C87","partial","C87_server_authenticated C87_no_intermediates_refuted C87_server_signature_partial","FALSE of the code in one part: the client accepts a server that sends no ServerKeyExchange, i.e. no signature at all (flag sk of C86_client_flow; C92). Proved: chain/usage/key-type checks for every presented certificate, the signature whenever a ServerKeyExchange is sent, and that the first two certificates can never use intermediates.")
c("C88","proved","C88_client_resumes","")
c("C89","proved","C89_agreement C83_C90_hyps","")
c("C90","proved","C90_tamper_evident C83_C90_hyps","Collision alternative is explicit in the statement.")
c("C77","partial","C77_no_client_crashes_the_server_refuted C77_hyps C77_no_other_crash_partial C77_hyps_safe","FALSE of the code: a ClientHello offering only ECDHE_SM4_SM3 makes every server that allows this suite (the default) panic, before any alert. What holds (C77_no_other_crash_partial): a server whose configurations are GMSSL only and leave that suite out does not panic on any messages, provided the client's ClientKeyExchange is not malformed in the way of C74 (a ciphertext of one byte, or one too short for a point and a hash); example C77_hyps_safe.")
c("C91","proved","C91_completes C91_completes_mutual C91_hyps C91_mutual_hyps C91_example","ECC suite, tickets not offered. The draws excluded are explicit: the two numbers of the signature are non-zero, the SM2 key stream is usable.")
c("C92","partial","C92_server_signature_was_checked_refuted C92_hyps","FALSE of the code: a server that knows only the encryption key completes the handshake with the client without sending a ServerKeyExchange. What holds: C87_server_signature_partial.")
c("C94","partial","C94_default_server_resumes_refuted C94_hyps","FALSE of the code: checkForResumption looks the suite up among the TLS default suites, which contain no GM suite; with Config.CipherSuites nil nothing is ever resumed.")
c("C95","partial","C95_chains_of_the_leaf_refuted C95_hyps","FALSE of the code: the chains reported are those of the last certificate of the message (the encryption certificate when there are two).")
c("C96","proved","C96_server_resumes C96_resumed_finished C96_hyps","The Finished messages of a resumed GM session use the SHA-1 hash of the transcript (doResumeHandshake calls newFinishedHash instead of newFinishedHashGM).")
c("C97","partial","C97_resumption_works_refuted C97_example","FALSE of the code: the client hashes the transcript with SM3, the server with SHA-1; if both completed, the PRF would coincide on two different hash values, for both Finished messages. The hypotheses of the theorem are met only by such a coincidence; C97_example is the failing run.")
c("C93","partial","C93_no_server_crashes_the_client C93_default_client_refuted C93_hyps C93_refuted_hyps","FALSE of the code for clients that offer ECDHE_SM4_SM3 (the default): the server the client trusts signs parameters naming an unknown curve and the client panics. Proved for every client that does not offer that suite (client_sane: its own draws and certificates are byte strings of bounded size, and GetClientCertificate does not return (nil, nil)).")
c("C98","proved","C98_certificate_verifies C98_C99_hyps","Exactly when neither half of the signature is zero. Names and times go through the standard library's encoders, which are parameters (name_ok, time_ok: they can be decoded again).")
c("C99","proved","C99_certificate_fields C98_C99_hyps","exs_ok says which templates the package can express: ExtraExtensions does not override an extension it builds, IP addresses have 4 or 16 octets, UnknownExtKeyUsage is unknown, name constraints are not empty.")
c("C100","partial","C100_key_usage C100_undefined_usage_refuted C100_undefined_usage_example","The nine usages RFC 5280 defines survive exactly. FALSE for values outside them: the certificate reads as unrestricted.")
c("C101","partial","C101_signed_bytes_determine_fields C101_outer_algorithm_ignored_refuted C101_hyps","The first half is proved. The second is FALSE of the code: the outer algorithm is not compared.")
c("C102","proved","C102_unknown_critical_reported C102_critical_name_constraints C102_hyps","")
c("C103","partial","C103_algorithm_not_bound_to_key_refuted","FALSE of the code: with an SM2 key the algorithm is not looked at beyond being one it can hash for.")
c("C104","proved","C104_only_certificate_signers C104_hyps","Except for the one hard-coded Entrust key, as in Go.")
c("C105","proved","C105_request_roundtrip C105_hyps","template.SignatureAlgorithm zero or SM2WithSM3, Attributes nil, ExtraExtensions does not repeat the alternative names. Criticality is dropped.")
c("C106","partial","C106_rsa_request_unsigned_refuted C106_request_key_type_refuted C106_example C105_hyps","FALSE of the code: an RSA request is returned unsigned with no error; SM2WithSHA1/SHA256 requests parse to an ECDSA key.")
c("C107","partial","C107_crl_roundtrip C107_opaque_signer_refuted C107_hyps","Proved for *sm2.PrivateKey. FALSE for other crypto.Signer values with an SM2 public key: they are given the digest instead of the list.")
c("C108","partial","C108_names_roundtrip C108_name_class_ignored_refuted C108_name_class_example C108_bad_address_refuted","The round trip is proved. FALSE: the class of a name is ignored; a certificate with an IP address of another length is made and then refused by the parser.")
c("C109","proved","C109_parsers_never_panic C109_check_never_panics","The decoders of names and times are parameters assumed not to panic.")
c("C110","partial","C110_unknown_usage_never_issued C110_unknown_usage_panics_refuted C110_duplicate_extension_refuted C110_hidden_extensions_refuted","FALSE of the code: CreateCertificate panics on an unknown extended key usage (but never issues it); repeated extensions are accepted, the last one wins; an unexpected element hides all extensions.")
c("C111","proved","C111_no_deadlock C111_example","Waiting for the transport counts as a step; three mutexes, any number of calls.")
c("C112","proved","C112_one_first_handshake C112_no_data_before_handshake C112_same_outcome C113_example C115_example","")
c("C113","proved","C113_failure_is_final C113_example","")
c("C114","proved","C114_renegotiation_limit C114_example","")
c("C115","partial","C115_exclusive_writers_partial C115_race_refuted C115_example","FALSE of the code for clients that allow renegotiation: readHandshake calls sendAlertLocked without the lock. Proved for servers and for RenegotiateNever.")
c("C116","partial","C116_stays_established_partial C116_renegotiation_refuted C115_example","FALSE of the code for clients that allow renegotiation: a Write between its two checks fails with alertInternalError. Proved for servers and for RenegotiateNever.")
c("C118","proved","C118_message_bounds C118_terminates C118_memory C118_oversized C118_alert_sent C118_hyps C118_oversized_hyps C118_oversized_run","")
c("C119","partial","C119_server_partial C119_client_partial C119_temporary_error_refuted C119_clear_finished_refused C119_keys_change","Proved for all peers and fragmentations over networks that report no temporary errors. FALSE of the code with them: readFinished drops the result of readRecord(ChangeCipherSpec) and looks at c.in.err, which a temporary error (a read timeout) does not set, so the reader goes on to Finished with its old, empty keys.")
c("C117","proved","C117_reassembly C117_written_read C117_hyps C117_example C117_writer_hyps","")
c("C120","proved","C120_end_to_end C120_honest_ends C120_honest_ends_mutual C120_example C120_ivs_exist","Full handshakes (no resumption), the ECC suite, messages of at most 65540 bytes; no temporary network errors (C119 shows what those break). C120_honest_ends starts from the configurations of C91.")
c("C121","proved","C121_server_flow C121_server_short_flow C121_server_finished C121_C132_hyps","Versions SSL 3.0 - TLS 1.2; C121_server_finished excludes a connection at version 0x0101 (which the ordinary server also accepts, see DESIGN).")
c("C122","proved","C122_server_negotiation C122_server_hello C121_C132_hyps","")
c("C123","proved","C123_client_authenticated C121_C132_hyps","")
c("C124","proved","C124_server_secrets C121_C132_hyps","")
c("C125","proved","C125_server_resumes C125_C132_resumed_hyps","")
c("C126","proved","C126_client_flow C126_client_short_flow C126_client_finished C126_client_negotiation C121_C132_hyps","")
c("C127","proved","C127_server_authenticated C121_C132_hyps","")
c("C128","proved","C128_client_secrets C128_client_signature C121_C132_hyps","")
c("C129","proved","C129_renegotiation C129_remembered C129_hyps","")
c("C130","partial","C130_client_resumes C130_client_stores C130_renegotiated_key_refuted C125_C132_resumed_hyps C129_hyps","The storage-key clause holds for first handshakes; after a renegotiation the code stores the session under the empty key (C130_renegotiated_key_refuted): any later client of any server whose key is empty would find it, and the intended key is never used.")
c("C131","proved","C131_same_parameters C131_agreement C131_resumed C131_rsa_hyps C121_C132_hyps C125_C132_resumed_hyps","")
c("C132","proved","C132_tamper_evident C132_tamper_evident_resumed C121_C132_hyps C125_C132_resumed_hyps","")
c("C133","partial","C133_no_client_crashes_the_server C133_default_server_refuted C133_hyps","FALSE of the code for the default Config: MinVersion 0 means 0x0101, so a ClientHello of version 0x0102..0x02ff is negotiated and newFinishedHash panics. Proved for every server whose MinVersion is at least SSL 3.0 and MaxVersion at most TLS 1.2 (std_server_sane: its own keys, certificates, callbacks and random draws behave), with client authentication, resumption, ALPN/NPN, tickets, GetConfigForClient.")
c("C134","partial","C134_no_server_crashes_the_client C134_default_client_refuted C134_nil_certificate_refuted C134_hyps","FALSE of the code for clients that offer an RSA key exchange suite (the default): a server with an ECDSA certificate that picks an RSA suite crashes the client (key_agreement.go:77). Proved for every client that offers ECDHE suites only and MaxVersion at most TLS 1.2 (std_client_sane), including resumption and renegotiation.")
c("C135","proved","C135_key_pair C135_key_formats C135_pkcs1 C135_sm2_pair_works C135_never_panics C135_hyps","RSA compares moduli only and ECDSA coordinates only (not the curve), as the code does. encoding/pem, the ASN.1 of RSA keys and rsa.Validate are parameters. Signatures: for every key except d = n-1, and apart from the r = 0 or s = 0 draws of C13.")
c("C136","proved","C136_connection C136_error C136_first_wins C136_time_limit C136_no_goroutine_blocks C136_limit C136_deadline_now_refuted C136_server_name C136_listen C136_hyps","Except at one instant: a Deadline of exactly now, with Timeout 0, counts as no time limit (C136_deadline_now_refuted). net.Dialer.Dial and Conn.Handshake are the environment; that closing the raw connection ends the handshake goroutine's reads is not modelled.")
c("C137","partial","C137_address C137_sni C137_never_dot C137_plain_address C137_dotted_address_refuted C137_hyps","FALSE of the code for an IP address followed by dots (1.2.3.4.): the address check precedes the removal of the dots, so the bare address is sent. Proved otherwise.")
c("C138","partial","C138_protocol_refuted C138_group_refuted C138_suite_version_refuted C138_offered_partial C121_C132_hyps","FALSE of the code in three parts, each with a completed handshake over a verified certificate: an ALPN protocol the client did not offer, a group it did not offer (P-256 for an X25519-only client), an AES-GCM suite at TLS 1.0. Proved for every run: the suite and the TLS 1.2 signature algorithm were offered, an NPN protocol is the client's own, the group is one of the four implemented and the point valid. C121_C132_hyps is a run that meets the hypotheses of the positive part.")
c("C139","partial","C139_append C139_system_roots C139_environment C139_pool_or_error_refuted C139_hyps","FALSE of the code in one part: where no root file exists SystemCertPool returns (nil, nil), and AddCert on that pool dereferences nil (C139_pool_or_error_refuted). The rest is proved. encoding/pem (each block uses up text), ParseCertificate, ReadFile and ReadDir are parameters.")
c("C140","partial","C140_round_trip C140_written C140_accepts C140_crt_ignored C140_never_panics C140_modulus C140_marshal_refuted C140_hyps","FALSE of the code in one part: a key with a repeated third prime is accepted by ParsePKCS1PrivateKey, but MarshalPKCS1PrivateKey drops the error of asn1.Marshal and returns nothing (C140_marshal_refuted). The rest is proved. rsa.Validate (refuses primes below 2) and big.Int.ModInverse are parameters; rsa.Precompute and encoding/asn1 are modelled; encodings of up to 2^31 bytes.")
c("C141","partial","C141_written C141_round_trip C141_sm2_keys C141_trailing_data C141_recomputed C141_accepts C141_refuses C141_panics_refuted C141_never_panics C141_hyps","FALSE of the code in one part: MarshalECPrivateKey panics when D needs more octets than the order (C141_panics_refuted). The rest is proved; the NIST curves are parameters (sizes below 2^20 octets), SM2 is concrete.")
c("C142","proved","C142_fixed_object C142_xor_object C142_written_5288 C142_written_7905 C142_nonces_distinct C142_read_5288 C142_read_7905 C142_round_trip C142_hyps","The inner cipher.AEAD is a parameter: reading assumes that it refuses texts shorter than its tag, the round trip that Open inverts Seal. Connections past 2^64 records stop with a panic (C50).")
c("C143","proved","C143_sm3 C143_record_mac C143_sha256 C143_sha1 C143_ssl30 C143_hyps","Keys and messages below 2^59 bytes. SM3 is the model of sm3/; the standard library's SHA-1 and SHA-256 objects (and SHA-1's ConstantTimeSum) are parameters that implement their hash functions; crypto/hmac is modelled. Timing is not modelled.")
c("C144","partial","C144_pairs_partial C144_single_partial C144_pair_works C144_chain_dropped C144_files C144_never_panics C144_enc_key_ignored C144_enc_key_refuted C144_chain_refuted C144_hyps","FALSE of the code in two parts, each with an accepted concrete case: the encryption key text is never read (an empty text and an encryption certificate that does not parse are accepted), and the intermediate certificates after the first are dropped, although the documentation of LoadGMX509KeyPairs promises a chain. Proved: exactly what is accepted and returned (the first certificate of each text, the signing key matching the signing certificate), that the key signs, the file loaders, no panic. encoding/pem, the ASN.1 of RSA keys, rsa.Validate and ioutil.ReadFile are parameters.")
c("C145","partial","C145_exported_material_partial C145_both_ends C145_tls_unique_both_ends C145_refused C145_incomplete_refuted C145_tls_unique C145_hyps","FALSE of the code in one part: the ConnectionState of a connection whose handshake is not complete holds a nil function, so ExportKeyingMaterial panics. Proved: the RFC 5705 value, its equality at both ends of an ordinary TLS handshake (composed with C131), the refusals. TLSUnique at both ends too. C121_C132_hyps is a run that meets both. That TLSUnique aliases the connection's array is not modelled.")
