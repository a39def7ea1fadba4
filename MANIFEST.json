{
 "claims": [
  {
   "property": "C01",
   "status": "proved",
   "theorems": [
    "C01_SumSM3_is_SM3"
   ],
   "note": ""
  },
  {
   "property": "C02",
   "status": "proved",
   "theorems": [
    "C02_streaming_equals_one_shot"
   ],
   "note": ""
  },
  {
   "property": "C03",
   "status": "proved",
   "theorems": [
    "C03_histories_match_reference"
   ],
   "note": ""
  },
  {
   "property": "C04",
   "status": "proved",
   "theorems": [
    "C04_no_panic_and_size_32"
   ],
   "note": ""
  },
  {
   "property": "C05",
   "status": "proved",
   "theorems": [
    "C05_block_is_SM4",
    "C05_hyps"
   ],
   "note": ""
  },
  {
   "property": "C06",
   "status": "proved",
   "theorems": [
    "C06_decrypt_inverts_encrypt"
   ],
   "note": ""
  },
  {
   "property": "C07",
   "status": "proved",
   "theorems": [
    "C07_key_size"
   ],
   "note": ""
  },
  {
   "property": "C08",
   "status": "proved",
   "theorems": [
    "C08_ecb_round_trip"
   ],
   "note": ""
  },
  {
   "property": "C09",
   "status": "proved",
   "theorems": [
    "C09_cbc_round_trip"
   ],
   "note": ""
  },
  {
   "property": "C10",
   "status": "partial",
   "theorems": [
    "C10_malformed_reported_refuted",
    "C10_decrypt_outcome_partial"
   ],
   "note": "The property is FALSE of the code: malformed ciphertexts give (nil, nil) and the empty one panics. Proved: the refutation for every key, and the exact outcome on every nonempty input."
  },
  {
   "property": "C11",
   "status": "partial",
   "theorems": [
    "C11_caller_memory_refuted",
    "C11_caller_memory_partial"
   ],
   "note": "The property is FALSE of the code: append in pkcs7Padding writes into spare capacity. Proved: the refutation and what is preserved."
  },
  {
   "property": "C12",
   "status": "proved",
   "theorems": [
    "C12_keygen",
    "C12_reader_failure",
    "C12_keygen_arm64",
    "C12_all_keys_reachable"
   ],
   "note": "For any curve implementation that is right on the one base multiplication made; unconditional for arm64 (standard-library curve)."
  },
  {
   "property": "C13",
   "status": "proved",
   "theorems": [
    "C13_sign_verify",
    "C13_sign_verify_good",
    "C13_hyps",
    "C13_degenerate_nonces"
   ],
   "note": "Verifies exactly when r and s are nonzero; relative to the curve implementation being right on the calls made (see C29/C30)."
  },
  {
   "property": "C14",
   "status": "proved",
   "theorems": [
    "C14_digest_sign_verify",
    "C14_digest_sign_verify_good",
    "C14_message_is_digest"
   ],
   "note": ""
  },
  {
   "property": "C15",
   "status": "partial",
   "theorems": [
    "C15_every_key_signs_refuted",
    "C15_other_keys_sign_partial"
   ],
   "note": "FALSE of the code: D = n-1 is generated and can never sign. Proved: the refutation, and that all other keys sign."
  },
  {
   "property": "C16",
   "status": "proved",
   "theorems": [
    "C16_out_of_range_rejected"
   ],
   "note": ""
  },
  {
   "property": "C17",
   "status": "partial",
   "theorems": [
    "C17_exact_acceptance",
    "C17_standard_acceptance_refuted",
    "C17_standard_partial"
   ],
   "note": "FALSE of the code: t = r+s = 0 mod n is not rejected. Proved: exact acceptance set, refutation for every public key, and equivalence outside the two missing checks."
  },
  {
   "property": "C18",
   "status": "partial",
   "theorems": [
    "C18_reader_failure_refuted",
    "C18_reader_failure_partial"
   ],
   "note": "FALSE of the code: a failing reader panics (nil nonce)."
  },
  {
   "property": "C19",
   "status": "proved",
   "theorems": [
    "C19_encrypt_result",
    "C19_decrypt_inverts_encrypt",
    "C19_good"
   ],
   "note": ""
  },
  {
   "property": "C20",
   "status": "proved",
   "theorems": [
    "C20_only_authenticated",
    "C20_tampering"
   ],
   "note": ""
  },
  {
   "property": "C21",
   "status": "partial",
   "theorems": [
    "C21_encrypt_terminates_refuted",
    "C21_termination_condition_partial"
   ],
   "note": "FALSE of the code: an all-zero key stream loops forever (nonce not redrawn). Proved: concrete key and nonce, and the exact termination condition."
  },
  {
   "property": "C22",
   "status": "partial",
   "theorems": [
    "C22_malformed_refuted",
    "C22_off_curve_accepted_refuted",
    "C22_off_curve_example_refuted",
    "C22_no_crash_partial"
   ],
   "note": "FALSE of the code: exact panic condition, and off-curve C1 accepted."
  },
  {
   "property": "C23",
   "status": "proved",
   "theorems": [
    "C23_point_round_trip",
    "C23_decode_encode"
   ],
   "note": ""
  },
  {
   "property": "C24",
   "status": "proved",
   "theorems": [
    "C24_kdf"
   ],
   "note": ""
  },
  {
   "property": "C25",
   "status": "proved",
   "theorems": [
    "C25_identity_hash",
    "C25_getZ_default_id",
    "C25_long_id_wraps"
   ],
   "note": ""
  },
  {
   "property": "C26",
   "status": "proved",
   "theorems": [
    "C26_der_signature",
    "C26_accepts_only_der",
    "C26_string_accepts_only",
    "C26_string_api"
   ],
   "note": ""
  },
  {
   "property": "C27",
   "status": "proved",
   "theorems": [
    "C27_asn1_round_trip"
   ],
   "note": ""
  },
  {
   "property": "C28",
   "status": "proved",
   "theorems": [
    "C28_curve_is_cyclic_group_of_prime_order"
   ],
   "note": ""
  },
  {
   "property": "C33",
   "status": "proved",
   "theorems": [
    "C33_hostname",
    "C33_hyps"
   ],
   "note": ""
  },
  {
   "property": "C34",
   "status": "proved",
   "theorems": [
    "C34_ip_hosts",
    "C34_hyps"
   ],
   "note": ""
  },
  {
   "property": "C35",
   "status": "proved",
   "theorems": [
    "C35_name_constraint",
    "C35_cases"
   ],
   "note": "ASCII names (strings.EqualFold's Unicode folding is not modelled)."
  },
  {
   "property": "C36",
   "status": "proved",
   "theorems": [
    "C36_chains_are_valid_paths",
    "C36_signed_by",
    "C36_hyps"
   ],
   "note": ""
  },
  {
   "property": "C37",
   "status": "proved",
   "theorems": [
    "C37_path_length"
   ],
   "note": ""
  },
  {
   "property": "C38",
   "status": "proved",
   "theorems": [
    "C38_terminates"
   ],
   "note": ""
  },
  {
   "property": "C39",
   "status": "proved",
   "theorems": [
    "C39_chain_usage",
    "C39_verify_usage"
   ],
   "note": ""
  },
  {
   "property": "C40",
   "status": "proved",
   "theorems": [
    "C40_pool_is_a_set",
    "C40_lookup",
    "C40_hyps"
   ],
   "note": "copy is a field-by-field duplication; in a functional model independence of the copy is immediate and not stated."
  },
  {
   "property": "C70",
   "status": "partial",
   "theorems": [
    "C70_completeness_refuted",
    "C70_finds_a_chain_partial"
   ],
   "note": "FALSE of the code: the chain cache combined with a path-length limit makes Verify reject a leaf that has a valid path. Proved: the refutation, and completeness when no certificate limits path lengths."
  },
  {
   "property": "C41",
   "status": "partial",
   "theorems": [
    "C41_round_trip_partial",
    "C41_empty_data_refuted",
    "aes_hmac_hyps"
   ],
   "note": "FALSE of the code for empty data (decryption always fails). Proved: round trip for every non-empty data below 2^28 bytes, every password and random draw; AES and HMAC are parameters with the stated contracts."
  },
  {
   "property": "C42",
   "status": "partial",
   "theorems": [
    "C42_outcome_partial",
    "C42_no_panic_refuted",
    "C42_padding_checked_refuted"
   ],
   "note": "FALSE of the code: malformed IV/data lengths crash, and unpadded data whose last byte is 0 is accepted. Proved: the exact outcome on every decoded input, and both refutations."
  },
  {
   "property": "C43",
   "status": "partial",
   "theorems": [
    "C43_always_aes256_partial",
    "C43_requested_cipher_refuted"
   ],
   "note": "FALSE of the code: every request is encrypted with AES-256-CBC. Proved: exactly that, and the refutation for AES-128."
  },
  {
   "property": "C44",
   "status": "proved",
   "theorems": [
    "C44_pbkdf2",
    "C44_hyps"
   ],
   "note": ""
  },
  {
   "property": "C45",
   "status": "proved",
   "theorems": [
    "C45_private_key_round_trip",
    "C45_public_key_round_trip",
    "C45_hyps_pem",
    "C45_hyps_key"
   ],
   "note": "AES, HMAC, PEM armour and the curve are parameters with stated contracts."
  },
  {
   "property": "C46",
   "status": "proved",
   "theorems": [
    "C46_parse_ec_private_key",
    "C46_no_panic"
   ],
   "note": ""
  },
  {
   "property": "C71",
   "status": "partial",
   "theorems": [
    "C71_aes128_label_refuted"
   ],
   "note": "FALSE of the code: data labelled AES-128-CBC is decrypted exactly as if it were labelled AES-256-CBC, for every input."
  },
  {
   "property": "C47",
   "status": "proved",
   "theorems": [
    "C47_record_round_trip",
    "C47_gm_suite"
   ],
   "note": "all suites: stream, AEAD (Open inverts Seal) and CBC with explicit or chained IV; the GM SM4-SM3 suite's halves are shown in sync from ChangeCipherSpec for all keys"
  },
  {
   "property": "C48",
   "status": "proved",
   "theorems": [
    "C48_accepts_exactly",
    "C48_stream"
   ],
   "note": "iff, including what the code does when the padding overlaps the MAC; AEAD suites delegate to Open"
  },
  {
   "property": "C49",
   "status": "proved",
   "theorems": [
    "C49_extractPadding",
    "C49_empty"
   ],
   "note": "payloads up to 2^31 bytes"
  },
  {
   "property": "C50",
   "status": "proved",
   "theorems": [
    "C50_counts_records",
    "C50_never_wraps"
   ],
   "note": "over every history of encrypt/decrypt calls"
  },
  {
   "property": "C51",
   "status": "proved",
   "theorems": [
    "C51_fragmentation_irrelevant",
    "fetch_n_pure"
   ],
   "note": "any number of readRecord calls by an arbitrary client; temporary errors retried"
  },
  {
   "property": "C52",
   "status": "proved",
   "theorems": [
    "C52_write"
   ],
   "note": "for halves in sync with a receiver and overhead at most 1000 bytes; the transport write is assumed to succeed"
  },
  {
   "property": "C53",
   "status": "proved",
   "theorems": [
    "C53_flood",
    "C53_tolerated",
    "C53_data_resets",
    "C53_alert_ends",
    "C53_sticky"
   ],
   "note": ""
  },
  {
   "property": "C54",
   "status": "proved",
   "theorems": [
    "C54_no_entry_after_close",
    "C54_turned_away",
    "C54_one_close",
    "C54_counter",
    "C54_close_notify",
    "C54_no_deadlock"
   ],
   "note": "small-step interleaving model of activeCall, c.out and closeNotifySent; fewer than 2^29 calls (int32 counter)"
  },
  {
   "property": "C72",
   "status": "proved",
   "theorems": [
    "C72_end_to_end",
    "C72_writes"
   ],
   "note": "untampered, untruncated stream; suites as in C47"
  },
  {
   "property": "C73",
   "status": "proved",
   "theorems": [
    "C73_parsed_keys_on_curve",
    "C73_pem_keys_on_curve"
   ],
   "note": ""
  },
  {
   "property": "C55",
   "status": "proved",
   "theorems": [
    "C55_pHash_is_P_hash",
    "C55_pHash_SM3",
    "C55_prf_of_every_version",
    "C55_prefix",
    "C55_master_secret",
    "C55_key_block"
   ],
   "note": "stdlib hashes are parameters (streaming object implementing a function); SM3 is the repository's own modelled object"
  },
  {
   "property": "C56",
   "status": "proved",
   "theorems": [
    "C56_gm_finished",
    "C56_tls_finished",
    "C56_chunking_irrelevant",
    "C56_gm_certificate_digest"
   ],
   "note": ""
  },
  {
   "property": "C57",
   "status": "proved",
   "theorems": [
    "C57_reserved_labels_refused",
    "C57_long_context_refused",
    "C57_exported_material",
    "C57_contexts_separated"
   ],
   "note": ""
  },
  {
   "property": "C58",
   "status": "proved",
   "theorems": [
    "C58_same_pre_master_secret",
    "C58_client_produces",
    "C58_hyps"
   ],
   "note": ""
  },
  {
   "property": "C59",
   "status": "partial",
   "theorems": [
    "C59_high_byte_ignored_refuted",
    "C59_wrong_length_accepted_refuted",
    "C59_long_messages_refused_refuted",
    "C59_low_byte_partial",
    "C59_server_message_partial"
   ],
   "note": "FALSE of the code: the high byte of the length prefix of ClientKeyExchange is ignored. Proved: the refutations and exactly which part of the prefix is checked."
  },
  {
   "property": "C60",
   "status": "proved",
   "theorems": [
    "C60_signed_data",
    "C60_signed_data_injective",
    "C60_honest_server_accepted",
    "C60_accepts_only_verified"
   ],
   "note": ""
  },
  {
   "property": "C61",
   "status": "proved",
   "theorems": [
    "C61_tickets_round_trip",
    "C61_key_split"
   ],
   "note": "AES, SHA-256 and SHA-512 are parameters with stated contracts; hypotheses inhabited by C61_hyps"
  },
  {
   "property": "C62",
   "status": "proved",
   "theorems": [
    "C62_accepted_iff_authentic",
    "C62_unmarshal_then_marshal",
    "C62_marshal_then_unmarshal",
    "C62_tag_tampering_detected"
   ],
   "note": ""
  },
  {
   "property": "C74",
   "status": "partial",
   "theorems": [
    "C74_client_message_crashes_server_refuted",
    "C74_wellformed_messages_partial"
   ],
   "note": "FALSE of the code: a short ciphertext in ClientKeyExchange makes sm2.Decrypt panic. Proved: the refutation, and no panic when the ciphertext has at least its fixed-size parts."
  },
  {
   "property": "C63",
   "status": "proved",
   "theorems": [
    "C63_serverKeyExchange",
    "C63_clientKeyExchange",
    "C63_finished",
    "C63_certificateStatus",
    "C63_serverHelloDone",
    "C63_helloRequest",
    "C63_nextProto",
    "C63_newSessionTicket",
    "C63_certificateVerify",
    "C63_certificate",
    "C63_certificateRequest",
    "C63_certificateRequestGM",
    "C63_clientHello",
    "C63_serverHello"
   ],
   "note": "wire limits are stated as hypotheses; inhabited by C63_clientHello_hyps, C63_serverHello_hyps, C63_small_hyps"
  },
  {
   "property": "C64",
   "status": "proved",
   "theorems": [
    "C64_serverKeyExchange",
    "C64_clientKeyExchange",
    "C64_finished",
    "C64_certificateStatus",
    "C64_serverHelloDone",
    "C64_helloRequest",
    "C64_nextProto",
    "C64_newSessionTicket",
    "C64_certificateVerify",
    "C64_certificate",
    "C64_certificateRequest",
    "C64_certificateRequestGM",
    "C64_clientHello",
    "C64_serverHello"
   ],
   "note": ""
  },
  {
   "property": "C75",
   "status": "proved",
   "theorems": [
    "C75_certificate",
    "C75_clientKeyExchange",
    "C75_certificateVerify",
    "C75_certificateRequest"
   ],
   "note": "certificateRequestMsgGM is the instance hasSig = false"
  },
  {
   "property": "C65",
   "status": "proved",
   "theorems": [
    "C65_mutual_version",
    "C65_client_version",
    "C65_hyps"
   ],
   "note": ""
  },
  {
   "property": "C66",
   "status": "proved",
   "theorems": [
    "C66_mutual_suite",
    "C66_server_selection",
    "C66_suite_conditions",
    "C66_default_suites",
    "C66_fallback",
    "C66_protocol",
    "C66_hyps"
   ],
   "note": "also: default suite list, TLS_FALLBACK_SCSV, ALPN/NPN selection"
  },
  {
   "property": "C67",
   "status": "proved",
   "theorems": [
    "C67_lru",
    "C67_hyps"
   ],
   "note": "every history; the answer is given by the trace alone (last value put, number of distinct keys touched since)"
  },
  {
   "property": "C68",
   "status": "proved",
   "theorems": [
    "C68_by_name",
    "C68_other_cases",
    "C68_labels_exist_unique",
    "C68_trimmed_exists_unique",
    "C68_hyps"
   ],
   "note": "strings.ToLower is a parameter"
  },
  {
   "property": "C69",
   "status": "proved",
   "theorems": [
    "C69_any_overlap",
    "C69_inexact_overlap",
    "C69_hyps"
   ],
   "note": ""
  },
  {
   "property": "C76",
   "status": "partial",
   "theorems": [
    "C76_default_minimum_refuted",
    "C76_what_is_accepted_partial"
   ],
   "note": "FALSE of the code: with MinVersion unset, SSL 3.0 and every number from 0x0101 up are negotiated."
  },
  {
   "property": "C78",
   "status": "partial",
   "theorems": [
    "C78_encryption_key_ignored_refuted",
    "C78_signing_key_matches_partial",
    "C78_hyps"
   ],
   "note": "FALSE of the code: encKeyPEMBlock is never read. Proved: result independent of it, and what is checked."
  },
  {
   "property": "C79",
   "status": "partial",
   "theorems": [
    "C79_own_key_ignored_refuted",
    "C79_ticket_keys_partial"
   ],
   "note": "FALSE of the code: a SessionTicketKey set on the config returned by GetConfigForClient is ignored. Proved: refutation and exact behaviour."
  },
  {
   "property": "C80",
   "status": "partial",
   "theorems": [
    "C80_enabled_without_keys_refuted",
    "C80_keys_present_partial",
    "C80_set_keys"
   ],
   "note": "FALSE of the code when the original config has tickets disabled. Proved: refutation, and the property in every other case."
  },
  {
   "property": "C81",
   "status": "partial",
   "theorems": [
    "C81_upper_case_names_refuted",
    "C81_lower_case_names_partial",
    "C81_name_map_partial"
   ],
   "note": "FALSE of the code: names with upper-case letters in the certificate are never matched. Proved: refutation, and the property for names whose lower-case, dot-trimmed form is carried."
  },
  {
   "property": "C82",
   "status": "proved",
   "theorems": [
    "C82_delivered_is_authentic",
    "C82_bad_header",
    "C82_bad_body"
   ],
   "note": "Every delivered payload comes from an authentic, correctly versioned, legally sized application_data record; refusals and their alerts. Non-vacuity: C82_hyps."
  },
  {
   "property": "C29",
   "status": "partial",
   "theorems": [
    "C29_ScalarMult_partial",
    "C29_ScalarBaseMult_partial",
    "C29_ScalarMult_exceptional_refuted",
    "C29_generator_refuted",
    "C29_ScalarMult_wrong_refuted",
    "C29_sm2p256Mul_refuted"
   ],
   "note": "FALSE of the code: (n-6)P comes out as (0,0) for every P, and the assembly's field multiplication drops carries, e.g. 1*P <> P for the curve point with abscissa 1. Proved: refutations, and the property for every run in which no field operation returned a wrong word and k mod n <> n-6 (ScalarMult); Booth recoding, window loops, exceptional cases of the addition are covered for all scalars. Non-vacuity: C29_hyps."
  },
  {
   "property": "C30",
   "status": "partial",
   "theorems": [
    "C30_PreScalarMult_partial",
    "C30_CombinedMult_partial"
   ],
   "note": "Proved for all points and scalars, incl. s=0, t=0, sG = tP and sG = -tP, for runs in which no field operation returned a wrong word; without that hypothesis false for the reason in C29."
  },
  {
   "property": "C31",
   "status": "partial",
   "theorems": [
    "C31_inverse_chain",
    "C31_inverse_words_partial"
   ],
   "note": "The addition chain is the (p-2)-th power and the inverse, for all field elements (C31_inverse_chain); for the machine words under the hypothesis that no multiplication of the run lost a carry."
  },
  {
   "property": "C32",
   "status": "partial",
   "theorems": [
    "C32_Inverse_refuted",
    "C32_OrdSqr_refuted"
   ],
   "note": "FALSE of the code: the instructions of sm2p256OrdSqr drop a carry (two instructions are commented out), Inverse(2)*2 <> 1 mod n. Proved: the refutation, on the instructions themselves."
  },
  {
   "property": "C83",
   "status": "proved",
   "theorems": [
    "C83_server_flow",
    "C83_server_finished",
    "C83_C90_hyps"
   ],
   "note": "Model of gm_handshake_server_double.go over an arbitrary record layer; full handshakes; for resumed ones see C96. Hypothesis wire_ok only bounds the transcript below 2^59 bytes."
  },
  {
   "property": "C84",
   "status": "proved",
   "theorems": [
    "C84_server_secrets",
    "C84_server_hello",
    "C83_C90_hyps"
   ],
   "note": "As C83. The server may complete at a version other than 1.1 if configured so; the theorem names the version."
  },
  {
   "property": "C85",
   "status": "proved",
   "theorems": [
    "C85_client_authenticated"
   ],
   "note": "Signature and chain checks through X509 model C33-C40; RSA/ECDSA verification is a parameter."
  },
  {
   "property": "C86",
   "status": "proved",
   "theorems": [
    "C86_client_flow",
    "C86_client_finished",
    "C86_client_secrets",
    "C83_C90_hyps"
   ],
   "note": "As C83, client side."
  },
  {
   "property": "C87",
   "status": "partial",
   "theorems": [
    "C87_server_authenticated",
    "C87_no_intermediates_refuted",
    "C87_server_signature_partial"
   ],
   "note": "FALSE of the code in one part: the client accepts a server that sends no ServerKeyExchange, i.e. no signature at all (flag sk of C86_client_flow; C92). Proved: chain/usage/key-type checks for every presented certificate, the signature whenever a ServerKeyExchange is sent, and that the first two certificates can never use intermediates."
  },
  {
   "property": "C88",
   "status": "proved",
   "theorems": [
    "C88_client_resumes"
   ],
   "note": ""
  },
  {
   "property": "C89",
   "status": "proved",
   "theorems": [
    "C89_agreement",
    "C83_C90_hyps"
   ],
   "note": ""
  },
  {
   "property": "C90",
   "status": "proved",
   "theorems": [
    "C90_tamper_evident",
    "C83_C90_hyps"
   ],
   "note": "Collision alternative is explicit in the statement."
  },
  {
   "property": "C77",
   "status": "partial",
   "theorems": [
    "C77_no_client_crashes_the_server_refuted",
    "C77_hyps",
    "C77_no_other_crash_partial",
    "C77_hyps_safe"
   ],
   "note": "FALSE of the code: a ClientHello offering only ECDHE_SM4_SM3 makes every server that allows this suite (the default) panic, before any alert. What holds (C77_no_other_crash_partial): a server whose configurations are GMSSL only and leave that suite out does not panic on any messages, provided the client's ClientKeyExchange is not malformed in the way of C74 (a ciphertext of one byte, or one too short for a point and a hash); example C77_hyps_safe."
  },
  {
   "property": "C91",
   "status": "proved",
   "theorems": [
    "C91_completes",
    "C91_completes_mutual",
    "C91_hyps",
    "C91_mutual_hyps",
    "C91_example"
   ],
   "note": "ECC suite, tickets not offered. The draws excluded are explicit: the two numbers of the signature are non-zero, the SM2 key stream is usable."
  },
  {
   "property": "C92",
   "status": "partial",
   "theorems": [
    "C92_server_signature_was_checked_refuted",
    "C92_hyps"
   ],
   "note": "FALSE of the code: a server that knows only the encryption key completes the handshake with the client without sending a ServerKeyExchange. What holds: C87_server_signature_partial."
  },
  {
   "property": "C94",
   "status": "partial",
   "theorems": [
    "C94_default_server_resumes_refuted",
    "C94_hyps"
   ],
   "note": "FALSE of the code: checkForResumption looks the suite up among the TLS default suites, which contain no GM suite; with Config.CipherSuites nil nothing is ever resumed."
  },
  {
   "property": "C95",
   "status": "partial",
   "theorems": [
    "C95_chains_of_the_leaf_refuted",
    "C95_hyps"
   ],
   "note": "FALSE of the code: the chains reported are those of the last certificate of the message (the encryption certificate when there are two)."
  },
  {
   "property": "C96",
   "status": "proved",
   "theorems": [
    "C96_server_resumes",
    "C96_resumed_finished",
    "C96_hyps"
   ],
   "note": "The Finished messages of a resumed GM session use the SHA-1 hash of the transcript (doResumeHandshake calls newFinishedHash instead of newFinishedHashGM)."
  },
  {
   "property": "C97",
   "status": "partial",
   "theorems": [
    "C97_resumption_works_refuted",
    "C97_example"
   ],
   "note": "FALSE of the code: the client hashes the transcript with SM3, the server with SHA-1; if both completed, the PRF would coincide on two different hash values, for both Finished messages. The hypotheses of the theorem are met only by such a coincidence; C97_example is the failing run."
  },
  {
   "property": "C93",
   "status": "partial",
   "theorems": [
    "C93_no_server_crashes_the_client",
    "C93_default_client_refuted",
    "C93_hyps",
    "C93_refuted_hyps"
   ],
   "note": "FALSE of the code for clients that offer ECDHE_SM4_SM3 (the default): the server the client trusts signs parameters naming an unknown curve and the client panics. Proved for every client that does not offer that suite (client_sane: its own draws and certificates are byte strings of bounded size, and GetClientCertificate does not return (nil, nil))."
  },
  {
   "property": "C98",
   "status": "proved",
   "theorems": [
    "C98_certificate_verifies",
    "C98_C99_hyps"
   ],
   "note": "Exactly when neither half of the signature is zero. Names and times go through the standard library's encoders, which are parameters (name_ok, time_ok: they can be decoded again)."
  },
  {
   "property": "C99",
   "status": "proved",
   "theorems": [
    "C99_certificate_fields",
    "C98_C99_hyps"
   ],
   "note": "exs_ok says which templates the package can express: ExtraExtensions does not override an extension it builds, IP addresses have 4 or 16 octets, UnknownExtKeyUsage is unknown, name constraints are not empty."
  },
  {
   "property": "C100",
   "status": "partial",
   "theorems": [
    "C100_key_usage",
    "C100_undefined_usage_refuted",
    "C100_undefined_usage_example"
   ],
   "note": "The nine usages RFC 5280 defines survive exactly. FALSE for values outside them: the certificate reads as unrestricted."
  },
  {
   "property": "C101",
   "status": "partial",
   "theorems": [
    "C101_signed_bytes_determine_fields",
    "C101_outer_algorithm_ignored_refuted",
    "C101_hyps"
   ],
   "note": "The first half is proved. The second is FALSE of the code: the outer algorithm is not compared."
  },
  {
   "property": "C102",
   "status": "proved",
   "theorems": [
    "C102_unknown_critical_reported",
    "C102_critical_name_constraints",
    "C102_hyps"
   ],
   "note": ""
  },
  {
   "property": "C103",
   "status": "partial",
   "theorems": [
    "C103_algorithm_not_bound_to_key_refuted"
   ],
   "note": "FALSE of the code: with an SM2 key the algorithm is not looked at beyond being one it can hash for."
  },
  {
   "property": "C104",
   "status": "proved",
   "theorems": [
    "C104_only_certificate_signers",
    "C104_hyps"
   ],
   "note": "Except for the one hard-coded Entrust key, as in Go."
  },
  {
   "property": "C105",
   "status": "proved",
   "theorems": [
    "C105_request_roundtrip",
    "C105_hyps"
   ],
   "note": "template.SignatureAlgorithm zero or SM2WithSM3, Attributes nil, ExtraExtensions does not repeat the alternative names. Criticality is dropped."
  },
  {
   "property": "C106",
   "status": "partial",
   "theorems": [
    "C106_rsa_request_unsigned_refuted",
    "C106_request_key_type_refuted",
    "C106_example",
    "C105_hyps"
   ],
   "note": "FALSE of the code: an RSA request is returned unsigned with no error; SM2WithSHA1/SHA256 requests parse to an ECDSA key."
  },
  {
   "property": "C107",
   "status": "partial",
   "theorems": [
    "C107_crl_roundtrip",
    "C107_opaque_signer_refuted",
    "C107_hyps"
   ],
   "note": "Proved for *sm2.PrivateKey. FALSE for other crypto.Signer values with an SM2 public key: they are given the digest instead of the list."
  },
  {
   "property": "C108",
   "status": "partial",
   "theorems": [
    "C108_names_roundtrip",
    "C108_name_class_ignored_refuted",
    "C108_name_class_example",
    "C108_bad_address_refuted"
   ],
   "note": "The round trip is proved. FALSE: the class of a name is ignored; a certificate with an IP address of another length is made and then refused by the parser."
  },
  {
   "property": "C109",
   "status": "proved",
   "theorems": [
    "C109_parsers_never_panic",
    "C109_check_never_panics"
   ],
   "note": "The decoders of names and times are parameters assumed not to panic."
  },
  {
   "property": "C110",
   "status": "partial",
   "theorems": [
    "C110_unknown_usage_never_issued",
    "C110_unknown_usage_panics_refuted",
    "C110_duplicate_extension_refuted",
    "C110_hidden_extensions_refuted"
   ],
   "note": "FALSE of the code: CreateCertificate panics on an unknown extended key usage (but never issues it); repeated extensions are accepted, the last one wins; an unexpected element hides all extensions."
  },
  {
   "property": "C111",
   "status": "proved",
   "theorems": [
    "C111_no_deadlock",
    "C111_example"
   ],
   "note": "Waiting for the transport counts as a step; three mutexes, any number of calls."
  },
  {
   "property": "C112",
   "status": "proved",
   "theorems": [
    "C112_one_first_handshake",
    "C112_no_data_before_handshake",
    "C112_same_outcome",
    "C113_example",
    "C115_example"
   ],
   "note": ""
  },
  {
   "property": "C113",
   "status": "proved",
   "theorems": [
    "C113_failure_is_final",
    "C113_example"
   ],
   "note": ""
  },
  {
   "property": "C114",
   "status": "proved",
   "theorems": [
    "C114_renegotiation_limit",
    "C114_example"
   ],
   "note": ""
  },
  {
   "property": "C115",
   "status": "partial",
   "theorems": [
    "C115_exclusive_writers_partial",
    "C115_race_refuted",
    "C115_example"
   ],
   "note": "FALSE of the code for clients that allow renegotiation: readHandshake calls sendAlertLocked without the lock. Proved for servers and for RenegotiateNever."
  },
  {
   "property": "C116",
   "status": "partial",
   "theorems": [
    "C116_stays_established_partial",
    "C116_renegotiation_refuted",
    "C115_example"
   ],
   "note": "FALSE of the code for clients that allow renegotiation: a Write between its two checks fails with alertInternalError. Proved for servers and for RenegotiateNever."
  },
  {
   "property": "C118",
   "status": "proved",
   "theorems": [
    "C118_message_bounds",
    "C118_terminates",
    "C118_memory",
    "C118_oversized",
    "C118_alert_sent",
    "C118_hyps",
    "C118_oversized_hyps",
    "C118_oversized_run"
   ],
   "note": ""
  },
  {
   "property": "C119",
   "status": "partial",
   "theorems": [
    "C119_server_partial",
    "C119_client_partial",
    "C119_temporary_error_refuted",
    "C119_clear_finished_refused",
    "C119_keys_change"
   ],
   "note": "Proved for all peers and fragmentations over networks that report no temporary errors. FALSE of the code with them: readFinished drops the result of readRecord(ChangeCipherSpec) and looks at c.in.err, which a temporary error (a read timeout) does not set, so the reader goes on to Finished with its old, empty keys."
  },
  {
   "property": "C117",
   "status": "proved",
   "theorems": [
    "C117_reassembly",
    "C117_written_read",
    "C117_hyps",
    "C117_example",
    "C117_writer_hyps"
   ],
   "note": ""
  },
  {
   "property": "C120",
   "status": "proved",
   "theorems": [
    "C120_end_to_end",
    "C120_honest_ends",
    "C120_honest_ends_mutual",
    "C120_example",
    "C120_ivs_exist"
   ],
   "note": "Full handshakes (no resumption), the ECC suite, messages of at most 65540 bytes; no temporary network errors (C119 shows what those break). C120_honest_ends starts from the configurations of C91."
  },
  {
   "property": "C121",
   "status": "proved",
   "theorems": [
    "C121_server_flow",
    "C121_server_short_flow",
    "C121_server_finished",
    "C121_C132_hyps"
   ],
   "note": "Versions SSL 3.0 - TLS 1.2; C121_server_finished excludes a connection at version 0x0101 (which the ordinary server also accepts, see DESIGN)."
  },
  {
   "property": "C122",
   "status": "proved",
   "theorems": [
    "C122_server_negotiation",
    "C122_server_hello",
    "C121_C132_hyps"
   ],
   "note": ""
  },
  {
   "property": "C123",
   "status": "proved",
   "theorems": [
    "C123_client_authenticated",
    "C121_C132_hyps"
   ],
   "note": ""
  },
  {
   "property": "C124",
   "status": "proved",
   "theorems": [
    "C124_server_secrets",
    "C121_C132_hyps"
   ],
   "note": ""
  },
  {
   "property": "C125",
   "status": "proved",
   "theorems": [
    "C125_server_resumes",
    "C125_C132_resumed_hyps"
   ],
   "note": ""
  },
  {
   "property": "C126",
   "status": "proved",
   "theorems": [
    "C126_client_flow",
    "C126_client_short_flow",
    "C126_client_finished",
    "C126_client_negotiation",
    "C121_C132_hyps"
   ],
   "note": ""
  },
  {
   "property": "C127",
   "status": "proved",
   "theorems": [
    "C127_server_authenticated",
    "C121_C132_hyps"
   ],
   "note": ""
  },
  {
   "property": "C128",
   "status": "proved",
   "theorems": [
    "C128_client_secrets",
    "C128_client_signature",
    "C121_C132_hyps"
   ],
   "note": ""
  },
  {
   "property": "C129",
   "status": "proved",
   "theorems": [
    "C129_renegotiation",
    "C129_remembered",
    "C129_hyps"
   ],
   "note": ""
  },
  {
   "property": "C130",
   "status": "partial",
   "theorems": [
    "C130_client_resumes",
    "C130_client_stores",
    "C130_renegotiated_key_refuted",
    "C125_C132_resumed_hyps",
    "C129_hyps"
   ],
   "note": "The storage-key clause holds for first handshakes; after a renegotiation the code stores the session under the empty key (C130_renegotiated_key_refuted): any later client of any server whose key is empty would find it, and the intended key is never used."
  },
  {
   "property": "C131",
   "status": "proved",
   "theorems": [
    "C131_same_parameters",
    "C131_agreement",
    "C131_resumed",
    "C131_rsa_hyps",
    "C121_C132_hyps",
    "C125_C132_resumed_hyps"
   ],
   "note": ""
  },
  {
   "property": "C132",
   "status": "proved",
   "theorems": [
    "C132_tamper_evident",
    "C132_tamper_evident_resumed",
    "C121_C132_hyps",
    "C125_C132_resumed_hyps"
   ],
   "note": ""
  },
  {
   "property": "C133",
   "status": "partial",
   "theorems": [
    "C133_no_client_crashes_the_server",
    "C133_default_server_refuted",
    "C133_hyps"
   ],
   "note": "FALSE of the code for the default Config: MinVersion 0 means 0x0101, so a ClientHello of version 0x0102..0x02ff is negotiated and newFinishedHash panics. Proved for every server whose MinVersion is at least SSL 3.0 and MaxVersion at most TLS 1.2 (std_server_sane: its own keys, certificates, callbacks and random draws behave), with client authentication, resumption, ALPN/NPN, tickets, GetConfigForClient."
  },
  {
   "property": "C134",
   "status": "partial",
   "theorems": [
    "C134_no_server_crashes_the_client",
    "C134_default_client_refuted",
    "C134_nil_certificate_refuted",
    "C134_hyps"
   ],
   "note": "FALSE of the code for clients that offer an RSA key exchange suite (the default): a server with an ECDSA certificate that picks an RSA suite crashes the client (key_agreement.go:77). Proved for every client that offers ECDHE suites only and MaxVersion at most TLS 1.2 (std_client_sane), including resumption and renegotiation."
  },
  {
   "property": "C135",
   "status": "proved",
   "theorems": [
    "C135_key_pair",
    "C135_key_formats",
    "C135_pkcs1",
    "C135_sm2_pair_works",
    "C135_never_panics",
    "C135_hyps"
   ],
   "note": "RSA compares moduli only and ECDSA coordinates only (not the curve), as the code does. encoding/pem, the ASN.1 of RSA keys and rsa.Validate are parameters. Signatures: for every key except d = n-1, and apart from the r = 0 or s = 0 draws of C13."
  },
  {
   "property": "C136",
   "status": "proved",
   "theorems": [
    "C136_connection",
    "C136_error",
    "C136_first_wins",
    "C136_time_limit",
    "C136_no_goroutine_blocks",
    "C136_limit",
    "C136_deadline_now_refuted",
    "C136_server_name",
    "C136_listen",
    "C136_hyps"
   ],
   "note": "Except at one instant: a Deadline of exactly now, with Timeout 0, counts as no time limit (C136_deadline_now_refuted). net.Dialer.Dial and Conn.Handshake are the environment; that closing the raw connection ends the handshake goroutine's reads is not modelled."
  },
  {
   "property": "C137",
   "status": "partial",
   "theorems": [
    "C137_address",
    "C137_sni",
    "C137_never_dot",
    "C137_plain_address",
    "C137_dotted_address_refuted",
    "C137_hyps"
   ],
   "note": "FALSE of the code for an IP address followed by dots (1.2.3.4.): the address check precedes the removal of the dots, so the bare address is sent. Proved otherwise."
  },
  {
   "property": "C138",
   "status": "partial",
   "theorems": [
    "C138_protocol_refuted",
    "C138_group_refuted",
    "C138_suite_version_refuted",
    "C138_offered_partial",
    "C121_C132_hyps"
   ],
   "note": "FALSE of the code in three parts, each with a completed handshake over a verified certificate: an ALPN protocol the client did not offer, a group it did not offer (P-256 for an X25519-only client), an AES-GCM suite at TLS 1.0. Proved for every run: the suite and the TLS 1.2 signature algorithm were offered, an NPN protocol is the client's own, the group is one of the four implemented and the point valid. C121_C132_hyps is a run that meets the hypotheses of the positive part."
  },
  {
   "property": "C139",
   "status": "partial",
   "theorems": [
    "C139_append",
    "C139_system_roots",
    "C139_environment",
    "C139_pool_or_error_refuted",
    "C139_hyps"
   ],
   "note": "FALSE of the code in one part: where no root file exists SystemCertPool returns (nil, nil), and AddCert on that pool dereferences nil (C139_pool_or_error_refuted). The rest is proved. encoding/pem (each block uses up text), ParseCertificate, ReadFile and ReadDir are parameters."
  },
  {
   "property": "C140",
   "status": "partial",
   "theorems": [
    "C140_round_trip",
    "C140_written",
    "C140_accepts",
    "C140_crt_ignored",
    "C140_never_panics",
    "C140_modulus",
    "C140_marshal_refuted",
    "C140_hyps"
   ],
   "note": "FALSE of the code in one part: a key with a repeated third prime is accepted by ParsePKCS1PrivateKey, but MarshalPKCS1PrivateKey drops the error of asn1.Marshal and returns nothing (C140_marshal_refuted). The rest is proved. rsa.Validate (refuses primes below 2) and big.Int.ModInverse are parameters; rsa.Precompute and encoding/asn1 are modelled; encodings of up to 2^31 bytes."
  },
  {
   "property": "C141",
   "status": "partial",
   "theorems": [
    "C141_written",
    "C141_round_trip",
    "C141_sm2_keys",
    "C141_trailing_data",
    "C141_recomputed",
    "C141_accepts",
    "C141_refuses",
    "C141_panics_refuted",
    "C141_never_panics",
    "C141_hyps"
   ],
   "note": "FALSE of the code in one part: MarshalECPrivateKey panics when D needs more octets than the order (C141_panics_refuted). The rest is proved; the NIST curves are parameters (sizes below 2^20 octets), SM2 is concrete."
  },
  {
   "property": "C142",
   "status": "proved",
   "theorems": [
    "C142_fixed_object",
    "C142_xor_object",
    "C142_written_5288",
    "C142_written_7905",
    "C142_nonces_distinct",
    "C142_read_5288",
    "C142_read_7905",
    "C142_round_trip",
    "C142_hyps"
   ],
   "note": "The inner cipher.AEAD is a parameter: reading assumes that it refuses texts shorter than its tag, the round trip that Open inverts Seal. Connections past 2^64 records stop with a panic (C50)."
  },
  {
   "property": "C143",
   "status": "proved",
   "theorems": [
    "C143_sm3",
    "C143_record_mac",
    "C143_sha256",
    "C143_sha1",
    "C143_ssl30",
    "C143_hyps"
   ],
   "note": "Keys and messages below 2^59 bytes. SM3 is the model of sm3/; the standard library's SHA-1 and SHA-256 objects (and SHA-1's ConstantTimeSum) are parameters that implement their hash functions; crypto/hmac is modelled. Timing is not modelled."
  },
  {
   "property": "C144",
   "status": "partial",
   "theorems": [
    "C144_pairs_partial",
    "C144_single_partial",
    "C144_pair_works",
    "C144_chain_dropped",
    "C144_files",
    "C144_never_panics",
    "C144_enc_key_ignored",
    "C144_enc_key_refuted",
    "C144_chain_refuted",
    "C144_hyps"
   ],
   "note": "FALSE of the code in two parts, each with an accepted concrete case: the encryption key text is never read (an empty text and an encryption certificate that does not parse are accepted), and the intermediate certificates after the first are dropped, although the documentation of LoadGMX509KeyPairs promises a chain. Proved: exactly what is accepted and returned (the first certificate of each text, the signing key matching the signing certificate), that the key signs, the file loaders, no panic. encoding/pem, the ASN.1 of RSA keys, rsa.Validate and ioutil.ReadFile are parameters."
  },
  {
   "property": "C145",
   "status": "partial",
   "theorems": [
    "C145_exported_material_partial",
    "C145_both_ends",
    "C145_tls_unique_both_ends",
    "C145_refused",
    "C145_incomplete_refuted",
    "C145_tls_unique",
    "C145_hyps"
   ],
   "note": "FALSE of the code in one part: the ConnectionState of a connection whose handshake is not complete holds a nil function, so ExportKeyingMaterial panics. Proved: the RFC 5705 value, its equality at both ends of an ordinary TLS handshake (composed with C131), the refusals. TLSUnique at both ends too. C121_C132_hyps is a run that meets both. That TLSUnique aliases the connection's array is not modelled."
  }
 ]
}