{
 "claims": [
  {
   "property": "C01",
   "status": "proved",
   "theorems": [
    "C01_reader_safe"
   ],
   "note": "Any list of calls from any buffer and offset."
  },
  {
   "property": "C02",
   "status": "proved",
   "theorems": [
    "C02_read_bytes_exact"
   ],
   "note": ""
  },
  {
   "property": "C03",
   "status": "proved",
   "theorems": [
    "C03_failed_reads_do_not_consume"
   ],
   "note": ""
  },
  {
   "property": "C04",
   "status": "proved",
   "theorems": [
    "C04_fixed_width"
   ],
   "note": ""
  },
  {
   "property": "C05",
   "status": "proved",
   "theorems": [
    "C05_raw_bytes_exact"
   ],
   "note": ""
  },
  {
   "property": "C06",
   "status": "proved",
   "theorems": [
    "C06_mpint_read_canonical"
   ],
   "note": ""
  },
  {
   "property": "C07",
   "status": "proved",
   "theorems": [
    "C07_mpint_write_canonical"
   ],
   "note": ""
  },
  {
   "property": "C08",
   "status": "proved",
   "theorems": [
    "C08_strings_utf8"
   ],
   "note": ""
  },
  {
   "property": "C09",
   "status": "proved",
   "theorems": [
    "C09_cstring_ascii_only"
   ],
   "note": "Includes the negative half: a string that is not NUL-free ASCII never comes back."
  },
  {
   "property": "C10",
   "status": "proved",
   "theorems": [
    "C10_message_round_trip"
   ],
   "note": ""
  },
  {
   "property": "C11",
   "status": "proved",
   "theorems": [
    "C11_truncation_rejected"
   ],
   "note": ""
  },
  {
   "property": "C12",
   "status": "proved",
   "theorems": [
    "C12_accepts_exactly",
    "C12_total",
    "C12_round_trip"
   ],
   "note": ""
  },
  {
   "property": "C13",
   "status": "proved",
   "theorems": [
    "C13_round_trip"
   ],
   "note": ""
  },
  {
   "property": "C14",
   "status": "proved",
   "theorems": [
    "C14_last_entry_wins",
    "C14_accepts_exactly",
    "C14_total"
   ],
   "note": ""
  },
  {
   "property": "C15",
   "status": "proved",
   "theorems": [
    "C15_base64_round_trip"
   ],
   "note": ""
  },
  {
   "property": "C16",
   "status": "proved",
   "theorems": [
    "C16_base64_injective",
    "C16_base64_complete"
   ],
   "note": ""
  },
  {
   "property": "C17",
   "status": "proved",
   "theorems": [
    "C17_key_type_names"
   ],
   "note": ""
  },
  {
   "property": "C18",
   "status": "proved",
   "theorems": [
    "C18_cert_names"
   ],
   "note": ""
  },
  {
   "property": "C19",
   "status": "proved",
   "theorems": [
    "C19_curves"
   ],
   "note": ""
  },
  {
   "property": "C20",
   "status": "proved",
   "theorems": [
    "C20_blob_round_trip"
   ],
   "note": ""
  },
  {
   "property": "C21",
   "status": "proved",
   "theorems": [
    "C21_blobs_canonical",
    "C21_same_key_same_blob"
   ],
   "note": ""
  },
  {
   "property": "C22",
   "status": "proved",
   "theorems": [
    "C22_no_panic"
   ],
   "note": ""
  },
  {
   "property": "C23",
   "status": "proved",
   "theorems": [
    "C23_text_round_trip",
    "C23_single_word_comment",
    "C23_every_comment_round_trips_refuted"
   ],
   "note": ""
  },
  {
   "property": "C24",
   "status": "proved",
   "theorems": [
    "C24_label_matches_blob"
   ],
   "note": ""
  },
  {
   "property": "C25",
   "status": "proved",
   "theorems": [
    "C25_fingerprint_text",
    "C25_fingerprint_identifies"
   ],
   "note": ""
  },
  {
   "property": "C26",
   "status": "proved",
   "theorems": [
    "C26_bits"
   ],
   "note": ""
  },
  {
   "property": "C27",
   "status": "proved",
   "theorems": [
    "C27_blob_yields_nonce",
    "C27_text_yields_nonce"
   ],
   "note": ""
  },
  {
   "property": "C28",
   "status": "proved",
   "theorems": [
    "C28_accepts_exactly"
   ],
   "note": ""
  },
  {
   "property": "C29",
   "status": "proved",
   "theorems": [
    "C29_no_panic"
   ],
   "note": ""
  },
  {
   "property": "C30",
   "status": "proved",
   "theorems": [
    "C30_integers_preserved",
    "C30_p521_rejected"
   ],
   "note": ""
  },
  {
   "property": "C31",
   "status": "proved",
   "theorems": [
    "C31_ed25519_message",
    "C31_ecdsa_message",
    "C31_needs_flags_and_counter",
    "C31_binding"
   ],
   "note": ""
  },
  {
   "property": "C32",
   "status": "proved",
   "theorems": [
    "C32_same_check",
    "C32_other_kind",
    "C32_label_is_key_type_refuted"
   ],
   "note": ""
  },
  {
   "property": "C33",
   "status": "proved",
   "theorems": [
    "C33_total",
    "C33_splits_der",
    "C33_accepts_exactly"
   ],
   "note": ""
  },
  {
   "property": "C34",
   "status": "proved",
   "theorems": [
    "C34_der_signatures_verify",
    "C34_raw_signatures_verify"
   ],
   "note": ""
  },
  {
   "property": "C35",
   "status": "proved",
   "theorems": [
    "C35_valid_signature",
    "C35_accepts_exactly"
   ],
   "note": ""
  },
  {
   "property": "C36",
   "status": "proved",
   "theorems": [
    "C36_fields_from_signed_bytes",
    "C36_signed_part_unique"
   ],
   "note": ""
  },
  {
   "property": "C37",
   "status": "proved",
   "theorems": [
    "C37_no_panic",
    "C37_text_no_panic",
    "C37_other_types_rejected",
    "C37_only_certificates",
    "C37_type_number"
   ],
   "note": ""
  },
  {
   "property": "C38",
   "status": "proved",
   "theorems": [
    "C38_issued_parses_back",
    "C38_any_ca_key",
    "C38_request_encodes",
    "C38_padded_ca_key_refuted"
   ],
   "note": ""
  },
  {
   "property": "C39",
   "status": "proved",
   "theorems": [
    "C39_add_signature",
    "C39_rejects",
    "C39_sign"
   ],
   "note": ""
  },
  {
   "property": "C40",
   "status": "proved",
   "theorems": [
    "C40_tbs_injective"
   ],
   "note": ""
  },
  {
   "property": "C41",
   "status": "proved",
   "theorems": [
    "C41_last_call_wins",
    "C41_principals",
    "C41_options",
    "C41_fixed_fields"
   ],
   "note": ""
  },
  {
   "property": "C42",
   "status": "proved",
   "theorems": [
    "C42_text_round_trip",
    "C42_key_id_words"
   ],
   "note": ""
  },
  {
   "property": "C43",
   "status": "proved",
   "theorems": [
    "C43_kept_verbatim",
    "C43_canonical_refuted"
   ],
   "note": ""
  },
  {
   "property": "C44",
   "status": "proved",
   "theorems": [
    "C44_label_by_kind",
    "C44_unknown_label",
    "C44_accepts_exactly",
    "C44_label_is_type_refuted"
   ],
   "note": ""
  },
  {
   "property": "C45",
   "status": "proved",
   "theorems": [
    "C45_domains_disjoint",
    "C45_requests_disjoint"
   ],
   "note": ""
  },
  {
   "property": "C46",
   "status": "proved",
   "theorems": [
    "C46_round_trip",
    "C46_same_signature",
    "C46_parsed_reprints",
    "C46_comment_refuted"
   ],
   "note": ""
  },
  {
   "property": "C47",
   "status": "proved",
   "theorems": [
    "C47_accepts_exactly",
    "C47_no_panic",
    "C47_text_errors",
    "C47_data_errors"
   ],
   "note": ""
  },
  {
   "property": "C48",
   "status": "proved",
   "theorems": [
    "C48_binds",
    "C48_otherwise_invalid"
   ],
   "note": ""
  },
  {
   "property": "C49",
   "status": "proved",
   "theorems": [
    "C49_payload_injective",
    "C49_same_payload"
   ],
   "note": ""
  },
  {
   "property": "C50",
   "status": "proved",
   "theorems": [
    "C50_only_verified",
    "C50_failures",
    "C50_always_parses_refuted"
   ],
   "note": ""
  },
  {
   "property": "C51",
   "status": "proved",
   "theorems": [
    "C51_comment_never_matches",
    "C51_right_key_refuted"
   ],
   "note": ""
  },
  {
   "property": "C52",
   "status": "proved",
   "theorems": [
    "C52_round_trip",
    "C52_parsed_keys_kept"
   ],
   "note": ""
  },
  {
   "property": "C53",
   "status": "proved",
   "theorems": [
    "C53_text_round_trip",
    "C53_layout"
   ],
   "note": ""
  },
  {
   "property": "C54",
   "status": "proved",
   "theorems": [
    "C54_encode_reproduces_file",
    "C54_any_accepted_file_refuted"
   ],
   "note": ""
  },
  {
   "property": "C55",
   "status": "proved",
   "theorems": [
    "C55_accepted_files",
    "C55_bare_section",
    "C55_header_key",
    "C55_never_a_certificate_type_refuted"
   ],
   "note": ""
  },
  {
   "property": "C56",
   "status": "proved",
   "theorems": [
    "C56_unencrypted",
    "C56_no_passphrase",
    "C56_not_supported",
    "C56_with_passphrase",
    "C56_failed_decryption",
    "C56_check_integers"
   ],
   "note": ""
  },
  {
   "property": "C57",
   "status": "proved",
   "theorems": [
    "C57_padding"
   ],
   "note": ""
  },
  {
   "property": "C58",
   "status": "proved",
   "theorems": [
    "C58_panics",
    "C58_bare_section_panics",
    "C58_never_panics_refuted"
   ],
   "note": ""
  },
  {
   "property": "C59",
   "status": "proved",
   "theorems": [
    "C59_signing_panics",
    "C59_accepted_keys_sign_refuted"
   ],
   "note": ""
  },
  {
   "property": "C60",
   "status": "proved",
   "theorems": [
    "C60_crt_exponents"
   ],
   "note": ""
  },
  {
   "property": "C61",
   "status": "proved",
   "theorems": [
    "C61_not_stored",
    "C61_only_hardware",
    "C61_fresh",
    "C61_used_for_signing"
   ],
   "note": ""
  },
  {
   "property": "C62",
   "status": "proved",
   "theorems": [
    "C62_accepted_lines",
    "C62_entries_well_formed",
    "C62_words_unique"
   ],
   "note": ""
  },
  {
   "property": "C63",
   "status": "proved",
   "theorems": [
    "C63_names_ignore_case",
    "C63_duplicates_rejected",
    "C63_cert_authority_repeats",
    "C63_entry_fields",
    "C63_unknown_option_rejected"
   ],
   "note": ""
  },
  {
   "property": "C64",
   "status": "proved",
   "theorems": [
    "C64_utc_timestamps",
    "C64_instants_in_order",
    "C64_only_digits_refuted",
    "C64_leap_second_refuted"
   ],
   "note": ""
  },
  {
   "property": "C65",
   "status": "proved",
   "theorems": [
    "C65_local_timestamps",
    "C65_every_timestamp"
   ],
   "note": ""
  },
  {
   "property": "C66",
   "status": "proved",
   "theorems": [
    "C66_file_is_its_lines"
   ],
   "note": ""
  },
  {
   "property": "C67",
   "status": "proved",
   "theorems": [
    "C67_printed_entries",
    "C67_printed_form",
    "C67_printed_bounds",
    "C67_usual_bounds_not_readable",
    "C67_round_trip_refuted"
   ],
   "note": ""
  },
  {
   "property": "C68",
   "status": "proved",
   "theorems": [
    "C68_final_quote_rejected",
    "C68_comments"
   ],
   "note": ""
  },
  {
   "property": "C69",
   "status": "proved",
   "theorems": [
    "C69_lines_panic_only_on_local_time",
    "C69_no_panic",
    "C69_local_time_panics_refuted"
   ],
   "note": ""
  },
  {
   "property": "C70",
   "status": "proved",
   "theorems": [
    "C70_layout",
    "C70_never_panics",
    "C70_trailing_ignored",
    "C70_cut_off",
    "C70_not_attested",
    "C70_user_flags"
   ],
   "note": ""
  },
  {
   "property": "C71",
   "status": "proved",
   "theorems": [
    "C71_ssh_key",
    "C71_es256_key_is_not_the_point",
    "C71_es256_key_refuted"
   ],
   "note": ""
  },
  {
   "property": "C72",
   "status": "proved",
   "theorems": [
    "C72_accepts",
    "C72_rejects",
    "C72_border_not_signed",
    "C72_challenge_bound_refuted",
    "C72_aaguid_compared_refuted",
    "C72_transports"
   ],
   "note": ""
  },
  {
   "property": "C73",
   "status": "proved",
   "theorems": [
    "C73_accepts",
    "C73_panics",
    "C73_never_panics_refuted",
    "C73_bad_signatures",
    "C73_errors"
   ],
   "note": ""
  },
  {
   "property": "C74",
   "status": "proved",
   "theorems": [
    "C74_certificate_keys",
    "C74_request_keys",
    "C74_errors",
    "C74_der_keys"
   ],
   "note": ""
  },
  {
   "property": "C75",
   "status": "proved",
   "theorems": [
    "C75_signatures_verify",
    "C75_read_keys",
    "C75_every_accepted_key_refuted"
   ],
   "note": ""
  },
  {
   "property": "C76",
   "status": "proved",
   "theorems": [
    "C76_new_key",
    "C76_new_key_text",
    "C76_other_kinds",
    "C76_openssh_layout_refuted"
   ],
   "note": ""
  },
  {
   "property": "C77",
   "status": "proved",
   "theorems": [
    "C77_rsa_signing",
    "C77_der_unique",
    "C77_rsa_disabled"
   ],
   "note": ""
  },
  {
   "property": "C78",
   "status": "proved",
   "theorems": [
    "C78_scalar",
    "C78_short_scalar",
    "C78_every_valid_key_signs_refuted"
   ],
   "note": ""
  },
  {
   "property": "C79",
   "status": "proved",
   "theorems": [
    "C79_issue_with_key",
    "C79_issued_certificate_parses",
    "C79_file_signature"
   ],
   "note": ""
  },
  {
   "property": "C80",
   "status": "proved",
   "theorems": [
    "C80_every_rejection",
    "C80_one_result"
   ],
   "note": ""
  },
  {
   "property": "C81",
   "status": "proved",
   "theorems": [
    "C81_sign_data"
   ],
   "note": ""
  },
  {
   "property": "C82",
   "status": "proved",
   "theorems": [
    "C82_signatures_verify",
    "C82_signs",
    "C82_changing_slot_refuted"
   ],
   "note": ""
  },
  {
   "property": "C83",
   "status": "proved",
   "theorems": [
    "C83_fetch_key",
    "C83_signer_needs_curve",
    "C83_empty_slot_reported_refuted",
    "C83_never_panics"
   ],
   "note": ""
  },
  {
   "property": "C84",
   "status": "proved",
   "theorems": [
    "C84_issue"
   ],
   "note": ""
  },
  {
   "property": "C85",
   "status": "proved",
   "theorems": [
    "C85_provision"
   ],
   "note": ""
  },
  {
   "property": "C86",
   "status": "proved",
   "theorems": [
    "C86_unlock"
   ],
   "note": ""
  },
  {
   "property": "C87",
   "status": "proved",
   "theorems": [
    "C87_reconnect",
    "C87_same_device"
   ],
   "note": ""
  },
  {
   "property": "C88",
   "status": "proved",
   "theorems": [
    "C88_request",
    "C88_signed_by_slot",
    "C88_panics",
    "C88_never_panics_refuted"
   ],
   "note": ""
  },
  {
   "property": "C89",
   "status": "proved",
   "theorems": [
    "C89_hid",
    "C89_mozilla",
    "C89_verifies_again",
    "C89_never_panics",
    "C89_application_checked_refuted"
   ],
   "note": "The mozilla lines before the registration (service, random bytes, register call) are not modelled."
  },
  {
   "property": "C90",
   "status": "proved",
   "theorems": [
    "C90_round_trip",
    "C90_signs",
    "C90_every_credential_refuted"
   ],
   "note": ""
  },
  {
   "property": "C91",
   "status": "proved",
   "theorems": [
    "C91_results",
    "C91_hangs_iff",
    "C91_hangs",
    "C91_terminates",
    "C91_always_returns_refuted"
   ],
   "note": "Small-step model of the three channels; the library may do anything its handles allow. The hang is real: the caller keeps its own status sender while it waits."
  },
  {
   "property": "C92",
   "status": "proved",
   "theorems": [
    "C92_layout",
    "C92_printed",
    "C92_unambiguous",
    "C92_nothing_else",
    "C92_forever",
    "C92_parsed",
    "C92_unambiguous_refuted",
    "C92_forever_refuted",
    "C92_extension_values_shown_refuted"
   ],
   "note": ""
  },
  {
   "property": "C93",
   "status": "proved",
   "theorems": [
    "C93_summary",
    "C93_no_secrets"
   ],
   "note": ""
  },
  {
   "property": "C94",
   "status": "proved",
   "theorems": [
    "C94_distinct_messages",
    "C94_distinct_for_all_refuted",
    "C94_file_message",
    "C94_numbered_from_one_refuted"
   ],
   "note": ""
  },
  {
   "property": "C95",
   "status": "proved",
   "theorems": [
    "C95_operations",
    "C95_other_devices"
   ],
   "note": ""
  },
  {
   "property": "C96",
   "status": "proved",
   "theorems": [
    "C96_pins",
    "C96_tries"
   ],
   "note": ""
  },
  {
   "property": "C97",
   "status": "proved",
   "theorems": [
    "C97_slots",
    "C97_signatures",
    "C97_reads",
    "C97_reads_again",
    "C97_attestation"
   ],
   "note": ""
  },
  {
   "property": "C98",
   "status": "proved",
   "theorems": [
    "C98_consistent",
    "C98_provisioned",
    "C98_signatures",
    "C98_crash_refuted",
    "C98_foreign_certificate_refuted"
   ],
   "note": ""
  },
  {
   "property": "C99",
   "status": "proved",
   "theorems": [
    "C99_type_names",
    "C99_printed_type_read_refuted",
    "C99_standard_permissions",
    "C99_issued_with_standard"
   ],
   "note": ""
  },
  {
   "property": "C100",
   "status": "proved",
   "theorems": [
    "C100_private_key_file",
    "C100_public_key_file",
    "C100_partial_write_noticed_refuted",
    "C100_reported"
   ],
   "note": ""
  },
  {
   "property": "C101",
   "status": "proved",
   "theorems": [
    "C101_cut_public_key",
    "C101_cut_certificate",
    "C101_cut_private_key",
    "C101_cut_signature"
   ],
   "note": ""
  },
  {
   "property": "C102",
   "status": "proved",
   "theorems": [
    "C102_cut_signers",
    "C102_cut_entry",
    "C102_cut_noticed_refuted"
   ],
   "note": ""
  },
  {
   "property": "C103",
   "status": "proved",
   "theorems": [
    "C103_issue",
    "C103_prints",
    "C103_device",
    "C103_certificate_file",
    "C103_certified_key_refuted"
   ],
   "note": ""
  },
  {
   "property": "C104",
   "status": "proved",
   "theorems": [
    "C104_sign_file",
    "C104_prints",
    "C104_device",
    "C104_empty_namespace_refuted"
   ],
   "note": ""
  },
  {
   "property": "C105",
   "status": "proved",
   "theorems": [
    "C105_slot_names",
    "C105_R0_refused_refuted",
    "C105_refuses_politely_refuted"
   ],
   "note": ""
  },
  {
   "property": "C106",
   "status": "proved",
   "theorems": [
    "C106_keys_of_certificates",
    "C106_listings",
    "C106_one_reading",
    "C106_all_lines_refuted",
    "C106_only_certified_keys_refuted",
    "C106_key_info",
    "C106_key_size_refuted",
    "C106_private_key_info",
    "C106_der_keys"
   ],
   "note": ""
  },
  {
   "property": "C107",
   "status": "proved",
   "theorems": [
    "C107_issue",
    "C107_operations",
    "C107_prints",
    "C107_issuer_signs_refuted"
   ],
   "note": ""
  },
  {
   "property": "C108",
   "status": "proved",
   "theorems": [
    "C108_operations",
    "C108_provisions",
    "C108_prints"
   ],
   "note": ""
  },
  {
   "property": "C109",
   "status": "proved",
   "theorems": [
    "C109_operations",
    "C109_report",
    "C109_no_certificate_refuted",
    "C109_listed_once_refuted"
   ],
   "note": ""
  },
  {
   "property": "C110",
   "status": "proved",
   "theorems": [
    "C110_issuer",
    "C110_signer",
    "C110_issuer_type",
    "C110_issuer_never_a_certificate_refuted",
    "C110_comment"
   ],
   "note": ""
  },
  {
   "property": "C111",
   "status": "proved",
   "theorems": [
    "C111_certificate",
    "C111_certificate_text",
    "C111_public_key",
    "C111_public_key_text",
    "C111_signature",
    "C111_private_key",
    "C111_private_key_bytes",
    "C111_signer",
    "C111_signers",
    "C111_no_more_than_input_refuted",
    "C111_private_key_no_more_than_text_refuted"
   ],
   "note": ""
  },
  {
   "property": "C112",
   "status": "proved",
   "theorems": [
    "C112_hid_session",
    "C112_mozilla_session",
    "C112_no_backend",
    "C112_one_request",
    "C112_pins",
    "C112_counters",
    "C112_same_signatures",
    "C112_signatures_verify",
    "C112_pin_only_to_holder_refuted",
    "C112_mozilla_no_panic_refuted"
   ],
   "note": ""
  },
  {
   "property": "C113",
   "status": "proved",
   "theorems": [
    "C113_new_key",
    "C113_signs",
    "C113_pin_not_shown",
    "C113_only_attested",
    "C113_exit_status_tells_refuted"
   ],
   "note": ""
  },
  {
   "property": "C114",
   "status": "proved",
   "theorems": [
    "C114_values",
    "C114_leftovers",
    "C114_all_wiped",
    "C114_given_back",
    "C114_all_wiped_always_refuted"
   ],
   "note": "Only the buffers that a key owns; copies made while reading, writing and signing are not modelled."
  },
  {
   "property": "C115",
   "status": "proved",
   "theorems": [
    "C115_one_kind",
    "C115_certificates_show",
    "C115_entry_or_key",
    "C115_one_reader_refuted"
   ],
   "note": ""
  },
  {
   "property": "C116",
   "status": "proved",
   "theorems": [
    "C116_asks",
    "C116_signing",
    "C116_questions",
    "C116_listed_device",
    "C116_mozilla",
    "C116_all_listed_refuted"
   ],
   "note": ""
  },
  {
   "property": "C117",
   "status": "proved",
   "theorems": [
    "C117_renewed_parses_back",
    "C117_unsigned_changes",
    "C117_same_bytes",
    "C117_checked_again",
    "C117_old_signature",
    "C117_always_checkable_refuted"
   ],
   "note": ""
  },
  {
   "property": "C118",
   "status": "proved",
   "theorems": [
    "C118_read_keys",
    "C118_exact_text",
    "C118_exact_text_public",
    "C118_exact_text_generated",
    "C118_text_determines_key",
    "C118_text_determines_generated",
    "C118_text_determines_public",
    "C118_secrets_shown",
    "C118_generated_shown",
    "C118_pin_shown",
    "C118_redacted_refuted"
   ],
   "note": "The tables of printable characters outside ASCII are an arbitrary function. Debug of certificates, signatures and errors is not modelled."
  },
  {
   "property": "C119",
   "status": "proved",
   "theorems": [
    "C119_maps",
    "C119_certificates",
    "C119_read_certificates",
    "C119_read_public_keys",
    "C119_private_keys",
    "C119_written_and_read",
    "C119_same_secret_equal_refuted",
    "C119_same_bytes_to_sign_refuted"
   ],
   "note": ""
  },
  {
   "property": "C120",
   "status": "proved",
   "theorems": [
    "C120_as_iterated",
    "C120_any_order_read",
    "C120_sorted_refuted",
    "C120_reproducible_refuted"
   ],
   "note": ""
  },
  {
   "property": "C121",
   "status": "proved",
   "theorems": [
    "C121_signature_decides",
    "C121_any_values",
    "C121_sensible_refuted",
    "C121_issuer_type",
    "C121_plain_issuer_refuted"
   ],
   "note": ""
  },
  {
   "property": "C122",
   "status": "proved",
   "theorems": [
    "C122_signature_tail",
    "C122_certificates",
    "C122_another_certificate",
    "C122_file_signatures",
    "C122_armored"
   ],
   "note": ""
  },
  {
   "property": "C123",
   "status": "proved",
   "theorems": [
    "C123_same_primitive",
    "C123_certificates_apart",
    "C123_requests_apart",
    "C123_file_signatures",
    "C123_one_type_refuted"
   ],
   "note": ""
  },
  {
   "property": "C124",
   "status": "proved",
   "theorems": [
    "C124_length_wraps",
    "C124_bounded_fields",
    "C124_unbounded_refuted",
    "C124_file_signatures"
   ],
   "note": ""
  },
  {
   "property": "C125",
   "status": "proved",
   "theorems": [
    "C125_reading",
    "C125_encryption",
    "C125_more_read_the_same",
    "C125_signing",
    "C125_writing",
    "C125_more_never_crash_refuted"
   ],
   "note": ""
  },
  {
   "property": "C126",
   "status": "proved",
   "theorems": [
    "C126_values",
    "C126_leftovers",
    "C126_given_back",
    "C126_exactly",
    "C126_stages_stay",
    "C126_read_stays",
    "C126_cut_section_stays",
    "C126_written_stays",
    "C126_rsa_signed_stays",
    "C126_quiet",
    "C126_dropped_keys_are_gone_refuted"
   ],
   "note": ""
  },
  {
   "property": "C127",
   "status": "proved",
   "theorems": [
    "C127_key_blob_errors",
    "C127_key_text_errors",
    "C127_cert_blob_errors",
    "C127_cert_text_errors",
    "C127_private_key_errors",
    "C127_signature_errors",
    "C127_entry_errors",
    "C127_file_errors",
    "C127_paths",
    "C127_named_types_are_unknown_refuted"
   ],
   "note": ""
  },
  {
   "property": "C128",
   "status": "proved",
   "theorems": [
    "C128_refusals",
    "C128_one_reason",
    "C128_form",
    "C128_invalid_signature",
    "C128_mismatch_means_other_key_refuted",
    "C128_certificate_refusals",
    "C128_issuing",
    "C128_builder"
   ],
   "note": ""
  },
  {
   "property": "C129",
   "status": "proved",
   "theorems": [
    "C129_authenticator_data",
    "C129_one_reason",
    "C129_fido",
    "C129_contents_are_signed",
    "C129_yubikey",
    "C129_parsing_errors_tell_refuted"
   ],
   "note": ""
  },
  {
   "property": "C130",
   "status": "proved",
   "theorems": [
    "C130_checked_with_entry",
    "C130_otherwise_invalid",
    "C130_checked_with_file",
    "C130_signed_then_checked",
    "C130_plain_lines",
    "C130_every_entry_usable_refuted",
    "C130_limits_apply_refuted"
   ],
   "note": ""
  },
  {
   "property": "C131",
   "status": "proved",
   "theorems": [
    "C131_printed_line",
    "C131_printed_file",
    "C131_unquoted_lines",
    "C131_no_rights_added_refuted",
    "C131_same_key_refuted",
    "C131_line_suffices_refuted"
   ],
   "note": ""
  },
  {
   "property": "C132",
   "status": "proved",
   "theorems": [
    "C132_altered_files",
    "C132_known_text",
    "C132_secret_changed",
    "C132_flags_changed",
    "C132_public_part_kept",
    "C132_check_integers",
    "C132_replaced_files",
    "C132_altered_refused_refuted"
   ],
   "note": ""
  },
  {
   "property": "C133",
   "status": "proved",
   "theorems": [
    "C133_read_line_by_line",
    "C133_shown",
    "C133_lines_of_key_id",
    "C133_one_line_refuted",
    "C133_only_printed_refuted"
   ],
   "note": ""
  },
  {
   "property": "C134",
   "status": "proved",
   "theorems": [
    "C134_line_ends",
    "C134_words",
    "C134_last_line",
    "C134_programs",
    "C134_empty_line_refuted",
    "C134_twice_refuted"
   ],
   "note": ""
  },
  {
   "property": "C135",
   "status": "proved",
   "theorems": [
    "C135_public_key",
    "C135_certificate",
    "C135_private_key",
    "C135_first_text_kept_refuted",
    "C135_stays_encrypted_refuted",
    "C135_reserved_kept_refuted"
   ],
   "note": ""
  },
  {
   "property": "C136",
   "status": "proved",
   "theorems": [
    "C136_signature",
    "C136_certificate",
    "C136_certificate_text",
    "C136_file_signature",
    "C136_same_results"
   ],
   "note": ""
  },
  {
   "property": "C137",
   "status": "proved",
   "theorems": [
    "C137_passphrase",
    "C137_same_output",
    "C137_rounds_bounded_refuted"
   ],
   "note": ""
  },
  {
   "property": "C138",
   "status": "proved",
   "theorems": [
    "C138_agreeing_zones",
    "C138_elsewhere",
    "C138_file_elsewhere",
    "C138_fixed_offsets",
    "C138_accepted_everywhere_refuted"
   ],
   "note": ""
  },
  {
   "property": "C139",
   "status": "proved",
   "theorems": [
    "C139_compares_everything",
    "C139_same_line",
    "C139_lines_without_quotes",
    "C139_files",
    "C139_same_line_refuted",
    "C139_order_refuted"
   ],
   "note": ""
  },
  {
   "property": "C140",
   "status": "proved",
   "theorems": [
    "C140_entry_text",
    "C140_file_text",
    "C140_signature_text",
    "C140_certificate_text",
    "C140_entry_determined",
    "C140_file_determined",
    "C140_signature_determined",
    "C140_certificate_determined",
    "C140_one_text_refuted"
   ],
   "note": ""
  },
  {
   "property": "C141",
   "status": "proved",
   "theorems": [
    "C141_certificate",
    "C141_certificate_text",
    "C141_file",
    "C141_only_issued",
    "C141_only_signed",
    "C141_separate",
    "C141_other_protocols",
    "C141_one_use",
    "C141_same_bytes_refuted"
   ],
   "note": ""
  },
  {
   "property": "C142",
   "status": "proved",
   "theorems": [
    "C142_signature",
    "C142_certificate",
    "C142_file",
    "C142_other_uses",
    "C142_touched",
    "C142_counter",
    "C142_touched_refuted"
   ],
   "note": ""
  },
  {
   "property": "C143",
   "status": "proved",
   "theorems": [
    "C143_interleaved",
    "C143_kept",
    "C143_others_leave",
    "C143_reads",
    "C143_signatures",
    "C143_consistent",
    "C143_issue",
    "C143_race_refuted"
   ],
   "note": ""
  },
  {
   "property": "C144",
   "status": "proved",
   "theorems": [
    "C144_digests",
    "C144_message",
    "C144_certificate",
    "C144_file",
    "C144_issued",
    "C144_programs"
   ],
   "note": ""
  },
  {
   "property": "C145",
   "status": "proved",
   "theorems": [
    "C145_private_key",
    "C145_first_private_key",
    "C145_signature",
    "C145_public_key",
    "C145_certificate",
    "C145_comment_refuted",
    "C145_signers"
   ],
   "note": ""
  },
  {
   "property": "C146",
   "status": "proved",
   "theorems": [
    "C146_words",
    "C146_rewrapped",
    "C146_inside",
    "C146_frame",
    "C146_signers",
    "C146_wrapped_public_key_refuted",
    "C146_indented_refuted"
   ],
   "note": ""
  },
  {
   "property": "C147",
   "status": "proved",
   "theorems": [
    "C147_any_secret",
    "C147_nothing_issued",
    "C147_secret_belongs_refuted"
   ],
   "note": ""
  },
  {
   "property": "C148",
   "status": "proved",
   "theorems": [
    "C148_public_key",
    "C148_certificate",
    "C148_issued",
    "C148_told_apart",
    "C148_certificates_told_apart"
   ],
   "note": ""
  },
  {
   "property": "C149",
   "status": "proved",
   "theorems": [
    "C149_piv",
    "C149_fido",
    "C149_other_application",
    "C149_application_refuted"
   ],
   "note": ""
  },
  {
   "property": "C150",
   "status": "proved",
   "theorems": [
    "C150_signature",
    "C150_private_key",
    "C150_encoded"
   ],
   "note": ""
  },
  {
   "property": "C151",
   "status": "proved",
   "theorems": [
    "C151_read_line_by_line",
    "C151_read_keys",
    "C151_lines_of_comment",
    "C151_one_line_refuted"
   ],
   "note": ""
  }
 ]
}