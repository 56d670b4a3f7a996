{
 "claims": [
  {
   "property": "C01",
   "status": "proved",
   "theorems": [
    "C01_key_decode_encode",
    "C01_key_canonical"
   ],
   "note": ""
  },
  {
   "property": "C02",
   "status": "proved",
   "theorems": [
    "C02_signature_decode_encode",
    "C02_signature_canonical"
   ],
   "note": ""
  },
  {
   "property": "C03",
   "status": "proved",
   "theorems": [
    "C03_key_text_roundtrip",
    "C03_key_text_injective",
    "C03_key_text_canonical"
   ],
   "note": ""
  },
  {
   "property": "C04",
   "status": "proved",
   "theorems": [
    "C04_hash_eq"
   ],
   "note": ""
  },
  {
   "property": "C05",
   "status": "partial",
   "theorems": [
    "C05_trust_decode_encode_refuted",
    "C05_trust_decode_encode_partial"
   ],
   "note": "False as stated: lengths are cut to one byte, so trusts about long RSA keys do not round trip (refuted). The _partial theorem is an exact iff. Corrected property: C78."
  },
  {
   "property": "C06",
   "status": "partial",
   "theorems": [
    "C06_trust_decode_total_refuted",
    "C06_trust_decode_ends"
   ],
   "note": "False as stated; the theorem gives exactly the inputs that panic. Decoding otherwise ends with Ok or Err. Corrected property: C85."
  },
  {
   "property": "C07",
   "status": "proved",
   "theorems": [
    "C07_trust_decode_canonical"
   ],
   "note": ""
  },
  {
   "property": "C08",
   "status": "proved",
   "theorems": [
    "C08_trust_text_roundtrip"
   ],
   "note": ""
  },
  {
   "property": "C09",
   "status": "proved",
   "theorems": [
    "C09_trust_verify_exact",
    "C09_trust_verify_expired",
    "C09_trust_verify_error"
   ],
   "note": ""
  },
  {
   "property": "C10",
   "status": "proved",
   "theorems": [
    "C10_created_trust_verifies",
    "C10_create_total"
   ],
   "note": ""
  },
  {
   "property": "C100",
   "status": "partial",
   "theorems": [
    "C100_text_header_ignored",
    "C100_bytes_header_ignored",
    "C100_other_versions_rejected_refuted"
   ],
   "note": "False: the two header lines and the six header bytes are skipped unread (refuted); the theorems say so for all headers. What is accepted: C99, C101."
  },
  {
   "property": "C101",
   "status": "proved",
   "theorems": [
    "C101_key_layout",
    "C101_peer_id_layout",
    "C101_signature_layout",
    "C101_trust_layout",
    "C101_trust_read_exact",
    "C101_certificate_layout",
    "C101_certificate_read_exact",
    "C101_trust_payload",
    "C101_revocation_payload"
   ],
   "note": ""
  },
  {
   "property": "C102",
   "status": "partial",
   "theorems": [
    "C102_disabled",
    "C102_one_call_disables_refuted"
   ],
   "note": "False: a text that makes the parser panic traps inside with_tg, the cell of the graph stays borrowed and every later use of the graph traps until the service is started again (refuted; the consequence is a theorem for all such texts and all later calls). Assumes that the host keeps the instance after a trap; the other case and the exact condition: C103."
  },
  {
   "property": "C103",
   "status": "proved",
   "theorems": [
    "C103_answers_exactly",
    "C103_open_or_not",
    "C103_start_runs",
    "C103_renewed_answers"
   ],
   "note": ""
  },
  {
   "property": "C104",
   "status": "proved",
   "theorems": [
    "C104_stores",
    "C104_starts_keep",
    "C104_traps_keep",
    "C104_running_has_tables",
    "C104_answers",
    "C104_crash"
   ],
   "note": ""
  },
  {
   "property": "C105",
   "status": "proved",
   "theorems": [
    "C105_adds_succeed",
    "C105_all_count",
    "C105_only_they",
    "C105_again"
   ],
   "note": ""
  },
  {
   "property": "C106",
   "status": "proved",
   "theorems": [
    "C106_always_ends",
    "C106_good_start",
    "C106_certificates_count",
    "C106_restart",
    "C106_not_the_owner"
   ],
   "note": ""
  },
  {
   "property": "C107",
   "status": "proved",
   "theorems": [
    "C107_labels",
    "C107_only_labelled"
   ],
   "note": ""
  },
  {
   "property": "C108",
   "status": "proved",
   "theorems": [
    "C108_shipped_labels",
    "C108_shipped_expired"
   ],
   "note": "That the shipped keys are points and the shipped signatures verify is the hypothesis shipped_genuine (checked outside Coq, DESIGN.md section 6)."
  },
  {
   "property": "C109",
   "status": "proved",
   "theorems": [
    "C109_runs_exactly",
    "C109_revoked_is_refused",
    "C109_trusted_runs"
   ],
   "note": ""
  },
  {
   "property": "C11",
   "status": "proved",
   "theorems": [
    "C11_trust_message_is_hash",
    "C11_trust_message_injective"
   ],
   "note": ""
  },
  {
   "property": "C110",
   "status": "proved",
   "theorems": [
    "C110_grant_takes_effect",
    "C110_revoke_takes_effect",
    "C110_revoke_spares_others",
    "C110_example_output"
   ],
   "note": ""
  },
  {
   "property": "C111",
   "status": "proved",
   "theorems": [
    "C111_admin_writes",
    "C111_admin_labels",
    "C111_admin_example"
   ],
   "note": ""
  },
  {
   "property": "C112",
   "status": "partial",
   "theorems": [
    "C112_only_issuer_partial",
    "C112_revoked_client_refuted"
   ],
   "note": "False: the key that trusts the node directly is exempt from revocations by keys higher up, so a client a root has revoked goes on computing on the nodes the client trusts (refuted, finding 5). Proved: it holds if the revoker is the only one who trusts the client. Corrected property: C137."
  },
  {
   "property": "C113",
   "status": "proved",
   "theorems": [
    "C113_mixed_is_one_after_the_other"
   ],
   "note": ""
  },
  {
   "property": "C114",
   "status": "proved",
   "theorems": [
    "C114_never_stuck",
    "C114_every_script_returns"
   ],
   "note": ""
  },
  {
   "property": "C115",
   "status": "proved",
   "theorems": [
    "C115_unfinished_leaves_nothing"
   ],
   "note": ""
  },
  {
   "property": "C116",
   "status": "partial",
   "theorems": [
    "C116_at_most_its_root_partial",
    "C116_unfinished_leaves_nothing_refuted"
   ],
   "note": "False: an add_root_trust that stops between its set_root and its add_trust leaves a root without a trust (refuted). Proved: it leaves at most its set_root. The other functions: C115."
  },
  {
   "property": "C117",
   "status": "proved",
   "theorems": [
    "C117_roots_by_owners",
    "C117_roots_stay"
   ],
   "note": ""
  },
  {
   "property": "C118",
   "status": "proved",
   "theorems": [
    "C118_what_leaves",
    "C118_what_arrives"
   ],
   "note": ""
  },
  {
   "property": "C119",
   "status": "proved",
   "theorems": [
    "C119_add_trust_lasts",
    "C119_revoke_lasts"
   ],
   "note": ""
  },
  {
   "property": "C12",
   "status": "partial",
   "theorems": [
    "C12_domains_separate_refuted",
    "C12_domains_separate_partial",
    "C12_domains_separate_wasm32",
    "C12_revocation_message_injective"
   ],
   "note": "False for RSA keys (refuted with a witness); proved for the other kinds and on wasm32. Corrected property: C79."
  },
  {
   "property": "C120",
   "status": "proved",
   "theorems": [
    "C120_set_root",
    "C120_insert_cert",
    "C120_import_trust",
    "C120_import_revocation"
   ],
   "note": ""
  },
  {
   "property": "C121",
   "status": "proved",
   "theorems": [
    "C121_relation",
    "C121_parts",
    "C121_read_typed",
    "C121_no_panic",
    "C121_order",
    "C121_wasm"
   ],
   "note": ""
  },
  {
   "property": "C122",
   "status": "partial",
   "theorems": [
    "C122_refuted",
    "C122_exact",
    "C122_no_other"
   ],
   "note": "False: it is written as bytes, and the reader asks for text; formats that then give a list (JSON) or text (bincode) fail (refuted). Proved: it is read back exactly in formats that give bytes as bytes, and never as another key. What is accepted: C123."
  },
  {
   "property": "C123",
   "status": "proved",
   "theorems": [
    "C123_exact",
    "C123_panic"
   ],
   "note": ""
  },
  {
   "property": "C124",
   "status": "proved",
   "theorems": [
    "C124_x509",
    "C124_key",
    "C124_key_back",
    "C124_pair",
    "C124_pair_back"
   ],
   "note": ""
  },
  {
   "property": "C125",
   "status": "partial",
   "theorems": [
    "C125_refuted",
    "C125_no_panic"
   ],
   "note": "False for RSA: todo!() panics (refuted). Proved: the other kinds never panic. Generated pairs: C126."
  },
  {
   "property": "C126",
   "status": "proved",
   "theorems": [
    "C126_works",
    "C126_first"
   ],
   "note": ""
  },
  {
   "property": "C127",
   "status": "proved",
   "theorems": [
    "C127_erased"
   ],
   "note": ""
  },
  {
   "property": "C128",
   "status": "partial",
   "theorems": [
    "C128_rsa",
    "C128_exact",
    "C128_refuted"
   ],
   "note": "False for secp256k1_from_der: the buffer is erased as soon as it parses as a sequence, before the key is looked at (refuted; exact condition proved). Proved for rsa_from_pkcs8."
  },
  {
   "property": "C129",
   "status": "proved",
   "theorems": [
    "C129_loads",
    "C129_refuses",
    "C129_only",
    "C129_no_panic"
   ],
   "note": ""
  },
  {
   "property": "C13",
   "status": "partial",
   "theorems": [
    "C13_forged_signature_accepted_refuted",
    "C13_any_secp_signature_accepted",
    "C13_verify_exact_partial",
    "C13_secp_verify_exact",
    "C13_genuine_accepted"
   ],
   "note": "False for secp256k1, where any signature that parses is accepted (refuted). Proved for ed25519 and RSA. Corrected property: C84."
  },
  {
   "property": "C130",
   "status": "partial",
   "theorems": [
    "C130_refuted",
    "C130_any"
   ],
   "note": "False: version and optional parts are not looked at (refuted); any sequence with a secret in the second place is loaded. What is loaded: C129."
  },
  {
   "property": "C131",
   "status": "proved",
   "theorems": [
    "C131_exact",
    "C131_key",
    "C131_no_panic"
   ],
   "note": ""
  },
  {
   "property": "C132",
   "status": "partial",
   "theorems": [
    "C132_trust_type",
    "C132_trust_type_right",
    "C132_revocation_type",
    "C132_signature_type_refuted"
   ],
   "note": "False for issue_trust: it takes the kind from the key the trust is for (refuted; exact condition proved). Proved for issue_revocation."
  },
  {
   "property": "C133",
   "status": "proved",
   "theorems": [
    "C133_pair_comes_back",
    "C133_no_panic"
   ],
   "note": ""
  },
  {
   "property": "C134",
   "status": "proved",
   "theorems": [
    "C134_add_again"
   ],
   "note": ""
  },
  {
   "property": "C135",
   "status": "proved",
   "theorems": [
    "C135_error_leaves",
    "C135_owner_exact"
   ],
   "note": ""
  },
  {
   "property": "C136",
   "status": "proved",
   "theorems": [
    "C136_get_weight_from"
   ],
   "note": ""
  },
  {
   "property": "C137",
   "status": "proved",
   "theorems": [
    "C137_revoked_runs",
    "C137_revoked_refused"
   ],
   "note": ""
  },
  {
   "property": "C138",
   "status": "proved",
   "theorems": [
    "C138_writes",
    "C138_round_trip",
    "C138_injective"
   ],
   "note": ""
  },
  {
   "property": "C139",
   "status": "proved",
   "theorems": [
    "C139_exactly",
    "C139_otherwise",
    "C139_one_meaning",
    "C139_fits"
   ],
   "note": ""
  },
  {
   "property": "C14",
   "status": "proved",
   "theorems": [
    "C14_certificate_verify_exact"
   ],
   "note": ""
  },
  {
   "property": "C140",
   "status": "proved",
   "theorems": [
    "C140_packed",
    "C140_on_start",
    "C140_labels",
    "C140_clippy"
   ],
   "note": "The files are in DistroData.v byte for byte. In a build with the feature cargo-clippy the data are an empty object and KRAS_CERTS panics when used (C140_clippy)."
  },
  {
   "property": "C141",
   "status": "proved",
   "theorems": [
    "C141_holds",
    "C141_shipped",
    "C141_labels"
   ],
   "note": ""
  },
  {
   "property": "C142",
   "status": "partial",
   "theorems": [
    "C142_packed_refuted",
    "C142_completed_partial"
   ],
   "note": "False for every output: the file names no root and no chain length, so KRAS_CERTS panics (refuted for all outputs). Proved: with the two members added it is read to the same certificates. What the file is good for: C141."
  },
  {
   "property": "C143",
   "status": "partial",
   "theorems": [
    "C143_path_gives_weight",
    "C143_zero_exact",
    "C143_zero_without_path_refuted"
   ],
   "note": "False: a revocation of the direct issuer is not counted, so a key without a path can have a weight (refuted, finding 5). Proved: a key with a path has a weight, and the exact condition for weight zero (C143_zero_exact)."
  },
  {
   "property": "C144",
   "status": "partial",
   "theorems": [
    "C144_path_extends",
    "C144_half_weight",
    "C144_transitive_refuted"
   ],
   "note": "False: a key whose own issuer is revoked keeps its weight, but those it trusts get none (refuted, finding 5). Proved: paths extend unless a key on the path has revoked the new key, and without revocations at least half the weight is passed on."
  },
  {
   "property": "C145",
   "status": "proved",
   "theorems": [
    "C145_weight_by_distance",
    "C145_root_weight",
    "C145_readme_example"
   ],
   "note": "C145_readme_example: the weights the README gives for its example are half of those computed."
  },
  {
   "property": "C146",
   "status": "proved",
   "theorems": [
    "C146_closer_is_heavier",
    "C146_root_is_heaviest",
    "C146_needs_equal_lengths"
   ],
   "note": "C146_needs_equal_lengths: the condition on the lengths is needed."
  },
  {
   "property": "C147",
   "status": "proved",
   "theorems": [
    "C147_subnetwork"
   ],
   "note": ""
  },
  {
   "property": "C148",
   "status": "proved",
   "theorems": [
    "C148_roots_stay"
   ],
   "note": ""
  },
  {
   "property": "C149",
   "status": "proved",
   "theorems": [
    "C149_strangers",
    "C149_stranger_weight"
   ],
   "note": ""
  },
  {
   "property": "C15",
   "status": "proved",
   "theorems": [
    "C15_certificate_verify_total",
    "C15_error_names_culprit"
   ],
   "note": ""
  },
  {
   "property": "C150",
   "status": "proved",
   "theorems": [
    "C150_own_weight",
    "C150_own_certificates"
   ],
   "note": ""
  },
  {
   "property": "C151",
   "status": "proved",
   "theorems": [
    "C151_elsewhere"
   ],
   "note": ""
  },
  {
   "property": "C152",
   "status": "proved",
   "theorems": [
    "C152_revoke_lowers",
    "C152_trust_raises",
    "C152_far_expiry_lowers"
   ],
   "note": "C152_far_expiry_lowers: the bound on the expiry is needed (finding 4)."
  },
  {
   "property": "C153",
   "status": "proved",
   "theorems": [
    "C153_half_at_most",
    "C153_needs_unrevoked"
   ],
   "note": "C153_needs_unrevoked: the condition on revocations is needed (finding 5)."
  },
  {
   "property": "C154",
   "status": "proved",
   "theorems": [
    "C154_made_up_keys"
   ],
   "note": ""
  },
  {
   "property": "C155",
   "status": "proved",
   "theorems": [
    "C155_library_is_machine",
    "C155_from_the_start",
    "C155_machine_deterministic",
    "C155_machine_is_library"
   ],
   "note": ""
  },
  {
   "property": "C156",
   "status": "proved",
   "theorems": [
    "C156_service_is_machine",
    "C156_from_the_start"
   ],
   "note": "What the functions that only compute answer is C52, C53 and C132; that nothing else panics is C65 and C103."
  },
  {
   "property": "C157",
   "status": "proved",
   "theorems": [
    "C157_visitors"
   ],
   "note": "Without the condition on the unchecked times it is false: C50_strangers_cannot_erase_refuted."
  },
  {
   "property": "C158",
   "status": "proved",
   "theorems": [
    "C158_own_weight"
   ],
   "note": ""
  },
  {
   "property": "C159",
   "status": "proved",
   "theorems": [
    "C159_certificates_explode"
   ],
   "note": ""
  },
  {
   "property": "C16",
   "status": "proved",
   "theorems": [
    "C16_validity_monotone"
   ],
   "note": ""
  },
  {
   "property": "C160",
   "status": "proved",
   "theorems": [
    "C160_error_text_iff"
   ],
   "note": ""
  },
  {
   "property": "C161",
   "status": "proved",
   "theorems": [
    "C161_owner_text",
    "C161_trust_time_text",
    "C161_revoke_time_text"
   ],
   "note": ""
  },
  {
   "property": "C162",
   "status": "partial",
   "theorems": [
    "C162_clock_text_partial",
    "C162_clock_text_refuted"
   ],
   "note": "False: an unknown sig_type of the caller stands first in the text of its error (refuted, finding 26). Proved as an iff for calls in which no sig_type begins like the refusal."
  },
  {
   "property": "C163",
   "status": "proved",
   "theorems": [
    "C163_library",
    "C163_verify_trust",
    "C163_offered",
    "C163_duration_text"
   ],
   "note": ""
  },
  {
   "property": "C164",
   "status": "proved",
   "theorems": [
    "C164_certificate_text"
   ],
   "note": ""
  },
  {
   "property": "C165",
   "status": "partial",
   "theorems": [
    "C165_line_number",
    "C165_position_refuted"
   ],
   "note": "False: the number is that of the first line of the trust (refuted, finding 25). C165_line_number is the exact meaning."
  },
  {
   "property": "C166",
   "status": "proved",
   "theorems": [
    "C166_only_names"
   ],
   "note": ""
  },
  {
   "property": "C167",
   "status": "proved",
   "theorems": [
    "C167_any_cast",
    "C167_can_be_played",
    "C167_served"
   ],
   "note": ""
  },
  {
   "property": "C168",
   "status": "proved",
   "theorems": [
    "C168_repo_tests",
    "C168_repo_tests_served",
    "C168_not_owner"
   ],
   "note": ""
  },
  {
   "property": "C169",
   "status": "partial",
   "theorems": [
    "C169_no_panic_partial",
    "C169_service_responds_partial",
    "C169_reachable",
    "C169_no_panic_refuted"
   ],
   "note": "False: rows without signature or issuer and roots without key make calls panic (refuted, finding 27). Proved for all other contents, which include all reachable stores."
  },
  {
   "property": "C17",
   "status": "proved",
   "theorems": [
    "C17_issue_root_verifies",
    "C17_issue_root_total",
    "C17_issue_verifies",
    "C17_issue_succeeds"
   ],
   "note": ""
  },
  {
   "property": "C170",
   "status": "proved",
   "theorems": [
    "C170_do_not_count"
   ],
   "note": ""
  },
  {
   "property": "C171",
   "status": "partial",
   "theorems": [
    "C171_revoke_blocked",
    "C171_add_blocked",
    "C171_replaced_refuted"
   ],
   "note": "False: the row is read first and its error is returned (refuted, finding 27). Proved: exactly when the row can be replaced (a trust whose time is up) and what happens otherwise."
  },
  {
   "property": "C172",
   "status": "partial",
   "theorems": [
    "C172_certs_exact",
    "C172_all_fail",
    "C172_lost_alone_refuted"
   ],
   "note": "False (refuted, finding 27). C172_certs_exact: get_all_certs succeeds exactly if all roots can be read; otherwise the other questions and add_trust fail too."
  },
  {
   "property": "C173",
   "status": "partial",
   "theorems": [
    "C173_rows_shown",
    "C173_certs_verify_refuted"
   ],
   "note": "False: signatures are not checked again (refuted, finding 27). C173_rows_shown: returned certificates consist of rows of the table and start at a root of the table. For stores the library has written C26 holds."
  },
  {
   "property": "C174",
   "status": "proved",
   "theorems": [
    "C174_copied",
    "C174_longer_lost",
    "C174_order_matters"
   ],
   "note": "C174_longer_lost and C174_order_matters: the conditions are needed (finding 28)."
  },
  {
   "property": "C175",
   "status": "proved",
   "theorems": [
    "C175_agree",
    "C175_settles",
    "C175_rounds_agree"
   ],
   "note": ""
  },
  {
   "property": "C176",
   "status": "partial",
   "theorems": [
    "C176_revocations_first_partial",
    "C176_agree_refuted"
   ],
   "note": "False: what a revoked key has given counts where it came before the revocation and is ignored for good where it came after (refuted, finding 29). Proved if both nodes hear the revocations first, in any order, and then the trusts."
  },
  {
   "property": "C177",
   "status": "proved",
   "theorems": [
    "C177_round_trip",
    "C177_standard",
    "C177_only",
    "C177_other_algorithm",
    "C177_unused_bits"
   ],
   "note": "C177_unused_bits: forms that claim unused bits are read too (finding 30)."
  },
  {
   "property": "C178",
   "status": "proved",
   "theorems": [
    "C178_handed_on",
    "C178_clock_behind"
   ],
   "note": "C178_clock_behind: the condition on the clocks is needed (finding 31)."
  },
  {
   "property": "C179",
   "status": "proved",
   "theorems": [
    "C179_rounds_agree",
    "C179_running_out"
   ],
   "note": "C179_running_out: the condition that nothing runs out is needed (finding 32)."
  },
  {
   "property": "C18",
   "status": "proved",
   "theorems": [
    "C18_issue_extends_exactly",
    "C18_issue_with_trust_extends_exactly",
    "C18_issue_absent_issuer",
    "C18_issue_with_trust_absent_issuer"
   ],
   "note": ""
  },
  {
   "property": "C180",
   "status": "proved",
   "theorems": [
    "C180_any_order",
    "C180_shorter_first",
    "C180_service_any_order"
   ],
   "note": ""
  },
  {
   "property": "C181",
   "status": "proved",
   "theorems": [
    "C181_round_trip",
    "C181_laws",
    "C181_rsa",
    "C181_reads",
    "C181_contains",
    "C181_no_panic"
   ],
   "note": "The code of libp2p for peer ids is written out (PeerId.v) and put in the place of the oracles; C181_laws: it meets the laws the other theorems ask for."
  },
  {
   "property": "C182",
   "status": "partial",
   "theorems": [
    "C182_refuted",
    "C182_spelling",
    "C182_history"
   ],
   "note": "The first sentence is false: every key has at least two accepted texts (refuted, finding 33). The second is proved (C182_spelling, C182_history); get_weight repeats the text it was asked with."
  },
  {
   "property": "C183",
   "status": "proved",
   "theorems": [
    "C183_injective",
    "C183_texts"
   ],
   "note": ""
  },
  {
   "property": "C184",
   "status": "partial",
   "theorems": [
    "C184_storage_refuted",
    "C184_graph"
   ],
   "note": "False for errors of the database: the conversion calls itself (refuted, finding 23). Proved for errors of the graph."
  },
  {
   "property": "C185",
   "status": "proved",
   "theorems": [
    "C185_guests"
   ],
   "note": ""
  },
  {
   "property": "C186",
   "status": "proved",
   "theorems": [
    "C186_own_weight"
   ],
   "note": ""
  },
  {
   "property": "C187",
   "status": "proved",
   "theorems": [
    "C187_any_storage",
    "C187_interchangeable",
    "C187_sqlite_is_one",
    "C187_sqlite_keeps",
    "C187_memory_keeps"
   ],
   "note": ""
  },
  {
   "property": "C188",
   "status": "proved",
   "theorems": [
    "C188_roundtrip",
    "C188_cut",
    "C188_told_apart",
    "C188_one_encoding",
    "C188_any_bytes",
    "C188_only"
   ],
   "note": ""
  },
  {
   "property": "C189",
   "status": "partial",
   "theorems": [
    "C189_refuted",
    "C189_keys",
    "C189_signatures",
    "C189_exact",
    "C189_by_name",
    "C189_relations_by_name"
   ],
   "note": "False for formats that count variants, such as bincode (refuted, finding 34); C189_keys, C189_signatures and C189_exact say exactly what is decoded. True for formats that name variants (C189_by_name, C189_relations_by_name)."
  },
  {
   "property": "C19",
   "status": "partial",
   "theorems": [
    "C19_issue_with_trust_verifies_refuted",
    "C19_issue_with_trust_verifies_partial",
    "C19_new_from_root_trust_verifies"
   ],
   "note": "False for issue_with_trust, which does not look at the signature (refuted); proved for new_from_root_trust. Corrected property: C80."
  },
  {
   "property": "C190",
   "status": "partial",
   "theorems": [
    "C190_no_trusts",
    "C190_service",
    "C190_any_number",
    "C190_for_good",
    "C190_refuted"
   ],
   "note": "False for revocations (refuted, finding 35): any number of them, by keys nobody knows, are stored (C190_any_number) and stay (C190_for_good). True for trusts and roots (C190_no_trusts, C190_service)."
  },
  {
   "property": "C191",
   "status": "proved",
   "theorems": [
    "C191_one_call",
    "C191_clocks",
    "C191_service",
    "C191_services"
   ],
   "note": ""
  },
  {
   "property": "C192",
   "status": "proved",
   "theorems": [
    "C192_told",
    "C192_means",
    "C192_forged"
   ],
   "note": ""
  },
  {
   "property": "C193",
   "status": "proved",
   "theorems": [
    "C193_revoke",
    "C193_set_root",
    "C193_revocations",
    "C193_refused",
    "C193_service",
    "C193_least"
   ],
   "note": ""
  },
  {
   "property": "C194",
   "status": "proved",
   "theorems": [
    "C194_no_lower",
    "C194_same_keys",
    "C194_sooner_renewal_lowers"
   ],
   "note": ""
  },
  {
   "property": "C195",
   "status": "proved",
   "theorems": [
    "C195_no_gap",
    "C195_gap"
   ],
   "note": ""
  },
  {
   "property": "C196",
   "status": "proved",
   "theorems": [
    "C196_revoke_text",
    "C196_revoke_means",
    "C196_verify_text",
    "C196_verify_means",
    "C196_add_text",
    "C196_offer_means"
   ],
   "note": ""
  },
  {
   "property": "C197",
   "status": "proved",
   "theorems": [
    "C197_cut_off",
    "C197_root_alone"
   ],
   "note": ""
  },
  {
   "property": "C198",
   "status": "proved",
   "theorems": [
    "C198_no_gap"
   ],
   "note": ""
  },
  {
   "property": "C199",
   "status": "proved",
   "theorems": [
    "C199_cut_off"
   ],
   "note": ""
  },
  {
   "property": "C20",
   "status": "partial",
   "theorems": [
    "C20_certificate_decode_encode_refuted",
    "C20_certificate_decode_encode_partial",
    "C20_trust_encoding_length",
    "C20_certificate_decode_ok"
   ],
   "note": "False for 0, 1 or more than 255 trusts and for large keys (refuted); the _partial theorem is an exact iff. Corrected property: C78."
  },
  {
   "property": "C200",
   "status": "proved",
   "theorems": [
    "C200_life"
   ],
   "note": ""
  },
  {
   "property": "C201",
   "status": "partial",
   "theorems": [
    "C201_brought_back",
    "C201_wrong_clock_harmless_refuted",
    "C201_service"
   ],
   "note": "False for certificates with a key revoked by a key before it: they counted for the direct receiver and are not taken on again (refuted, finding 36). C201_brought_back: true for all others within the length of their roots (a longer one is lost too, C174_longer_lost). C201_service: the same of the records in the responses of the service, given to insert_cert."
  },
  {
   "property": "C202",
   "status": "proved",
   "theorems": [
    "C202_taken_back",
    "C202_later",
    "C202_same_second",
    "C202_service"
   ],
   "note": ""
  },
  {
   "property": "C203",
   "status": "proved",
   "theorems": [
    "C203_replaced",
    "C203_service"
   ],
   "note": ""
  },
  {
   "property": "C204",
   "status": "proved",
   "theorems": [
    "C204_least",
    "C204_none",
    "C204_refused",
    "C204_failures",
    "C204_weight"
   ],
   "note": ""
  },
  {
   "property": "C205",
   "status": "partial",
   "theorems": [
    "C205_outline",
    "C205_revoked_none_refuted"
   ],
   "note": "False: the method looks at no revocation, no signature and no expiry (refuted, finding 37). C205_outline says exactly what the answer rests on: the lengths and first keys of the certificates and the lengths of the roots."
  },
  {
   "property": "C206",
   "status": "proved",
   "theorems": [
    "C206_contents"
   ],
   "note": ""
  },
  {
   "property": "C207",
   "status": "partial",
   "theorems": [
    "C207_parts",
    "C207_direct_issuer",
    "C207_weights",
    "C207_parts_refuted",
    "C207_service_parts",
    "C207_service_weights"
   ],
   "note": "False for the direct issuer when a key before it has revoked it (refuted, finding 5): it weighs nothing and its trust still gives a weight. C207_parts and C207_weights: true for all other keys. C207_direct_issuer: exactly when it holds for the direct issuer. C207_service_parts, C207_service_weights: the same of the records and weights the service tells."
  },
  {
   "property": "C208",
   "status": "proved",
   "theorems": [
    "C208_signed",
    "C208_sent_trust",
    "C208_sent_revocation",
    "C208_issued_trust",
    "C208_issued_revocation"
   ],
   "note": ""
  },
  {
   "property": "C209",
   "status": "proved",
   "theorems": [
    "C209_extends",
    "C209_below_root",
    "C209_added",
    "C209_told_weight_is_real",
    "C209_service_added"
   ],
   "note": "C209_example_issuer_revoked: the condition on the direct issuer is needed (finding 5); C209_extends says exactly when a longer certificate is told."
  },
  {
   "property": "C21",
   "status": "proved",
   "theorems": [
    "C21_certificate_text_roundtrip",
    "C21_certificates_serde_roundtrip",
    "C21_parsed_certificate_fits"
   ],
   "note": ""
  },
  {
   "property": "C210",
   "status": "proved",
   "theorems": [
    "C210_only_rsa",
    "C210_trust",
    "C210_revocation",
    "C210_issue_root",
    "C210_issue_with_trust",
    "C210_issue",
    "C210_checks",
    "C210_other_kinds"
   ],
   "note": "An exact description; the panics are finding 38."
  },
  {
   "property": "C211",
   "status": "proved",
   "theorems": [
    "C211_certificates",
    "C211_weights",
    "C211_service",
    "C211_service_weight",
    "C211_from",
    "C211_weights_from"
   ],
   "note": ""
  },
  {
   "property": "C212",
   "status": "proved",
   "theorems": [
    "C212_certificates",
    "C212_older",
    "C212_weights",
    "C212_service",
    "C212_from",
    "C212_weights_from"
   ],
   "note": "An exact description; that the direct issuer is exempt is finding 5. C152 gives the direction, C33 and C70 the effect on neighbours."
  },
  {
   "property": "C213",
   "status": "proved",
   "theorems": [
    "C213_others",
    "C213_through",
    "C213_renewed",
    "C213_weights",
    "C213_service",
    "C213_service_weight",
    "C213_from",
    "C213_weights_from"
   ],
   "note": "C209 tells when a new trust makes a certificate longer. That some weight is required is C38."
  },
  {
   "property": "C214",
   "status": "proved",
   "theorems": [
    "C214_certificates",
    "C214_again",
    "C214_weights",
    "C214_service",
    "C214_service_weight",
    "C214_from",
    "C214_weights_from"
   ],
   "note": "That a second set_root of the same key has no effect on its length is the finding of C40."
  },
  {
   "property": "C215",
   "status": "proved",
   "theorems": [
    "C215_alone",
    "C215_joined",
    "C215_weights",
    "C215_from",
    "C215_weights_from",
    "C215_service",
    "C215_service_weight"
   ],
   "note": "A trust is stored only if its issuer has a weight, so nodes with other roots may come to hold other relations; the example shows nodes that hold the same."
  },
  {
   "property": "C216",
   "status": "proved",
   "theorems": [
    "C216_contents",
    "C216_answers",
    "C216_service"
   ],
   "note": ""
  },
  {
   "property": "C217",
   "status": "proved",
   "theorems": [
    "C217_either_order",
    "C217_early_or_late",
    "C217_service"
   ],
   "note": "Calls of add (a whole certificate) are not among the calls; that trusts of weight zero are not kept is C38. The equality is of the databases themselves, so later answers are equal as well."
  },
  {
   "property": "C22",
   "status": "partial",
   "theorems": [
    "C22_certificate_decode_total_refuted",
    "C22_certificate_from_str_total_refuted"
   ],
   "note": "False as stated; the theorems give exactly the inputs that panic. Corrected property: C85."
  },
  {
   "property": "C23",
   "status": "proved",
   "theorems": [
    "C23_calls_answer",
    "C23_queries_succeed"
   ],
   "note": ""
  },
  {
   "property": "C24",
   "status": "proved",
   "theorems": [
    "C24_certificates_exact"
   ],
   "note": ""
  },
  {
   "property": "C25",
   "status": "partial",
   "theorems": [
    "C25_revoked_key_excluded_refuted",
    "C25_revoked_key_excluded_partial",
    "C25_revoked_target_has_no_chain"
   ],
   "note": "False: a revocation of the direct issuer of the asked key is ignored (refuted). Corrected property: C67; exact answer: C24."
  },
  {
   "property": "C26",
   "status": "proved",
   "theorems": [
    "C26_service",
    "C26_returned_certificates_verify",
    "C26_returned_certificates_from_verify"
   ],
   "note": "For times below 2^63 seconds, as the quantifier says. C26_service: of the responses of the service."
  },
  {
   "property": "C27",
   "status": "partial",
   "theorems": [
    "C27_expired_never_counts_refuted",
    "C27_expired_never_counts_partial"
   ],
   "note": "False for times from 2^63 seconds on, where the database compares negative numbers (refuted). Corrected property: C68."
  },
  {
   "property": "C28",
   "status": "partial",
   "theorems": [
    "C28_unexpired_trust_kept_refuted",
    "C28_unexpired_trust_kept_partial"
   ],
   "note": "False for expiries from 2^63 seconds on, e.g. those of issue_root (refuted). Corrected property: C69."
  },
  {
   "property": "C29",
   "status": "proved",
   "theorems": [
    "C29_stored_is_authentic"
   ],
   "note": ""
  },
  {
   "property": "C30",
   "status": "proved",
   "theorems": [
    "C30_one_relation_per_pair",
    "C30_revoke_imports",
    "C30_import"
   ],
   "note": ""
  },
  {
   "property": "C31",
   "status": "partial",
   "theorems": [
    "C31_import_order_refuted",
    "C31_import_order_partial"
   ],
   "note": "False for relations made within one second of each other, since the table keeps whole seconds (refuted). Corrected property: C62."
  },
  {
   "property": "C32",
   "status": "proved",
   "theorems": [
    "C32_revocations_never_expire"
   ],
   "note": ""
  },
  {
   "property": "C33",
   "status": "partial",
   "theorems": [
    "C33_revoke_takes_effect_refuted",
    "C33_revoke_takes_effect_partial"
   ],
   "note": "False: a revocation not newer than the stored trust is dropped with a report of success (refuted). Corrected property: C70."
  },
  {
   "property": "C34",
   "status": "partial",
   "theorems": [
    "C34_no_replay_refuted",
    "C34_no_replay_partial"
   ],
   "note": "False: a later trust replaces the revocation and leaves on expiry, after which the revoked trust is accepted again (refuted). Corrected property: C71."
  },
  {
   "property": "C35",
   "status": "proved",
   "theorems": [
    "C35_weight_is_best_chain"
   ],
   "note": ""
  },
  {
   "property": "C36",
   "status": "proved",
   "theorems": [
    "C36_weights_are_powers"
   ],
   "note": ""
  },
  {
   "property": "C37",
   "status": "partial",
   "theorems": [
    "C37_max_chain_len_bounds_refuted",
    "C37_max_chain_len_bounds_partial",
    "C37_weight_one_cannot_issue"
   ],
   "note": "False: weights stop at 1 instead of 0 beyond the maximum length (refuted). Corrected property: C72."
  },
  {
   "property": "C38",
   "status": "proved",
   "theorems": [
    "C38_add_trust_exact"
   ],
   "note": ""
  },
  {
   "property": "C39",
   "status": "partial",
   "theorems": [
    "C39_reported_weight_is_real_refuted",
    "C39_reported_weight_is_real_partial"
   ],
   "note": "False: the reported weight can be one the key does not get (refuted). Corrected property: C76."
  },
  {
   "property": "C40",
   "status": "partial",
   "theorems": [
    "C40_set_root_updates_refuted",
    "C40_set_root_exact"
   ],
   "note": "False: a second set_root has no effect (refuted). C40_set_root_exact says what it does. Corrected property: C73."
  },
  {
   "property": "C41",
   "status": "proved",
   "theorems": [
    "C41_only_the_owner_sets_roots",
    "C41_every_root_is_the_owners"
   ],
   "note": ""
  },
  {
   "property": "C42",
   "status": "partial",
   "theorems": [
    "C42_add_all_or_nothing_refuted",
    "C42_add_stepwise",
    "C42_add_empty"
   ],
   "note": "False: trusts before a bad one stay (refuted). C42_add_stepwise is the exact behaviour. Corrected property: C74."
  },
  {
   "property": "C43",
   "status": "partial",
   "theorems": [
    "C43_added_certificate_counts_refuted",
    "C43_added_certificate_counts_partial"
   ],
   "note": "False for certificates of issue_root, whose root trust expires at u64::MAX and is collected (refuted). Corrected property: C75."
  },
  {
   "property": "C44",
   "status": "proved",
   "theorems": [
    "C44_queries_are_stable"
   ],
   "note": ""
  },
  {
   "property": "C45",
   "status": "proved",
   "theorems": [
    "C45_certificates_shrink",
    "C45_weights_shrink"
   ],
   "note": ""
  },
  {
   "property": "C46",
   "status": "partial",
   "theorems": [
    "C46_from_is_filter",
    "C46_from_issued_by_refuted",
    "C46_from_issued_by_partial",
    "C46_weight_from_exact",
    "C46_weight_from_bounded"
   ],
   "note": "README reading false when issuer and key are the same (refuted); the exact filter is proved. Corrected property: C77."
  },
  {
   "property": "C47",
   "status": "proved",
   "theorems": [
    "C47_certificates_ordered"
   ],
   "note": ""
  },
  {
   "property": "C48",
   "status": "proved",
   "theorems": [
    "C48_failures_are_safe",
    "C48_still_reachable"
   ],
   "note": ""
  },
  {
   "property": "C49",
   "status": "partial",
   "theorems": [
    "C49_times_come_from_host_refuted",
    "C49_host_time_accepted_refuted",
    "C49_insert_cert_unchecked_refuted",
    "C49_times_come_from_host_partial",
    "C49_get_weight_from_checks_issuer"
   ],
   "note": "False for insert_cert, insert_cert_raw and get_weight_from (refuted). Corrected property: C81."
  },
  {
   "property": "C50",
   "status": "partial",
   "theorems": [
    "C50_strangers_cannot_erase_refuted",
    "C50_what_calls_remove"
   ],
   "note": "False: insert_cert with a far future time and a self-signed certificate erases trusts (refuted). Corrected property: C82."
  },
  {
   "property": "C51",
   "status": "partial",
   "theorems": [
    "C51_nothing_from_the_future_refuted",
    "C51_what_calls_add",
    "C51_nothing_from_the_future_partial",
    "C51_nothing_from_the_future_history_partial"
   ],
   "note": "False through insert_cert (refuted). Corrected property: C83."
  },
  {
   "property": "C52",
   "status": "proved",
   "theorems": [
    "C52_trust_record_roundtrip",
    "C52_certificate_record_roundtrip",
    "C52_revocation_record_roundtrip",
    "C52_records_exact"
   ],
   "note": ""
  },
  {
   "property": "C53",
   "status": "proved",
   "theorems": [
    "C53_verify_trust_exact",
    "C53_trust_flow",
    "C53_revocation_flow"
   ],
   "note": "For keys of all kinds; the type that issue_trust writes into the record is another matter, see C132."
  },
  {
   "property": "C54",
   "status": "proved",
   "theorems": [
    "C54_failed_calls_are_empty",
    "C66_admitted_calls",
    "C66_other_calls"
   ],
   "note": ""
  },
  {
   "property": "C55",
   "status": "proved",
   "theorems": [
    "C55_get_revocations_exact",
    "C55_export_revocations_exact"
   ],
   "note": ""
  },
  {
   "property": "C56",
   "status": "partial",
   "theorems": [
    "C56_keypair_vec_roundtrip",
    "C56_keypair_vec_canonical",
    "C56_keypair_secret_roundtrip",
    "C56_keypair_to_vec_panic_refuted",
    "C56_keypair_secret_canonical"
   ],
   "note": "to_vec panics for RSA key pairs (refuted as an exact iff); the round trips are proved. Corrected property: C133."
  },
  {
   "property": "C57",
   "status": "partial",
   "theorems": [
    "C57_key_decode_total_refuted",
    "C57_key_text_total_refuted",
    "C57_signature_decode_total_refuted"
   ],
   "note": "False: they panic on exactly the empty input (the theorems are exact iffs). Corrected property: C85."
  },
  {
   "property": "C58",
   "status": "proved",
   "theorems": [
    "C58_verify_total"
   ],
   "note": ""
  },
  {
   "property": "C59",
   "status": "proved",
   "theorems": [
    "C59_kind_text_roundtrip",
    "C59_kind_text_canonical",
    "C59_kind_byte_roundtrip",
    "C59_kind_byte_canonical"
   ],
   "note": ""
  },
  {
   "property": "C60",
   "status": "proved",
   "theorems": [
    "C60_base58_roundtrip",
    "C60_base58_canonical"
   ],
   "note": ""
  },
  {
   "property": "C61",
   "status": "proved",
   "theorems": [
    "C61_revocation_verify_exact",
    "C61_created_revocation_verifies",
    "C61_revocation_create_total"
   ],
   "note": ""
  },
  {
   "property": "C62",
   "status": "proved",
   "theorems": [
    "C62_import_order"
   ],
   "note": ""
  },
  {
   "property": "C63",
   "status": "proved",
   "theorems": [
    "C63_stored_was_offered"
   ],
   "note": ""
  },
  {
   "property": "C64",
   "status": "proved",
   "theorems": [
    "C64_why_relations_leave"
   ],
   "note": ""
  },
  {
   "property": "C65",
   "status": "partial",
   "theorems": [
    "C65_calls_respond",
    "C65_calls_respond_refuted"
   ],
   "note": "False for insert_cert_raw, which traps on some texts (refuted); proved for all other calls. Corrected property: C103."
  },
  {
   "property": "C66",
   "status": "proved",
   "theorems": [
    "C66_admitted_calls",
    "C66_other_calls",
    "C66_service_stores"
   ],
   "note": ""
  },
  {
   "property": "C67",
   "status": "proved",
   "theorems": [
    "C67_revoked_only_as_direct_issuer",
    "C25_revoked_target_has_no_chain",
    "C24_certificates_exact"
   ],
   "note": ""
  },
  {
   "property": "C68",
   "status": "proved",
   "theorems": [
    "C68_expired_never_counts",
    "C35_weight_is_best_chain"
   ],
   "note": ""
  },
  {
   "property": "C69",
   "status": "proved",
   "theorems": [
    "C69_unexpired_trust_kept"
   ],
   "note": ""
  },
  {
   "property": "C70",
   "status": "proved",
   "theorems": [
    "C70_newer_revocation_takes_effect"
   ],
   "note": ""
  },
  {
   "property": "C71",
   "status": "proved",
   "theorems": [
    "C71_no_replay_while_stored"
   ],
   "note": ""
  },
  {
   "property": "C72",
   "status": "proved",
   "theorems": [
    "C72_long_chains_weigh_at_most_one",
    "C37_weight_one_cannot_issue"
   ],
   "note": ""
  },
  {
   "property": "C73",
   "status": "proved",
   "theorems": [
    "C40_set_root_exact"
   ],
   "note": ""
  },
  {
   "property": "C74",
   "status": "proved",
   "theorems": [
    "C42_add_stepwise",
    "C42_add_empty"
   ],
   "note": ""
  },
  {
   "property": "C75",
   "status": "proved",
   "theorems": [
    "C75_added_certificate_counts"
   ],
   "note": ""
  },
  {
   "property": "C76",
   "status": "proved",
   "theorems": [
    "C76_reported_weight_is_real"
   ],
   "note": ""
  },
  {
   "property": "C77",
   "status": "proved",
   "theorems": [
    "C77_from_another_issuer",
    "C77_same_order",
    "C46_from_is_filter",
    "C46_weight_from_exact",
    "C46_weight_from_bounded"
   ],
   "note": ""
  },
  {
   "property": "C78",
   "status": "proved",
   "theorems": [
    "C78_trust_encoding_exact",
    "C78_certificate_encoding_exact"
   ],
   "note": ""
  },
  {
   "property": "C79",
   "status": "proved",
   "theorems": [
    "C79_domains_separate",
    "C12_domains_separate_wasm32"
   ],
   "note": ""
  },
  {
   "property": "C80",
   "status": "proved",
   "theorems": [
    "C80_issue_with_trust_verifies"
   ],
   "note": ""
  },
  {
   "property": "C81",
   "status": "proved",
   "theorems": [
    "C81_times_come_from_host",
    "C49_get_weight_from_checks_issuer"
   ],
   "note": ""
  },
  {
   "property": "C82",
   "status": "proved",
   "theorems": [
    "C50_what_calls_remove"
   ],
   "note": ""
  },
  {
   "property": "C83",
   "status": "proved",
   "theorems": [
    "C83_nothing_from_the_future",
    "C51_nothing_from_the_future_partial",
    "C51_what_calls_add"
   ],
   "note": ""
  },
  {
   "property": "C84",
   "status": "proved",
   "theorems": [
    "C84_verify_exact"
   ],
   "note": ""
  },
  {
   "property": "C85",
   "status": "proved",
   "theorems": [
    "C85_trust_decode_panics_exactly",
    "C85_certificate_decode_panics_exactly",
    "C85_certificate_text_panics_exactly",
    "C85_key_decode_panics_exactly",
    "C85_key_text_panics_exactly",
    "C85_signature_decode_panics_exactly"
   ],
   "note": ""
  },
  {
   "property": "C86",
   "status": "proved",
   "theorems": [
    "C86_answers_depend_on_contents"
   ],
   "note": ""
  },
  {
   "property": "C87",
   "status": "partial",
   "theorems": [
    "C87_revoke_again",
    "C87_set_root_again",
    "C87_add_trust_again",
    "C87_add_again_refuted"
   ],
   "note": "Proved for revoke, set_root and add_trust; refuted for add. Corrected property for add: C134."
  },
  {
   "property": "C88",
   "status": "proved",
   "theorems": [
    "C88_issue_trust_only_computes",
    "C88_issue_trust_fails_exactly",
    "C88_issued_trust_is_genuine",
    "C88_issue_revocation_only_computes",
    "C88_issued_revocation_is_genuine"
   ],
   "note": ""
  },
  {
   "property": "C89",
   "status": "proved",
   "theorems": [
    "C89_add_trust_done",
    "C89_add_trust_exact"
   ],
   "note": ""
  },
  {
   "property": "C90",
   "status": "proved",
   "theorems": [
    "C90_add_root_trust_done",
    "C90_only_the_owner",
    "C90_add_root_trust_completes"
   ],
   "note": ""
  },
  {
   "property": "C91",
   "status": "proved",
   "theorems": [
    "C91_revoke_done",
    "C91_revoke_exact"
   ],
   "note": ""
  },
  {
   "property": "C92",
   "status": "proved",
   "theorems": [
    "C92_get_weight",
    "C92_get_all_certs",
    "C92_get_all_certs_from",
    "C92_get_host_certs",
    "C92_get_host_certs_from",
    "C92_verify_trust"
   ],
   "note": ""
  },
  {
   "property": "C93",
   "status": "proved",
   "theorems": [
    "C93_is_fluence_peer_exact"
   ],
   "note": ""
  },
  {
   "property": "C94",
   "status": "proved",
   "theorems": [
    "C94_one_node",
    "C94_roots_by_owner",
    "C94_every_root_is_the_owners"
   ],
   "note": ""
  },
  {
   "property": "C95",
   "status": "proved",
   "theorems": [
    "C95_what_leaves",
    "C95_what_arrives"
   ],
   "note": ""
  },
  {
   "property": "C96",
   "status": "partial",
   "theorems": [
    "C96_done_means_stored_refuted",
    "C96_cooperation_suffices_refuted",
    "C89_add_trust_done",
    "C89_add_trust_exact"
   ],
   "note": "Both halves are false: a trust of an issuer without weight is dropped silently, and a relay clock ahead of the node clock makes the script fail (refuted). Corrected property: C89."
  },
  {
   "property": "C97",
   "status": "partial",
   "theorems": [
    "C97_all_or_nothing_refuted",
    "C90_add_root_trust_done",
    "C90_only_the_owner",
    "C90_add_root_trust_completes"
   ],
   "note": "False: with the relay clock ahead of the node clock the key becomes a root and an error is returned (refuted). What an error-free run guarantees and when the owner succeeds: C90. Corrected property: C135."
  },
  {
   "property": "C98",
   "status": "partial",
   "theorems": [
    "C98_get_weight_from_refused",
    "C98_get_weight_from_answers_partial",
    "C98_get_weight_from_answers_refuted"
   ],
   "note": "False: the service checks the origin of the issuer argument, so the call is refused unless the issuer came from the clock of the node (refuted; the refusal is a theorem for all such origins). Corrected property: C136."
  },
  {
   "property": "C99",
   "status": "proved",
   "theorems": [
    "C99_number_exact",
    "C99_lines_exact",
    "C99_base58_encode_exact",
    "C99_base58_decode_exact",
    "C99_trust_text_exact",
    "C99_certificate_text_exact",
    "C99_text_error_position",
    "C99_certificate_text_panics_exactly",
    "C99_certificate_written"
   ],
   "note": ""
  }
 ]
}