{"claims": [
{"property": "C01", "status": "proved", "theorems": ["C01_tlv_roundtrip", "C01_tlv_refused"], "note": ""},
{"property": "C02", "status": "proved", "theorems": ["C02_deserialize_exact"], "note": ""},
{"property": "C03", "status": "proved", "theorems": ["C03_unique_reading", "C03_parse_recovers"], "note": ""},
{"property": "C04", "status": "proved", "theorems": ["C04_varint_roundtrip", "C04_varint_width_monotone", "C04_varint_negative", "C04_varint_wraps"], "note": ""},
{"property": "C05", "status": "proved", "theorems": ["C05_uint8", "C05_uint16", "C05_uint24", "C05_uint32", "C05_uint64"], "note": ""},
{"property": "C06", "status": "proved", "theorems": ["C06_name_exists", "C06_name_roundtrip"], "note": ""},
{"property": "C07", "status": "proved", "theorems": ["C07_parsed_name_equal_iff", "C07_names_equal_iff", "C07_parsed_name_equal_refuted"], "note": "The iff theorem gives the exact condition and the refuted theorem shows every chunk id name fails."},
{"property": "C08", "status": "proved", "theorems": ["C08_content_object_roundtrip", "C08_content_object_exists", "C08_content_object_layout", "C08_exists"], "note": "Timestamps and final chunk ids are restricted to the values that survive the wire (see C20, C04)."},
{"property": "C09", "status": "proved", "theorems": ["C09_unsigned_packet_roundtrip", "C09_signed_packet_roundtrip", "C09_unsigned_packet_layout", "C09_signed_packet_layout", "C09_interest_refuted", "C09_unsigned_exists", "C09_signed_exists"], "note": "RSA algorithms with an embedded key or key link are serialized but refused by the decoder, so they are excluded; Interests cannot be built."},
{"property": "C10", "status": "proved", "theorems": ["C10_packet_decoder_total", "C10_content_decoder_total", "C10_name_decoder_total", "C10_four_bytes_per_iteration", "C10_manifest_decoder_total", "C10_node_decoder_total", "C10_node_data_decoder_total", "C10_hash_group_decoder_total"], "note": ""},
{"property": "C11", "status": "proved", "theorems": ["C11_name_normal_form", "C11_content_normal_form", "C11_content_normal_form_refuted", "C11_group_data_normal_form", "C11_pointers_normal_form", "C11_hash_group_normal_form", "C11_node_data_normal_form", "C11_node_normal_form", "C11_manifest_normal_form", "C11_normal_form_refuted"], "note": "Integers of nine or more bytes are kept exactly by the parser but written back modulo 2^64; the refuted theorems give witnesses, the others exclude them."},
{"property": "C12", "status": "proved", "theorems": ["C12_group_data_unknown", "C12_group_data_order", "C12_group_data_repeat", "C12_hash_group_unknown", "C12_hash_group_order", "C12_hash_group_repeat", "C12_aead_unknown", "C12_aead_order", "C12_aead_repeat"], "note": ""},
{"property": "C13", "status": "proved", "theorems": ["C13_pointers_roundtrip", "C13_torn_refused", "C13_torn_exn"], "note": ""},
{"property": "C14", "status": "proved", "theorems": ["C14_group_data_exists", "C14_group_data_roundtrip", "C14_hash_group_exists", "C14_hash_group_roundtrip"], "note": ""},
{"property": "C15", "status": "proved", "theorems": ["C15_node_data_roundtrip", "C15_node_roundtrip", "C15_node_exists", "C15_exists", "C15_node_data_exists"], "note": "Names compare by content (C07)."},
{"property": "C16", "status": "proved", "theorems": ["C16_manifest_roundtrip", "C16_manifest_packet", "C16_exists", "C16_packet_exists"], "note": ""},
{"property": "C17", "status": "proved", "theorems": ["C17_padding_exact", "C17_padding_exists", "C17_padding_invisible", "C17_padding_kept_refuted"], "note": "The padding itself does not survive parsing (refuted theorem)."},
{"property": "C18", "status": "proved", "theorems": ["C18_iteration_order", "C18_missing_nc_id", "C18_pointers_in_order"], "note": ""},
{"property": "C19", "status": "proved", "theorems": ["C19_hash_ignores_header", "C19_hash_is_sha_of_message", "C19_hash_covers", "C19_hash_determined"], "note": ""},
{"property": "C20", "status": "proved", "theorems": ["C20_timestamp_exact", "C20_timestamp_exact_now", "C20_timestamp_near", "C20_timestamp_refuted", "C20_wire"], "note": "Up to 2^52 ms. 1001 ms becomes 1000 ms."},
{"property": "C21", "status": "proved", "theorems": ["C21_signed_packet_validates", "C21_added_key", "C21_received_packet_validates", "C21_received_packet_refuted"], "note": "Also after serializing and parsing, for signature times November 2004 to January 2038; later the receiver can reject a good packet (refuted theorem)."},
{"property": "C22", "status": "proved", "theorems": ["C22_validation_accepts", "C22_unknown_key", "C22_validation_outcomes"], "note": ""},
{"property": "C23", "status": "proved", "theorems": ["C23_signed_bytes", "C23_rsa_tampering", "C23_crc_tampering"], "note": "RSA: equal packets or an explicit hash collision, for signature schemes where a signature fits one digest."},
{"property": "C24", "status": "proved", "theorems": ["C24_chunks", "C24_cut_unique"], "note": ""},
{"property": "C25", "status": "proved", "theorems": ["C25_fits", "C25_never_fails", "C25_tight", "C25_large", "C25_large_refuted"], "note": "Chunking succeeds once an empty packet fits, for packet sizes below 2^16 and files that need at most 2^24 chunks; outside of these bounds it raises, which is proved as well."},
{"property": "C26", "status": "proved", "theorems": ["C26_segmented", "C26_others"], "note": ""},
{"property": "C27", "status": "proved", "theorems": ["C27_optimizer", "C27_large_refuted"], "note": "For 1 <= n < 2^52 and 2 <= p < 2^52, where the float division of the code is exact; n is bounded by 2^24 in the program. C27_large_refuted shows the claim false beyond 2^53. For n = 1 the returned number of interior manifests is -1."},
{"property": "C28", "status": "proved", "theorems": ["C28_height_enough", "C28_optimizer_height", "C28_optimizer_usable", "C28_build_raises_only_encoding_errors", "C28_build_raises_only_factory_errors"], "note": "For n <= 2^32, p <= 2^20, under the visible hypothesis log_ok about math.log (satisfied by an exact logarithm)."},
{"property": "C29", "status": "proved", "theorems": ["C29_covers_chunks"], "note": ""},
{"property": "C30", "status": "proved", "theorems": ["C30_fan_out", "C30_degree", "C28_build_raises_only_encoding_errors", "C28_build_raises_only_factory_errors"], "note": ""},
{"property": "C31", "status": "proved", "theorems": ["C31_packed"], "note": ""},
{"property": "C32", "status": "proved", "theorems": ["C32_unique_ids"], "note": ""},
{"property": "C33", "status": "proved", "theorems": ["C33_start_ids", "C33_no_start_ids", "C33_names"], "note": ""},
{"property": "C34", "status": "proved", "theorems": ["C34_top_id", "C34_root_leads_to_top", "C34_one_indirect_refuted", "C34_refuted"], "note": "It holds exactly if the built tree is as high as the optimizer computed, which is so for at least two indirect pointers per manifest and exact logarithms."},
{"property": "C35", "status": "proved", "theorems": ["C35_read_back", "C35_build_stored", "C35_memory_keeps", "C35_list_keeps"], "note": "Hashed and prefix schemas. The store may be the memory store, a list reader or any reader that answers with a packet of the asked hash; SHA-256 is assumed to have no collision among the packets of the build; keys as in `equipped`."},
{"property": "C36", "status": "proved", "theorems": ["C36_read_back", "C36_one_indirect_refuted"], "note": "Holds when there is one chunk or the optimizer picks two or more indirect pointers per manifest; with one indirect pointer and two or more chunks the traversal always raises ValueError, proved as C36_one_indirect_refuted."},
{"property": "C37", "status": "proved", "theorems": ["C37_no_dangling", "C37_root_last", "C37_build_order"], "note": "For every run of the build, whether it returns or raises: packets are only appended and every initial part of the output is without dangling pointers."},
{"property": "C38", "status": "proved", "theorems": ["C38_subtree_sizes", "C38_build"], "note": ""},
{"property": "C39", "status": "proved", "theorems": ["C39_group_sizes", "C39_root", "C39_without_node_sizes", "C39_refuted"], "note": "Group subtree sizes are wrong when node sizes are switched off (refuted theorem); leaf sizes are always right."},
{"property": "C40", "status": "proved", "theorems": ["C40_bound", "C40_fits", "C40_refuted"], "note": "C40_refuted: name, group sizes and expiry time each make a tree manifest too long. C40_bound gives the exact allowance by which a tree manifest may exceed the limit, C40_fits the setting in which all fit. Root manifests are not part of the tree build."},
{"property": "C41", "status": "proved", "theorems": ["C41_tight"], "note": "Assumes that AEAD sealing adds a 16-byte tag and that os.urandom(12) always returns the same number of bytes."},
{"property": "C42", "status": "proved", "theorems": ["C42_get", "C42_own_name", "C42_total", "C42_counters", "C42_put_succeeds", "C42_list_reader"], "note": "Fetching a named packet with name None raises AttributeError; the exact outcome for every asked name is part of C42_get."},
{"property": "C43", "status": "proved", "theorems": ["C43_scoped"], "note": "Each fetched packet is found under the definition in the nearest manifest on the path from it to the root."},
{"property": "C44", "status": "proved", "theorems": ["C44_traversal", "C44_without_keys", "C44_complete", "C44_complete_without_keys", "C44_fuel"], "note": "Soundness for every store and key store; completeness (the exact tree) for manifests in the clear. OutOfFuel stands for RecursionError. The hash of a fetched packet is checked by the reader, not the traversal."},
{"property": "C45", "status": "proved", "theorems": ["C45_aead_roundtrip", "C45_received_manifest", "C45_exists", "C45_key_sizes"], "note": ""},
{"property": "C46", "status": "proved", "theorems": ["C46_cipher_inputs", "C46_aad_determines_context", "C46_iv_injective", "C46_iv_mixed_refuted"], "note": "IVs are injective when the key is always used with or always without salt; mixing the two is refuted."},
{"property": "C47", "status": "proved", "theorems": ["C47_key_number", "C47_mode", "C47_key_length_refuted", "C47_mode_both", "C47_oaep_mode"], "note": "The key length announced by the mode is not checked (refuted theorem); algorithm and key number are."},
{"property": "C48", "status": "proved", "theorems": ["C48_wrap_roundtrip", "C48_wrapped_history", "C48_wrapper_sent", "C48_wrap_needs_salt", "C48_wrap_needs_kdf_info", "C48_wrap_limit", "C48_exists"], "note": ""},
{"property": "C49", "status": "proved", "theorems": ["C49_label_determines", "C49_kdf_alg_refuted"], "note": ""},
{"property": "C50", "status": "proved", "theorems": ["C50_add_rsa", "C50_add_aes", "C50_latest_name", "C50_latest_keyid", "C50_latest_number", "C50_not_found", "C50_add_succeeds"], "note": ""},
{"property": "C51", "status": "proved", "theorems": ["C51_right_decryptor", "C51_after_failure_refuted", "C51_shared_number_refuted"], "note": "Holds while lookups succeed and no key number is used by both kinds of context; both restrictions are necessary (refuted theorems)."},
{"property": "C52", "status": "proved", "theorems": ["C52_builds", "C52_empty", "C52_refuted"], "note": "A tree is built for every non-empty stream of at most 2^24 chunks (settings: data, manifest and root packets have room; log_ok, sha_ok, seal_adds_tag, seal_total); the empty stream raises ValueError under the same settings (C52_empty) and never succeeds under any (C52_refuted)."},
{"property": "C53", "status": "proved", "theorems": ["C53_tlv_eq_iff", "C53_same_type", "C53_refuted"], "note": "Equality is equality of values, which is wire equality for one type; C53_refuted has the two hash values."},
{"property": "C54", "status": "proved", "theorems": ["C54_get", "C54_missing", "C54_id_names_refuted", "C54_by_name_refuted", "C54_hash_unchecked_refuted", "C54_nested_refuted"], "note": "Holds for the flat layout and packets that parse back to themselves; names with chunk or manifest ids, lookup by name without hash, the nested layout, and files whose content was changed are refuted separately."},
{"property": "C55", "status": "proved", "theorems": ["C55_embed_public_key_refuted"], "note": "The claim is false for every key: the constructor raises AttributeError."},
{"property": "C56", "status": "proved", "theorems": ["C56_kdf_not_applied"], "note": ""},
{"property": "C57", "status": "proved", "theorems": ["C57_nonces", "C57_build", "C57_builds"], "note": "The generator itself (os.urandom) is a parameter: the theorems speak of its draws."},
{"property": "C58", "status": "proved", "theorems": ["C58_directory_read_back", "C58_segmented_refuted"], "note": "Flat layout (nested layouts: C54_nested_refuted). Expiry times must be absent or of the kind that survives parsing (sent_times); names and locators must be plain."},
{"property": "C59", "status": "proved", "theorems": ["C59_integrity", "C59_memory_checks", "C59_list_checks", "C59_directory_refuted"], "note": "For receivers with the decryption key. SHA-256 is assumed to have no second preimage among the answers of the reader (visible hypothesis). C59_directory_refuted is a witness with toy primitives."},
{"property": "C60", "status": "proved", "theorems": ["C60_decrypts_only_authentic", "C60_invalid_tag", "C60_tampering", "C60_border_refuted", "C60_tag_length"], "note": "The ideal cipher is a visible hypothesis (accepts_only) with an instance in C60_ex."},
{"property": "C61", "status": "proved", "theorems": ["C61_protection", "C61_root_validates"], "note": ""},
{"property": "C62", "status": "proved", "theorems": ["C62_least_waste", "C62_min_height", "C62_min_height_total", "C62_chain_refuted", "C62_one_chunk"], "note": "math.log as in C28: log_ok is a visible hypothesis of C62_min_height_total."},
{"property": "C63", "status": "proved", "theorems": ["C63_utf8_encode", "C63_utf8_decode", "C63_from_uri", "C63_none", "C63_injective", "C63_shape", "C63_scheme", "C63_query_refuted", "C63_authority_refuted", "C63_relative_refuted", "C63_as_uri_refuted", "C63_encodable", "C63_scheme_case"], "note": "urlparse, PurePath and UTF-8 of the standard library are modelled from their Python 3.12 sources; the checks urlparse makes on the authority part are left out (the hypothesis of C63_authority_refuted excludes the characters they reject)."},
{"property": "C64", "status": "proved", "theorems": ["C64_link", "C64_files", "C64_names", "C64_query_refuted", "C64_tilde_refuted"], "note": "A signing time must survive being sent (link_time, see C20) for the link to be parsed; C64_link and C64_files hold for any uri_path."},
{"property": "C65", "status": "proved", "theorems": ["C65_counters"], "note": ""},
{"property": "C66", "status": "proved", "theorems": ["C66_stream", "C66_sent", "C66_closed"], "note": ""},
{"property": "C67", "status": "proved", "theorems": ["C67_writer_read_back", "C67_segmented_refuted", "C67_negative_refuted", "C67_default_refuted", "C67_prefixes", "C67_options", "C67_effects"], "note": "Expiry times from the command line are whole seconds; argparse, PEM files and datetime.fromisoformat are not modelled."},
{"property": "C68", "status": "proved", "theorems": ["C68_reader_refuted", "C68_errors"], "note": "Proves the claim as stated: the program cannot succeed."},
{"property": "C69", "status": "proved", "theorems": ["C69_verified", "C69_unverified", "C69_shows", "C69_written", "C69_no_key_refuted"], "note": ""},
{"property": "C70", "status": "proved", "theorems": ["C70_tree", "C70_closed", "C70_same", "C70_same_refuted", "C70_drawing", "C70_picture", "C70_picture_refuted", "C70_plot_refuted", "C70_short", "C70_label"], "note": "What networkx, pydot and matplotlib do with the drawing is not modelled."},
{"property": "C71", "status": "proved", "theorems": ["C71_same", "C71_same_errors", "C71_counts", "C71_graph", "C71_picture", "C71_same_errors_refuted", "C71_resumed_refuted"], "note": ""},
{"property": "C72", "status": "proved", "theorems": ["C72_expiry", "C72_definitions", "C72_locators_refuted"], "note": ""},
{"property": "C73", "status": "proved", "theorems": ["C73_integer", "C73_decimal", "C73_bad_integer", "C73_str", "C73_key", "C73_bad_key", "C73_hex", "C73_mode", "C73_kdf", "C73_number", "C73_salt", "C73_info", "C73_parsed", "C73_refused", "C73_counts", "C73_told", "C73_read_back"], "note": "argparse itself is not modelled: each option comes with its text. int() is modelled for ASCII texts."},
{"property": "C74", "status": "proved", "theorems": ["C74_nothing", "C74_large_number_refuted", "C74_lost_refuted"], "note": "Data objects are not encrypted by this package, so the claim is about manifests. That the cipher rejects other keys or other associated data is part of the visible hypotheses (useless), with an instance in C74_wrong_key_ex and C74_number_ex."},
{"property": "C75", "status": "proved", "theorems": ["C75_equal_iff", "C75_equal_sends_same", "C75_raises_iff", "C75_created_raises_iff", "C75_equivalence", "C75_parsed", "C75_created", "C75_created_signed", "C75_links", "C75_links_raise", "C75_keylink_changes_link", "C75_pointers", "C75_iterated_pointers", "C75_manifests", "C75_comparable_refuted"], "note": "Interests have no __eq__ and no packets. Comparison with objects of other classes is not modelled. The order in which attributes are compared is that of their assignment in the constructor (CPython)."},
{"property": "C76", "status": "proved", "theorems": ["C76_printable", "C76_manifest", "C76_show", "C76_failures", "C76_build", "C76_written", "C76_exceptions", "C76_messages", "C76_message_texts", "C76_message_raises", "C76_times", "C76_accepted_refuted"], "note": "Whether a text can be made is modelled, not the text. The limits of dates are those of CPython on 64 bit Linux, the limit of digits is that of CPython 3.11 and later."},
{"property": "C77", "status": "proved", "theorems": ["C77_derive", "C77_key_refuted", "C77_info", "C77_with_name"], "note": "HKDF is a parameter. Nothing in the package calls this code (C56)."},
{"property": "C78", "status": "proved", "theorems": ["C78_calls", "C78_link_calls", "C78_loop", "C78_pairs_refuted", "C78_node", "C78_node_pairs", "C78_node_ended", "C78_reverse"], "note": "Python's recursion limit in NodeIterator.__next__ is not modelled. Loops run with explicit fuel; the theorems give enough."},
{"property": "C79", "status": "proved", "theorems": ["C79_kinds", "C79_saved", "C79_unsaved", "C79_generated", "C79_locked_refuted", "C79_programs_refuted", "C79_clear", "C79_answers", "C79_keystore", "C79_writer"], "note": "The PEM functions of the cryptography package are parameters; lib_ok (writing and reading agree) is a visible hypothesis with an instance in C79_lib. That load_pem_private_key raises TypeError for a str password is part of the model (Pem.v load_private). PEM files of keys other than RSA are not modelled."},
{"property": "C80", "status": "proved", "theorems": ["C80_chunks", "C80_stops", "C80_file", "C80_file_build", "C80_two_steps", "C80_no_dangling", "C80_read_back", "C80_segmented", "C80_integrity", "C80_protected", "C80_numbers", "C80_sequence", "C80_manifest_names_refuted"], "note": "The context given is one made from the same options (known_context); in C80_read_back, C80_segmented and C80_integrity what the reads give together must not depend on the size asked for (content). Segmented schema: as for C36. Reads that return None are not modelled."},
{"property": "C81", "status": "proved", "theorems": ["C81_builder", "C81_group", "C81_group_shared", "C81_names_keep", "C81_make", "C81_append", "C81_names_lent", "C81_items", "C81_items_wire", "C81_chunk_item", "C81_node_locator", "C81_interest_list"], "note": "Limits are integers; without limit (math.inf, the default) is the same as a limit above the number of calls. The caller adds to a list only at its end."},
{"property": "C82", "status": "proved", "theorems": ["C82_group_data", "C82_hash_group", "C82_node_data", "C82_node", "C82_equivalence", "C82_parsed", "C82_schema", "C82_bytes", "C82_group_parts_refuted", "C82_digest_refuted", "C82_comparable_refuted", "C82_manifest_nodes_refuted"], "note": "Links inside locators have not been iterated over (C75_keylink_changes_link says what happens then); C82_parsed for numbers below 2^64."},
{"property": "C83", "status": "proved", "theorems": ["C83_text", "C83_instant", "C83_kept", "C83_near", "C83_same_instant", "C83_before_1970", "C83_before_1970_refuted", "C83_millis_refuted", "C83_local_refuted"], "note": "datetime.fromisoformat of CPython 3.12 on texts of the documented form; what it makes of other texts and the local time zone are parameters."},
{"property": "C84", "status": "proved", "theorems": ["C84_generate", "C84_usable", "C84_constructors", "C84_nonce", "C84_nonce_bits_refuted", "C84_iv", "C84_ccm_nonce", "C84_new_key", "C84_unwrapped", "C84_small_rsa"], "note": "Sizes are integers. C84_ccm_nonce assumes what sizes of IV AES-CCM of the cryptography package takes; C84_small_rsa is for no KDF data."}
]}
