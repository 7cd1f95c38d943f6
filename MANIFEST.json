{
 "claims": [
  {
   "property": "C01",
   "status": "proved",
   "theorems": [
    "C01_varnumber_prefix_free",
    "C01_varnumber_round_trip",
    "C01_varnumber_shortest"
   ],
   "note": "all n<2^64, any context, any positive capacity"
  },
  {
   "property": "C02",
   "status": "proved",
   "theorems": [
    "C02_negative_raises",
    "C02_nonneg_tlv_exact",
    "C02_nonneg_tlv_round_trip",
    "C02_too_large_rejected_refuted"
   ],
   "note": "round trip, negative rejection; C02_too_large_rejected_refuted records that values >= 2^64 are not rejected"
  },
  {
   "property": "C03",
   "status": "proved",
   "theorems": [
    "C03_capacity_independent",
    "C03_capacity_zero_refuted",
    "C03_refines_byte_list"
   ],
   "note": "all operation sequences; capacity 0 refuted separately"
  },
  {
   "property": "C04",
   "status": "proved",
   "theorems": [
    "C04_blob_from_input",
    "C04_controlParameters",
    "C04_controlResponse",
    "C04_data",
    "C04_decodeInterest",
    "C04_delegationSet",
    "C04_encryptedContent",
    "C04_encryptedContentV2",
    "C04_interestV02",
    "C04_interestV03",
    "C04_lpPacket",
    "C04_lpPacket_refuted",
    "C04_name",
    "C04_name_from_input",
    "C04_signatureInfo"
   ],
   "note": "every decoder of the wire format on every byte string; LpPacket may additionally raise TypeError (refuted by a Nack without reason)"
  },
  {
   "property": "C05",
   "status": "proved",
   "theorems": [
    "C05_finish_accepts_exactly",
    "C05_finish_total"
   ],
   "note": "exact acceptance condition"
  },
  {
   "property": "C06",
   "status": "proved",
   "theorems": [
    "C06_chunking_independent",
    "C06_delivered_is_the_parse",
    "C06_delivers_every_element",
    "C06_parse_unique",
    "C06_raising_listener_refuted"
   ],
   "note": "every division into chunks, arbitrary bytes; elements <= 8800 never raise; a raising listener loses the rest of the chunk (refuted)"
  },
  {
   "property": "C07",
   "status": "proved",
   "theorems": [
    "C07_buffer_bounded",
    "C07_rejects_exactly_oversized_partial",
    "C07_reset_after_reject",
    "C07_whole_element_not_limited_refuted"
   ],
   "note": "bound for all histories, exact rejection condition, reset; whole elements are not limited (refuted)"
  },
  {
   "property": "C08",
   "status": "proved",
   "theorems": [
    "C08_bad_digest_refuted",
    "C08_encoding_injective",
    "C08_name_round_trip",
    "C08_other_code_refuted",
    "C08_signed_portion"
   ],
   "note": "round trip for every valid name, signed portion, injectivity; unchecked digest length and codes outside 1..65535 refuted"
  },
  {
   "property": "C09",
   "status": "proved",
   "theorems": [
    "C09_antisymmetric",
    "C09_compare_zero_iff_equals",
    "C09_compare_zero_iff_equals_refuted",
    "C09_component_compare",
    "C09_name_compare",
    "C09_total_order"
   ],
   "note": "compare decides the canonical order; _refuted: OTHER_CODE with a recognized code compares equal but is not equal"
  },
  {
   "property": "C10",
   "status": "proved",
   "theorems": [
    "C10_getPrefix",
    "C10_getSubName",
    "C10_getSubName_negative_refuted",
    "C10_getSubName_rest",
    "C10_match_compares_types_refuted",
    "C10_match_iff_value_prefix"
   ],
   "note": "value prefix exactly; the stronger intended reading (types compared, far-negative start) refuted"
  },
  {
   "property": "C11",
   "status": "proved",
   "theorems": [
    "C11_component_successor",
    "C11_empty_name_successor",
    "C11_name_successor",
    "C11_no_name_between_refuted"
   ],
   "note": "strict successor, exact gap; the docstring claim (no name between) refuted"
  },
  {
   "property": "C12",
   "status": "proved",
   "theorems": [
    "C12_digest_not_last_refuted",
    "C12_escape_injective",
    "C12_escape_round_trip",
    "C12_escaped_alphabet",
    "C12_other_code_8_refuted",
    "C12_scheme_only_refuted",
    "C12_uri_injective",
    "C12_uri_round_trip"
   ],
   "note": "escape round trip for all byte strings; URI round trip for all names of generic/other components optionally ending in one digest; digest before the last position refuted"
  },
  {
   "property": "C13",
   "status": "proved",
   "theorems": [
    "C13_conventions",
    "C13_large_refuted",
    "C13_marker_round_trip",
    "C13_negative_raises",
    "C13_number_round_trip",
    "C13_order"
   ],
   "note": "round trip and order for all n < 2^64; larger numbers refuted"
  },
  {
   "property": "C14",
   "status": "proved",
   "theorems": [
    "C14_adjacent_any_refuted",
    "C14_error",
    "C14_matches",
    "C14_total"
   ],
   "note": "interval membership for every filter and component; exact condition of the crash on adjacent ANY (refuted)"
  },
  {
   "property": "C15",
   "status": "proved",
   "theorems": [
    "C15_data_implies_name",
    "C15_full_name",
    "C15_matchesData",
    "C15_matchesName",
    "C15_types_refuted"
   ],
   "note": "exact matching conditions of matchesName and matchesData for every digest function; component types are not compared (refuted)"
  },
  {
   "property": "C16",
   "status": "proved",
   "theorems": [
    "C16_all_fields",
    "C16_interest_round_trip",
    "C16_nonce",
    "C16_reused_object",
    "C16_reused_object_refuted"
   ],
   "note": "every field of every valid v0.2 Interest; the forwarding hint/selectors/link; decode into a reused object; reused-object leak refuted for the field the code forgets"
  },
  {
   "property": "C17",
   "status": "proved",
   "theorems": [
    "C17_params_lost",
    "C17_round_trip_refuted",
    "C17_v03_round_trip"
   ],
   "note": "v0.3 packets built by any encoder round-trip through decodeInterest; parameters are lost when re-encoded (refuted)"
  },
  {
   "property": "C18",
   "status": "proved",
   "theorems": [
    "C18_all_fields",
    "C18_data_round_trip",
    "C18_null_content_refuted"
   ],
   "note": "every field of every valid Data; null content decodes as empty (refuted)"
  },
  {
   "property": "C19",
   "status": "proved",
   "theorems": [
    "C19_independent_of_signature_value",
    "C19_signed_portion"
   ],
   "note": "signed portion is exactly the slice, independent of the signature value"
  },
  {
   "property": "C20",
   "status": "proved",
   "theorems": [
    "C20_flags_bits",
    "C20_flags_round_trip",
    "C20_null_status_refuted",
    "C20_parameters_round_trip",
    "C20_response_round_trip",
    "C20_unused_elements"
   ],
   "note": "every parameter and response with fields in range; unused elements are skipped; flags are the protocol bits; a null status code cannot be encoded (refuted)"
  },
  {
   "property": "C21",
   "status": "proved",
   "theorems": [
    "C21_decode",
    "C21_nack_round_trip",
    "C21_omitted_reason_refuted",
    "C21_other_code_refuted",
    "C21_reject_unknown"
   ],
   "note": "every header sequence, exact ignore rule, Nack round trip; an omitted reason and an OTHER_CODE equal to a named code do not round-trip (refuted)"
  },
  {
   "property": "C22",
   "status": "proved",
   "theorems": [
    "C22_find",
    "C22_sorted_map",
    "C22_trailing_ignored_refuted",
    "C22_wire_round_trip"
   ],
   "note": "sorted map by all histories of add/remove, find, wire round trip; trailing junk ignored (refuted)"
  },
  {
   "property": "C23",
   "status": "proved",
   "theorems": [
    "C23_lost_fields_refuted",
    "C23_round_trip_v1",
    "C23_round_trip_v2",
    "C23_v1_all_fields"
   ],
   "note": "v1 and v2 EncryptedContent; the fields v2 drops refuted"
  },
  {
   "property": "C24",
   "status": "proved",
   "theorems": [
    "C24_copy",
    "C24_data",
    "C24_data_exact",
    "C24_delegation_refuted",
    "C24_interest",
    "C24_interest_again",
    "C24_link_refuted",
    "C24_shared_name_refuted"
   ],
   "note": "every history of calls on a heap of shared objects, arbitrary wire formats; three kinds of change that no change counter sees are refuted (delegation, link, shared Name on decode)"
  },
  {
   "property": "C25",
   "status": "partial",
   "theorems": [
    "C25_after_change_partial",
    "C25_alias_refuted",
    "C25_decode_refuted",
    "C25_first_partial",
    "C25_stale_refuted"
   ],
   "note": "false in general (three _refuted theorems); proved when the full name was not asked before, and when a setter of the packet or a sub-object was called since"
  },
  {
   "property": "C26",
   "status": "proved",
   "theorems": [
    "C26_change",
    "C26_reads",
    "C26_refresh",
    "C26_value"
   ],
   "note": "every history: cleared after any setter of the Interest or a sub-object, kept by every reading call, refreshNonce"
  },
  {
   "property": "C27",
   "status": "proved",
   "theorems": [
    "C27_at_most_once",
    "C27_exactly_once",
    "C27_lost_refuted",
    "C27_only_expressed",
    "C27_raise_still_pending_refuted",
    "C27_removed",
    "C27_removed_batch_refuted",
    "C27_wedged_connection_refuted"
   ],
   "note": "every history of operations with reentrant callbacks, over arbitrary match/encode functions; the corner cases where a removed interest is still called back, where a raising express stays pending, where the connection is wedged and where a raising match loses the others are exhibited as _refuted theorems"
  },
  {
   "property": "C28",
   "status": "proved",
   "theorems": [
    "C28_data",
    "C28_data_called",
    "C28_nack",
    "C28_nack_called",
    "C28_only_matching",
    "C28_only_nacked"
   ],
   "note": "exactly the matching entries, for every table; both directions over every history"
  },
  {
   "property": "C29",
   "status": "proved",
   "theorems": [
    "C29_at_most_once",
    "C29_drains",
    "C29_exactly_once",
    "C29_not_early",
    "C29_order"
   ],
   "note": "every history of callLater and processEvents with reentrant callbacks"
  },
  {
   "property": "C30",
   "status": "proved",
   "theorems": [
    "C30_called",
    "C30_dispatch",
    "C30_ids",
    "C30_only_matching",
    "C30_removed",
    "C30_set_unset",
    "C30_unset_batch_refuted",
    "C30_unset_silent"
   ],
   "note": "every history; an unset in the middle of the dispatch of one interest does not stop that dispatch (_refuted)"
  },
  {
   "property": "C31",
   "status": "proved",
   "theorems": [
    "C31_first",
    "C31_found",
    "C31_not_found",
    "C31_not_found_only",
    "C31_only_interests",
    "C31_reply",
    "C31_stored_answered",
    "C31_stored_once",
    "C31_stored_sound"
   ],
   "note": "every history of insertions and clock, over the memory content cache interface"
  },
  {
   "property": "C32",
   "status": "proved",
   "theorems": [
    "C32_completes",
    "C32_content",
    "C32_errors",
    "C32_interests",
    "C32_once",
    "C32_stops",
    "C32_waits"
   ],
   "note": "every sequence of callbacks; what is reported as an error; completes when fed in order"
  },
  {
   "property": "C33",
   "status": "proved",
   "theorems": [
    "C33_fetch",
    "C33_final",
    "C33_multiple_refuted",
    "C33_segments",
    "C33_sent",
    "C33_total"
   ],
   "note": "all buffers below 2^52 bytes; the exact condition under which the final block id is right; C33_multiple_refuted shows the fetcher stuck for every positive multiple of 4400"
  },
  {
   "property": "C34",
   "status": "proved",
   "theorems": [
    "C34_monotone",
    "C34_nodes",
    "C34_order",
    "C34_result",
    "C34_root",
    "C34_root_empty",
    "C34_same",
    "C34_sorted",
    "C34_wrap_refuted"
   ],
   "note": "every history of update calls, with SHA-256 a parameter; session and sequence numbers enter the digest modulo 2^32 (_wrap_refuted)"
  },
  {
   "property": "C35",
   "status": "proved",
   "theorems": [
    "C35_cancel",
    "C35_commute",
    "C35_contents",
    "C35_difference",
    "C35_equals",
    "C35_hang_refuted",
    "C35_list_exact",
    "C35_list_one",
    "C35_list_peelable",
    "C35_list_sound",
    "C35_list_terminates",
    "C35_negative_refuted",
    "C35_order",
    "C35_roundtrip",
    "C35_symmetric",
    "C35_zero_refuted"
   ],
   "note": "every history of insertions and deletions, with MurmurHash3 and zlib parameters and explicit no-collision hypotheses; entries with a negative or zero count do not survive the wire and a received table can make listEntries run forever (_refuted)"
  },
  {
   "property": "C36",
   "status": "proved",
   "theorems": [
    "C36_empty_refuted",
    "C36_encoding_refuted",
    "C36_exchange",
    "C36_in_step",
    "C36_interest",
    "C36_monotone",
    "C36_plain",
    "C36_sequence",
    "C36_twice_refuted",
    "C36_update",
    "C36_zero_refuted"
   ],
   "note": "every history of calls, received interests (arbitrary) and well-formed sync data, for a group of names whose 32-bit hashes do not collide; one exchange brings a node up to date; four kinds of sync data that break it are exhibited as _refuted theorems"
  },
  {
   "property": "C37",
   "status": "proved",
   "theorems": [
    "C37_bounds",
    "C37_constructor",
    "C37_covers",
    "C37_intersect",
    "C37_invalid",
    "C37_isEmpty",
    "C37_union",
    "C37_union_touching_refuted"
   ],
   "note": "all intervals; touching half-open intervals do not unite (_refuted)"
  },
  {
   "property": "C38",
   "status": "proved",
   "theorems": [
    "C38_closing_hour_refuted",
    "C38_compare",
    "C38_constructor",
    "C38_getInterval",
    "C38_last_instant_refuted",
    "C38_zero_repeats_refuted"
   ],
   "note": "all repetitive intervals and times except the named corner cases, which are exhibited as _refuted theorems (closing hour, last half millisecond of a day, zero repeats)"
  },
  {
   "property": "C39",
   "status": "proved",
   "theorems": [
    "C39_access",
    "C39_access_ops",
    "C39_adjacent_refuted",
    "C39_order_independent",
    "C39_sets"
   ],
   "note": "all schedules and all histories of additions; adjacent hours do not unite (_refuted)"
  },
  {
   "property": "C40",
   "status": "proved",
   "theorems": [
    "C40_calendar",
    "C40_epoch",
    "C40_fromIso",
    "C40_iso_text",
    "C40_order",
    "C40_round_trip",
    "C40_round_trip_refuted",
    "C40_rounding"
   ],
   "note": "whole seconds of years 1000..9999: text, round trip, order; the calendar satisfies the day-after specification; earlier years refuted"
  },
  {
   "property": "C41",
   "status": "proved",
   "theorems": [
    "C41_contents",
    "C41_delete",
    "C41_expired_insert",
    "C41_find_interest",
    "C41_find_name",
    "C41_fresh"
   ],
   "note": "all histories of insert, find, delete and clear, all lifetimes and clock values; certificates and Interest matching are arbitrary functions"
  },
  {
   "property": "C42",
   "status": "proved",
   "theorems": [
    "C42_accepts",
    "C42_anchor_expiry_refuted",
    "C42_cache",
    "C42_chain_expiry_refuted",
    "C42_fuel",
    "C42_once",
    "C42_outcome",
    "C42_reset_refuted",
    "C42_sound",
    "C42_terminates"
   ],
   "note": "all histories of validations, answers of the face, trust anchor and cache operations; policy, signature verification, directories and expressInterest are arbitrary functions, the policy synchronous; three expectations refuted by witnesses (expired trust anchor, certificate expired during the fetch, resetAnchors)"
  },
  {
   "property": "C43",
   "status": "proved",
   "theorems": [
    "C43_accepts",
    "C43_eviction_refuted",
    "C43_inflight_refuted",
    "C43_late_refuted",
    "C43_lifetime_refuted",
    "C43_once",
    "C43_replay",
    "C43_subsequent_refuted",
    "C43_total",
    "C43_window"
   ],
   "note": "all histories of checks and completions, with the exact conditions (one command of a key at a time, monotone clock, record lifetime over twice the grace period, enough records); each condition is shown necessary by a refuting history"
  },
  {
   "property": "C44",
   "status": "proved",
   "theorems": [
    "C44_is_valid",
    "C44_is_valid_any",
    "C44_round_trip",
    "C44_rounding"
   ],
   "note": "rounding, validity test for all times, wire round trip"
  },
  {
   "property": "C45",
   "status": "proved",
   "theorems": [
    "C45_compare",
    "C45_equals_iff",
    "C45_hash",
    "C45_hex",
    "C45_null_text_refuted",
    "C45_order",
    "C45_raw",
    "C45_text_determines_bytes",
    "C45_text_error",
    "C45_text_round_trip"
   ],
   "note": "all Unicode texts and byte strings; a null Blob and an empty one differ although both print as empty (refuted)"
  },
  {
   "property": "C46",
   "status": "proved",
   "theorems": [
    "C46_equals_refuted",
    "C46_never_equal"
   ],
   "note": "equals never returns True for separate objects; the intended equality is refuted"
  },
  {
   "property": "C47",
   "status": "proved",
   "theorems": [
    "C47_all_fields",
    "C47_round_trip",
    "C47_safe"
   ],
   "note": "every signature object the encoder accepts; all bytes for the safety half"
  },
  {
   "property": "C48",
   "status": "proved",
   "theorems": [
    "C48_grammar",
    "C48_round_trip",
    "C48_safe",
    "C48_same_decisions"
   ],
   "note": "all schedules of writable intervals; all bytes for the safety half"
  },
  {
   "property": "C49",
   "status": "proved",
   "theorems": [
    "C49_round_trip",
    "C49_safe",
    "C49_trailing"
   ],
   "note": "all lists of names; all bytes for the safety half"
  },
  {
   "property": "C50",
   "status": "proved",
   "theorems": [
    "C50_born",
    "C50_contents",
    "C50_find",
    "C50_size"
   ],
   "note": "all histories of insert and remove, with full names an arbitrary function of the packet"
  },
  {
   "property": "C51",
   "status": "proved",
   "theorems": [
    "C51_changed_file_refuted",
    "C51_clear",
    "C51_cross_group_refuted",
    "C51_directory",
    "C51_duplicate_refuted",
    "C51_find",
    "C51_find_name",
    "C51_group_id",
    "C51_group_taken",
    "C51_remove",
    "C51_sound",
    "C51_static"
   ],
   "note": "all histories over static and dynamic groups; the directory theorem is for one dynamic group; three expectations are refuted by witnesses (duplicate names in a directory, a changed file, a certificate in two groups)"
  },
  {
   "property": "C52",
   "status": "proved",
   "theorems": [
    "C52_accepted",
    "C52_command",
    "C52_drift",
    "C52_increasing",
    "C52_layout",
    "C52_timestamp"
   ],
   "note": "all clocks and all sequences of calls; the composition with the command policy is proved for signatures that fit the wire format"
  },
  {
   "property": "C53",
   "status": "proved",
   "theorems": [
    "C53_certificate_name",
    "C53_certificate_parts",
    "C53_certificate_refused",
    "C53_format",
    "C53_freshness_refuted",
    "C53_identities",
    "C53_key_construct",
    "C53_key_name",
    "C53_key_refused",
    "C53_root_identity_refuted"
   ],
   "note": "all names and Data; two expectations refuted by witnesses (empty identity, exception for a missing freshness period)"
  },
  {
   "property": "C54",
   "status": "proved",
   "theorems": [
    "C54_authority",
    "C54_chain",
    "C54_nested_refuted",
    "C54_policy",
    "C54_short_locator_refuted"
   ],
   "note": "instance of the C42 validator; all histories; signature verification, validity periods, directories and the face are arbitrary; two stronger expectations refuted by witnesses (short key locator, identity inside a key name)"
  },
  {
   "property": "C55",
   "status": "proved",
   "theorems": [
    "C55_cascade",
    "C55_certificate_key_refuted",
    "C55_foreign_default_refuted",
    "C55_no_dangling",
    "C55_refused",
    "C55_remove_absent_key_refuted",
    "C55_root_identity_refuted",
    "C55_state"
   ],
   "note": "all histories of calls with fitting names, all iteration orders of Python sets; certificates are an arbitrary type with a name, content and format check; four documented expectations refuted by witnesses"
  },
  {
   "property": "C56",
   "status": "proved",
   "theorems": [
    "C56_accepts",
    "C56_complete_refuted",
    "C56_component_refuted",
    "C56_errors",
    "C56_match",
    "C56_sound",
    "C56_text"
   ],
   "note": "all texts, all names, all histories of matches on one object; the regular expressions of components (re) are two arbitrary functions of which only \"<.*>\" is assumed; completeness needs that no repeated group matches the empty name (refuted by a witness otherwise) and at most 32767 components; Python's recursion limit is not modelled"
  },
  {
   "property": "C57",
   "status": "proved",
   "theorems": [
    "C57_backrefs",
    "C57_expand",
    "C57_expand_refuted",
    "C57_stale_refuted"
   ],
   "note": "all texts, all names, all histories of matches, all expansion texts; two expectations refuted by witnesses (groups that did not take part, expansion texts that end in <text>)"
  },
  {
   "property": "C58",
   "status": "proved",
   "theorems": [
    "C58_filter_prefix",
    "C58_filter_regex",
    "C58_fromName",
    "C58_fromName_itself",
    "C58_fromName_refuted"
   ],
   "note": "all names, prefixes and regular expressions; of re is assumed that quoted letters stand for themselves; that the expression of a name matches the name alone is refuted by a witness"
  },
  {
   "property": "C59",
   "status": "proved",
   "theorems": [
    "C59_cut_sequence",
    "C59_encode",
    "C59_indefinite_refuted",
    "C59_nonminimal_refuted",
    "C59_overrun_refuted",
    "C59_parse",
    "C59_rejects",
    "C59_safe",
    "C59_truncated_refuted",
    "C59_unique"
   ],
   "note": "all values and all buffers below 2^64 bytes; Python's recursion limit is not modelled; math.floor(x/40) of floats is assumed exact below 120; four forms of buffers that are not DER are shown to be accepted"
  },
  {
   "property": "C60",
   "status": "proved",
   "theorems": [
    "C60_built",
    "C60_parsed",
    "C60_unnotified_refuted"
   ],
   "note": "all trees and all histories of addChild, getSize and encode; the default without notification is refuted by a witness"
  },
  {
   "property": "C61",
   "status": "proved",
   "theorems": [
    "C61_arc2_refuted",
    "C61_eq_refuted",
    "C61_negative_refuted",
    "C61_oid",
    "C61_oid_rejects",
    "C61_one_part_refuted",
    "C61_time"
   ],
   "note": "all identifiers, all times in the years 1000 to 9999 in whole milliseconds; four expectations refuted by witnesses"
  },
  {
   "property": "C62",
   "status": "proved",
   "theorems": [
    "C62_empty_refuted",
    "C62_errors",
    "C62_first",
    "C62_include",
    "C62_layout",
    "C62_lookup",
    "C62_one_line_refuted",
    "C62_quote_refuted",
    "C62_quoted_brace_refuted",
    "C62_quoted_semicolon_refuted",
    "C62_read",
    "C62_same",
    "C62_unbalanced_refuted",
    "C62_write"
   ],
   "note": "Layouts are specified by the relation lays (InfoSpec.v). Refuted witnesses: a section on one line loses its contents and stays open; a semicolon or brace in quotes is not literal; unbalanced braces are accepted; empty values and values with a quote do not survive writing."
  },
  {
   "property": "C63",
   "status": "proved",
   "theorems": [
    "C63_any",
    "C63_decision",
    "C63_definite",
    "C63_hierarchical",
    "C63_history",
    "C63_history_refuted",
    "C63_key_component_refuted",
    "C63_no_locator",
    "C63_raises_refuted",
    "C63_sound",
    "C63_unique"
   ],
   "note": "all configurations that load, all histories of loads and checks, all packets; of Python's re: \".*\", letters and the empty expression are assumed; a complete decision needs names of at most 32767 components and ordinary expressions, soundness does not; three expectations refuted by witnesses (the component MONKEY taken for KEY, ValueError out of the check, answers that depend on earlier packets)"
  },
  {
   "property": "C64",
   "status": "proved",
   "theorems": [
    "C64_actions",
    "C64_atomic_refuted",
    "C64_errors",
    "C64_load",
    "C64_reload"
   ],
   "note": "all property trees and histories; base64, certificate decoding and loadAnchor are arbitrary; that a load that raises leaves the policy as it was is refuted by a witness"
  },
  {
   "property": "C65",
   "status": "proved",
   "theorems": [
    "C65_any",
    "C65_chain",
    "C65_hierarchical"
   ],
   "note": "instance of the C42 validator; all configurations that load, all histories of events, any packets checked before"
  },
  {
   "property": "C66",
   "status": "proved",
   "theorems": [
    "C66_answers",
    "C66_consistent",
    "C66_default_certificate_stale_refuted",
    "C66_default_key_current",
    "C66_default_key_exists",
    "C66_default_key_stale_refuted",
    "C66_failed_add_key_refuted",
    "C66_key_bits_stale_refuted",
    "C66_key_names_refuted",
    "C66_removed_identity_refuted",
    "C66_tpm_locator_reset_refuted"
   ],
   "note": "all proper histories over any back end used sanely; the certificate object, its check and the decoding of keys are arbitrary; what proper use excludes is shown by _refuted witnesses (stale default key, stale bits and certificates, failed add, stale handle, setTpmLocator, getKeyNames)"
  },
  {
   "property": "C67",
   "status": "proved",
   "theorems": [
    "C67_delete_identity",
    "C67_delete_identity_refuted",
    "C67_delete_key",
    "C67_keys",
    "C67_no_orphans",
    "C67_root_identity_refuted",
    "C67_view"
   ],
   "note": "all proper histories of calls from any coherent PIB and TPM; key generation, signing, verification, encryption of private keys and the iteration order of sets are arbitrary functions with the stated laws (crypto, order); C67_delete_identity_refuted and C67_root_identity_refuted show what the hypotheses exclude"
  },
  {
   "property": "C68",
   "status": "proved",
   "theorems": [
    "C68_buffer",
    "C68_certificate_refuted",
    "C68_data",
    "C68_interest",
    "C68_missing_private_key_refuted",
    "C68_signer",
    "C68_signer_there"
   ],
   "note": "all packets, signing infos and histories; two expectations refuted by witnesses (a certificate that does not exist, a private key that is missing)"
  },
  {
   "property": "C69",
   "status": "proved",
   "theorems": [
    "C69_create_identity",
    "C69_create_key",
    "C69_default_certificate_refuted",
    "C69_existing_identity",
    "C69_failed_import",
    "C69_self_sign",
    "C69_transfer",
    "C69_valid_now_refuted",
    "C69_validity"
   ],
   "note": "all histories; clocks until the year 9979 so that the validity period can be encoded; two expectations refuted by witnesses (TypeError without a default certificate, not valid at its own creation)"
  },
  {
   "property": "C70",
   "status": "proved",
   "theorems": [
    "C70_injective",
    "C70_last_signer",
    "C70_last_validity",
    "C70_pib_objects",
    "C70_reachable",
    "C70_round_trip",
    "C70_same_signer",
    "C70_spelling_refuted",
    "C70_strings"
   ],
   "note": "all SigningInfo, names and strings; C70_same_signer ranges over the reachable states of the KeyChain model; one expectation refuted by a witness (spelling of the digest identity)"
  },
  {
   "property": "C71",
   "status": "proved",
   "theorems": [
    "C71_decrypt",
    "C71_encrypt",
    "C71_errors",
    "C71_explicit_type_refuted",
    "C71_key_type",
    "C71_parameters_ignored",
    "C71_pkcs1",
    "C71_pkcs1_type",
    "C71_plain",
    "C71_round_trip",
    "C71_type_error_refuted"
   ],
   "note": "all keys and encodings; the DER reading and writing of key material by the cryptography package, PBKDF2 and DES are arbitrary functions, DES with the law that decryption inverts encryption; two expectations refuted by witnesses"
  },
  {
   "property": "C72",
   "status": "proved",
   "theorems": [
    "C72_any_bytes",
    "C72_injective",
    "C72_into_chain",
    "C72_round_trip",
    "C72_same",
    "C72_self_signed",
    "C72_self_signed_errors",
    "C72_transfer",
    "C72_unchecked_refuted"
   ],
   "note": "all bags, byte strings and histories; cryptography as in C67; one expectation refuted by a witness (the public key is not checked)"
  },
  {
   "property": "C73",
   "status": "proved",
   "theorems": [
    "C73_all",
    "C73_at_most_once",
    "C73_every_request_refuted",
    "C73_first",
    "C73_interests",
    "C73_only_requests",
    "C73_shutdown",
    "C73_stuck",
    "C73_unanswered",
    "C73_waiting"
   ],
   "note": "all histories; the part \"every request is answered in the end\" is false: refuted by a witness, and C73_stuck says exactly when"
  },
  {
   "property": "C74",
   "status": "proved",
   "theorems": [
    "C74_concurrent_refuted",
    "C74_fetch_fails",
    "C74_interests",
    "C74_padding",
    "C74_same_bits",
    "C74_success"
   ],
   "note": "all histories; RSA-OAEP and AES-CBC are parameters; one expectation (concurrent use of a KDK) refuted by a witness"
  },
  {
   "property": "C75",
   "status": "proved",
   "theorems": [
    "C75_alive",
    "C75_encrypt",
    "C75_kek_arrives",
    "C75_names",
    "C75_one_interest",
    "C75_only",
    "C75_regenerate",
    "C75_replaced_refuted",
    "C75_same_millisecond_refuted",
    "C75_served",
    "C75_shutdown_refuted",
    "C75_sign",
    "C75_tries"
   ],
   "note": "all histories; RSA-OAEP, AES-CBC, SHA-256 are parameters; three expectations refuted by witnesses"
  },
  {
   "property": "C76",
   "status": "proved",
   "theorems": [
    "C76_add_member",
    "C76_end_to_end",
    "C76_kdk",
    "C76_kek",
    "C76_new",
    "C76_read",
    "C76_secret",
    "C76_secret_refuted"
   ],
   "note": "all histories; cryptography is a parameter with its laws as hypotheses; the secret expectation refuted by a witness"
  },
  {
   "property": "C77",
   "status": "proved",
   "theorems": [
    "C77_any_locator_refuted",
    "C77_crash",
    "C77_integrity",
    "C77_like_memory",
    "C77_locator",
    "C77_locator_kept",
    "C77_race_refuted",
    "C77_retry",
    "C77_same_default_key_refuted",
    "C77_state"
   ],
   "note": "SQL statements by their meaning, with the triggers and foreign key actions of the schema; three expectations refuted by witnesses"
  },
  {
   "property": "C78",
   "status": "proved",
   "theorems": [
    "C78_catch_up",
    "C78_converge",
    "C78_digests",
    "C78_failed_sign_refuted",
    "C78_first",
    "C78_in_step",
    "C78_join",
    "C78_listening",
    "C78_monotone",
    "C78_newcomer",
    "C78_no_overclaim",
    "C78_number_monotone",
    "C78_other_session_refuted",
    "C78_others",
    "C78_prefixes",
    "C78_publish",
    "C78_recovery",
    "C78_returning",
    "C78_root",
    "C78_same_root",
    "C78_shutdown",
    "C78_sync_reply",
    "C78_two_sessions_refuted",
    "C78_undecodable_refuted",
    "C78_unknown_digest"
   ],
   "note": "protocol buffer coding and the Face are not modelled: messages are lists of states, calls of the Face are recorded; four expectations refuted by witnesses"
  },
  {
   "property": "C79",
   "status": "proved",
   "theorems": [
    "C79_base64",
    "C79_call",
    "C79_create",
    "C79_delete",
    "C79_has_answers_refuted",
    "C79_history",
    "C79_import",
    "C79_lines",
    "C79_no_overwrite",
    "C79_no_wrong_key",
    "C79_read_failure_refuted",
    "C79_repair",
    "C79_sha_create_loses_refuted",
    "C79_success",
    "C79_transfer"
   ],
   "note": "the directory, permissions and the cryptography package are not modelled (oracles); three expectations refuted by witnesses"
  },
  {
   "property": "C80",
   "status": "proved",
   "theorems": [
    "C80_answers",
    "C80_clean_refuted",
    "C80_group_key",
    "C80_history",
    "C80_restart_refuted",
    "C80_same_pair",
    "C80_unknown_member_refuted"
   ],
   "note": "ciphers, key generation and the sqlite engine are oracles (rows in any order); signing of the packets is not modelled; three expectations refuted by witnesses"
  },
  {
   "property": "C81",
   "status": "proved",
   "theorems": [
    "C81_after",
    "C81_before",
    "C81_range",
    "C81_range_error",
    "C81_range_shrinks_refuted",
    "C81_typed_empty_refuted"
   ],
   "note": "two expectations refuted by witnesses"
  },
  {
   "property": "C82",
   "status": "proved",
   "theorems": [
    "C82_answer",
    "C82_bad_name_refuted",
    "C82_called",
    "C82_empty_type_refuted",
    "C82_error_refuted",
    "C82_filter",
    "C82_known_key_refuted",
    "C82_name",
    "C82_one_interest",
    "C82_produce",
    "C82_retry",
    "C82_starts_at_slot_refuted"
   ],
   "note": "five expectations refuted by witnesses"
  },
  {
   "property": "C83",
   "status": "proved",
   "theorems": [
    "C83_add_key",
    "C83_always_answered_refuted",
    "C83_cached",
    "C83_errors",
    "C83_group",
    "C83_interests",
    "C83_no_key_name_refuted",
    "C83_one_reply",
    "C83_plaintext",
    "C83_sent",
    "C83_silent",
    "C83_timeout"
   ],
   "note": "two expectations refuted by witnesses"
  },
  {
   "property": "C84",
   "status": "proved",
   "theorems": [
    "C84_end_to_end",
    "C84_long_ckey_refuted",
    "C84_short_dkey_refuted"
   ],
   "note": "two expectations refuted by witnesses"
  },
  {
   "property": "C85",
   "status": "proved",
   "theorems": [
    "C85_anchor_verifies",
    "C85_any_verifies",
    "C85_expressions",
    "C85_hierarchical",
    "C85_nothing_trusted",
    "C85_only_authentic",
    "C85_refresh",
    "C85_refresh_needed_refuted"
   ],
   "note": "two expectations refuted by witnesses"
  },
  {
   "property": "C86",
   "status": "proved",
   "theorems": [
    "C86_depth_refuted",
    "C86_expired_certificate_refuted",
    "C86_first_step",
    "C86_hmac_refuted",
    "C86_interests",
    "C86_no_validity_period_refuted",
    "C86_one_answer",
    "C86_raise_after_verified_refuted",
    "C86_replay_refuted",
    "C86_timeouts",
    "C86_timestamps"
   ],
   "note": "six expectations refuted by witnesses"
  },
  {
   "property": "C87",
   "status": "proved",
   "theorems": [
    "C87_data_arrives",
    "C87_express",
    "C87_idle_refuted",
    "C87_interest_arrives",
    "C87_loopback",
    "C87_nack_arrives",
    "C87_put_data",
    "C87_put_nack",
    "C87_stream",
    "C87_undecodable",
    "C87_undecodable_ignored"
   ],
   "note": "Composition of reader, LpPacket, wire format and node: any chunking of any packets arrives as the same packets (C87_stream); express/filter/putData/onData/putNack/onNetworkNack end to end for all node states and later schedules; arbitrary bytes raise only the listed exceptions and change nothing. C87_idle_refuted: an LpPacket without fragment raises TypeError and the rest of its chunk is lost."
  },
  {
   "property": "C88",
   "status": "proved",
   "theorems": [
    "C88_command",
    "C88_increasing",
    "C88_no_signing_info",
    "C88_reported",
    "C88_response",
    "C88_silent_refuted",
    "C88_status"
   ],
   "note": "one expectation refuted by a witness (a response that raises RuntimeError is never reported)"
  },
  {
   "property": "C89",
   "status": "proved",
   "theorems": [
    "C89_decode",
    "C89_decode_twice_refuted",
    "C89_encode",
    "C89_key_name",
    "C89_public_key",
    "C89_round_trip",
    "C89_safe",
    "C89_set_name",
    "C89_set_name_refuted",
    "C89_text_refuted",
    "C89_wire_round_trip"
   ],
   "note": "three expectations refuted by witnesses (non-ASCII text, decoding twice, setName)"
  },
  {
   "property": "C90",
   "status": "proved",
   "theorems": [
    "C90_decode_safe",
    "C90_empty_refuted",
    "C90_encode",
    "C90_faithful",
    "C90_false_refuted",
    "C90_injective",
    "C90_name_field",
    "C90_order_refuted",
    "C90_round_trip",
    "C90_text_refuted",
    "C90_versions"
   ],
   "note": "four expectations refuted by witnesses (text, false, element order, empty sub-message)"
  },
  {
   "property": "C91",
   "status": "proved",
   "theorems": [
    "C91_create",
    "C91_create_first",
    "C91_default_identity",
    "C91_defaults",
    "C91_delete_refuted",
    "C91_kept",
    "C91_key_word_refuted",
    "C91_new_key",
    "C91_not_stored_refuted",
    "C91_prepare",
    "C91_prepare_refused",
    "C91_replaced_key_refuted",
    "C91_sign",
    "C91_sign_refused"
   ],
   "note": "four expectations refuted by witnesses (KEY in the identity, replaced key pair, default certificate that is not stored, deleteIdentity)"
  },
  {
   "property": "C92",
   "status": "proved",
   "theorems": [
    "C92_answered",
    "C92_by_identity",
    "C92_data",
    "C92_data_verified",
    "C92_hmac",
    "C92_hmac_verified",
    "C92_interest",
    "C92_interest_verified",
    "C92_pib_refuted",
    "C92_replaced_refuted",
    "C92_sha",
    "C92_versionless_refuted"
   ],
   "note": "three expectations refuted by witnesses (unknown key with a PIB, certificate name without a version, replaced key pair)"
  },
  {
   "property": "C93",
   "status": "proved",
   "theorems": [
    "C93_bounded",
    "C93_re_express",
    "C93_remove_refuted",
    "C93_zero_lifetime_refuted"
   ],
   "note": "two expectations refuted by witnesses (lifetime 0, removal with the id of the first Interest)"
  },
  {
   "property": "C94",
   "status": "proved",
   "theorems": [
    "C94_add",
    "C94_copy",
    "C94_copy_link",
    "C94_copy_type_refuted",
    "C94_decode",
    "C94_decode_carries",
    "C94_history",
    "C94_history_received",
    "C94_negative_refuted",
    "C94_remove",
    "C94_round_trip",
    "C94_wrong_type_refuted"
   ],
   "note": "three expectations refuted by witnesses (copied Data without delegations, negative preference, packet that is not a LINK)"
  },
  {
   "property": "C95",
   "status": "proved",
   "theorems": [
    "C95_changed_key_refuted",
    "C95_dict",
    "C95_equal_names",
    "C95_hash",
    "C95_put_get"
   ],
   "note": "changing a key is shown by a witness to lose the entry"
  },
  {
   "property": "C96",
   "status": "proved",
   "theorems": [
    "C96_delete",
    "C96_delete_atomic_refuted",
    "C96_exists",
    "C96_files",
    "C96_generate",
    "C96_generate_atomic_refuted",
    "C96_history",
    "C96_mapping",
    "C96_mode",
    "C96_no_overwrite",
    "C96_no_wrong_key",
    "C96_others",
    "C96_private_mode_refuted",
    "C96_public_key",
    "C96_repair",
    "C96_success"
   ],
   "note": "generateKeyPair and deleteKeyPair are shown by witnesses not to be atomic, and the private key to be in a file with the default mode for a time; the makedirs of the constructor is not modelled"
  },
  {
   "property": "C97",
   "status": "proved",
   "theorems": [
    "C97_bad_default_refuted",
    "C97_config",
    "C97_crash",
    "C97_default",
    "C97_default_history",
    "C97_default_kept_refuted",
    "C97_error",
    "C97_exact",
    "C97_fixed",
    "C97_guard_refuted",
    "C97_history",
    "C97_locator",
    "C97_never_lost",
    "C97_once",
    "C97_recorded",
    "C97_recorded_refuted",
    "C97_retry",
    "C97_same_again_refuted",
    "C97_version"
   ],
   "note": "the exceptions are shown by witnesses (C97_..._refuted); custom schemes (registerPibBackend, registerTpmBackend), darwin, and several processes inside the constructor at once are not modelled; two paths are the same file only if they are the same string"
  },
  {
   "property": "C98",
   "status": "proved",
   "theorems": [
    "C98_absent_default_refuted",
    "C98_crash",
    "C98_default_key",
    "C98_defaults",
    "C98_deleted",
    "C98_escaped_key_refuted",
    "C98_exists",
    "C98_first_stays",
    "C98_get",
    "C98_integrity",
    "C98_lists",
    "C98_no_duplicates",
    "C98_raises"
   ],
   "note": "the wrong key names and the lost defaults are shown by witnesses (C98_..._refuted); the TPM locator table, failures of SQLite, other users of the file, and a stored certificate that does not decode are not modelled; names of generic components and of other type codes"
  }
 ]
}