{
 "claims": [
  {
   "property": "C01",
   "status": "partial",
   "theorems": [
    "C01_writer",
    "C01_round_trip_partial",
    "C01_lookup",
    "C01_exact_buffer_refuted"
   ],
   "note": "Round trip proved for every value (partial theorem) when the document has fewer than 65536 objects, is below 2 GiB and one byte behind the buffer is readable. Missing because false of the code: a list or dictionary that ends exactly at the end of the buffer is read one byte too far (C01_exact_buffer_refuted, for every such value); larger documents overflow 16/31 bit fields."
  },
  {
   "property": "C02",
   "status": "partial",
   "theorems": [
    "C02_safe_partial",
    "C02_negative_length_refuted",
    "C02_long_text_refuted"
   ],
   "note": "The statement is false of the code: C02_negative_length_refuted (recursion without end on 'd-4:'), C02_long_text_refuted (over-read accepted) for all continuations. Proved: termination in linearly many steps and bounds (up to one byte) for every 'tame' input below 64 KiB followed by readable zeroes. Missing: inputs in which a negative or >= 2^31 number can be read, where it is false."
  },
  {
   "property": "C03",
   "status": "partial",
   "theorems": [
    "C03_read_message_partial",
    "C03_writers",
    "C03_reader_in_bounds",
    "C03_bitfield_65536_refuted"
   ],
   "note": "Proved for every message of at most 65535 bytes. Missing because false: a bitfield message of 65536 bytes or more, whose size wraps to 16 bits (C03_bitfield_65536_refuted)."
  },
  {
   "property": "C04",
   "status": "partial",
   "theorems": [
    "C04_fragmentation_partial",
    "C04_fragmentation_65536_refuted",
    "C04_receive_in_bounds"
   ],
   "note": "Proved for every list of messages, every fragmentation and every read-ahead, for messages up to 65535 bytes. Missing because false: 65536 byte messages (C04_fragmentation_65536_refuted)."
  },
  {
   "property": "C05",
   "status": "partial",
   "theorems": [
    "C05_choke_follows_peer",
    "C05_interest_refuted",
    "C05_own_state_told",
    "C05_connect_again"
   ],
   "note": "Choking half, and the rest of the state, proved for every history. The interest half is false of the code for every history with an interest message: recorded inverted (C05_interest_refuted)."
  },
  {
   "property": "C06",
   "status": "proved",
   "theorems": [
    "C06_hex_encode_correct",
    "C06_hex_decode_correct",
    "C06_hex_round_trip",
    "C06_hex_reject",
    "C06_hex_in_bounds",
    "C06_hex_short_text_refuted"
   ],
   "note": "Fully proved. Also a finding outside the statement: text shorter than the output makes decodeHexa read past it (C06_hex_short_text_refuted)."
  },
  {
   "property": "C07",
   "status": "proved",
   "theorems": [
    "C07_url_encode_correct",
    "C07_url_decode_correct",
    "C07_url_round_trip",
    "C07_url_bad_escape_refuted",
    "C07_escape_digits"
   ],
   "note": "Fully proved. Also a finding outside the statement: text that is not percent-encoding (a bad first escape) uses an uninitialised variable (C07_url_bad_escape_refuted)."
  },
  {
   "property": "C08",
   "status": "proved",
   "theorems": [
    "C08_base32_decode_correct",
    "C08_base32_decode_upper",
    "C08_base32_rejects"
   ],
   "note": "Fully proved, including that other characters are rejected."
  },
  {
   "property": "C09",
   "status": "proved",
   "theorems": [
    "C09_link",
    "C09_plain_hash",
    "C09_without_hash",
    "C09_bad_escape_refuted"
   ],
   "note": "Fully proved. Also a finding outside the statement: a link with a bad escape uses an uninitialised variable (C09_bad_escape_refuted)."
  },
  {
   "property": "C10",
   "status": "partial",
   "theorems": [
    "C10_addr_round_trip",
    "C10_addr_parse_ok",
    "C10_addr_eq_partial",
    "C10_addr_order_partial",
    "C10_addr_eq_refuted",
    "C10_addr_order_refuted",
    "C10_addr_text_partial",
    "C10_addr_text_exact",
    "C10_addr_text_refuted"
   ],
   "note": "Compact round trip proved in full. Equality and order laws proved within one address family; across families they are false of the code (C10_addr_eq_refuted, C10_addr_order_refuted). Text form: proved when no byte is x0y with x>0; otherwise the middle zero is dropped (C10_addr_text_refuted)."
  },
  {
   "property": "C11",
   "status": "proved",
   "theorems": [
    "C11_rc4_is_rc4",
    "C11_rc4_init_defined",
    "C11_rc4_long_key",
    "C11_rc4_inverse",
    "C11_rc4_chunks",
    "C11_rc4_skip"
   ],
   "note": "Fully proved for every key, discard length, data and chunking."
  },
  {
   "property": "C12",
   "status": "partial",
   "theorems": [
    "C12_mul",
    "C12_square",
    "C12_mul_low",
    "C12_compare",
    "C12_add",
    "C12_sub",
    "C12_shift",
    "C12_div_partial",
    "C12_div_same_partial",
    "C12_div_zero",
    "C12_mulm_partial",
    "C12_powm_partial",
    "C12_single_digit_refuted",
    "C12_power_zero_refuted",
    "C12_bytes"
   ],
   "note": "Proved exactly for all digit counts: comparison, addition, subtraction, shifts, multiplication, squaring; division, modular product and power for divisors of two or more digits or up to 2^63. Missing because false: a one digit divisor above 2^63 overflows (C12_single_digit_refuted), x^0 mod 1 = 1 (C12_power_zero_refuted). C56 states the complete part."
  },
  {
   "property": "C13",
   "status": "proved",
   "theorems": [
    "C13_parameters",
    "C13_agree",
    "C13_public_key"
   ],
   "note": "Fully proved for the program's prime and generator and all private keys."
  },
  {
   "property": "C14",
   "status": "partial",
   "theorems": [
    "C14_handshake_partial",
    "C14_lookup_partial",
    "C14_refuted",
    "C14_other_refuted",
    "C14_key_stream"
   ],
   "note": "The statement is false of the code: C14_refuted and C14_other_refuted. C14_lookup_partial states exactly when the lookup works; C14_handshake_partial proves the rest of the handshake once it does, for every fragmentation."
  },
  {
   "property": "C15",
   "status": "proved",
   "theorems": [
    "C15_delivery",
    "C15_after_message4",
    "C15_ciphers_match"
   ],
   "note": "Fully proved."
  },
  {
   "property": "C16",
   "status": "partial",
   "theorems": [
    "C16_pieces_of_files",
    "C16_every_byte_once",
    "C16_end_partial",
    "C16_boundary_refuted",
    "C16_single",
    "C16_zero_piece_length_refuted",
    "C16_empty_last_refuted"
   ],
   "note": "Starts, sizes, coverage proved for every list of sizes. End of file: proved unless the file ends on a piece boundary, where it is false (C16_boundary_refuted, for every such layout). Other findings: zero piece length, empty last file."
  },
  {
   "property": "C17",
   "status": "partial",
   "theorems": [
    "C17_single",
    "C17_multi_partial",
    "C17_multiple_refuted"
   ],
   "note": "Single file torrents and multi file torrents whose total is not a multiple of the piece size: proved. False otherwise, for every such torrent (C17_multiple_refuted)."
  },
  {
   "property": "C18",
   "status": "partial",
   "theorems": [
    "C18_store_partial",
    "C18_load_partial",
    "C18_round_trip_partial",
    "C18_boundary_refuted",
    "C18_padding_refuted"
   ],
   "note": "Store, load and round trip proved for every well laid out torrent and any order of blocks. Missing because false: torrents with a file ending on a piece boundary (C18_boundary_refuted, C18_padding_refuted); not covered: files of which only the ends are allocated."
  },
  {
   "property": "C19",
   "status": "partial",
   "theorems": [
    "C19_counters_partial",
    "C19_received_and_selected",
    "C19_operations_safe",
    "C19_restored",
    "C19_finished",
    "C19_add",
    "C19_remove",
    "C19_select",
    "C19_remove_where",
    "C19_bitfield_refuted",
    "C19_init_refuted"
   ],
   "note": "Proved for every sequence of operations without reading a bitfield; the bitfield case is false of the code (C19_bitfield_refuted), as is a second init (C19_init_refuted)."
  },
  {
   "property": "C20",
   "status": "partial",
   "theorems": [
    "C20_bitfield_partial",
    "C20_read_partial",
    "C20_round_trip_partial",
    "C20_large_refuted"
   ],
   "note": "Proved for up to 2^24 pieces; false above (float arithmetic, C20_large_refuted)."
  },
  {
   "property": "C21",
   "status": "partial",
   "theorems": [
    "C21_received_bytes_partial",
    "C21_selected_bytes_partial",
    "C21_multiple_refuted"
   ],
   "note": "Proved unless the total is a multiple of the piece size and the last piece is received; then the count is off by exactly one piece (C21_multiple_refuted)."
  },
  {
   "property": "C22",
   "status": "partial",
   "theorems": [
    "C22_partial",
    "C22_three_files_refuted"
   ],
   "note": "Proved for every sequence of selections when no three files share a piece and none is empty. False otherwise (C22_three_files_refuted)."
  },
  {
   "property": "C23",
   "status": "partial",
   "theorems": [
    "C23_received_partial",
    "C23_mismatch_forgets",
    "C23_early_refuted",
    "C23_deselected_refuted"
   ],
   "note": "Proved: received means received before, or being checked, or checked well, for all histories without selection changes. False as stated: a piece counts as received while it is checked (C23_early_refuted) and without any check if deselected in between (C23_deselected_refuted)."
  },
  {
   "property": "C24",
   "status": "partial",
   "theorems": [
    "C24_transparent_partial",
    "C24_stop_partial",
    "C24_finishes_partial",
    "C24_conflict_refuted",
    "C24_order_refuted",
    "C24_lost_refuted",
    "C24_twice_refuted",
    "C24_oversize_refuted",
    "C24_outside_refuted"
   ],
   "note": "Transparency, stopping and progress proved for all interleavings of 'calm' histories. Missing because false: conflicting stores of a cached block, stores during a full flush, oversize blocks (five refutations)."
  },
  {
   "property": "C25",
   "status": "partial",
   "theorems": [
    "C25_sent_at_most_granted",
    "C25_answered_once",
    "C25_in_order_partial",
    "C25_order_refuted",
    "C25_closed_peer",
    "C25_cancelled"
   ],
   "note": "Budget, at most once, closed peers: proved for all histories. Order: proved for requests of one size; false in general (C25_order_refuted)."
  },
  {
   "property": "C26",
   "status": "partial",
   "theorems": [
    "C26_never_above_limit",
    "C26_burst",
    "C26_at_most_asked",
    "C26_queued_bytes",
    "C26_not_starved_partial",
    "C26_starved_refuted"
   ],
   "note": "Limits and amounts proved for all histories. No starvation proved when each tick credits a byte per unit of priority; false otherwise (C26_starved_refuted)."
  },
  {
   "property": "C27",
   "status": "partial",
   "theorems": [
    "C27_complete_iff",
    "C27_assembled",
    "C27_first_counts",
    "C27_asks_missing_partial",
    "C27_asks_every_part",
    "C27_safe_partial",
    "C27_loaded_fits",
    "C27_overlong_refuted",
    "C27_empty_part_refuted",
    "C27_asks_nonsense_refuted",
    "C27_untyped_refuted"
   ],
   "note": "Completion and assembly proved for all histories of well-formed messages. Missing because false: overlong or empty parts, a part before the size is known, untyped messages (four refutations)."
  },
  {
   "property": "C28",
   "status": "partial",
   "theorems": [
    "C28_any_file",
    "C28_missing_kept",
    "C28_saved",
    "C28_round_trip_partial",
    "C28_size_refuted",
    "C28_unfinished_refuted"
   ],
   "note": "Complete round trip proved for full sizes below 4 GiB and unfinished pieces with bytes. False otherwise (C28_size_refuted for every larger size, C28_unfinished_refuted)."
  },
  {
   "property": "C29",
   "status": "partial",
   "theorems": [
    "C29_round_trip_partial",
    "C29_encryption_refuted",
    "C29_directory_refuted",
    "C29_set_connection",
    "C29_set_dht",
    "C29_set_directory",
    "C29_set_transfer",
    "C29_prefer_refuted",
    "C29_always_saved",
    "C29_unchanged_not_written",
    "C29_set_all",
    "C29_callbacks"
   ],
   "note": "Round trip of every saved setting proved, and that changes are applied and saved. False: encryption and uTP preference are not saved (C29_encryption_refuted), ']]>' in the directory, and changing only the preference (C29_prefer_refuted)."
  },
  {
   "property": "C30",
   "status": "partial",
   "theorems": [
    "C30_distance",
    "C30_bucket",
    "C30_order",
    "C30_closer_partial",
    "C30_closer_sound",
    "C30_nearest_refuted"
   ],
   "note": "Bucket number proved in full. Comparison proved for distances of 2 or more; false for the target and its neighbour (C30_nearest_refuted, for all ids)."
  },
  {
   "property": "C31",
   "status": "proved",
   "theorems": [
    "C31_well_formed",
    "C31_responding_stay",
    "C31_first_failure",
    "C31_own_id_refuted",
    "C31_refreshed"
   ],
   "note": "Fully proved as stated. Also a finding outside the statement: the own id can be added (C31_own_id_refuted)."
  },
  {
   "property": "C32",
   "status": "partial",
   "theorems": [
    "C32_bounded",
    "C32_order",
    "C32_nothing_closer_partial",
    "C32_neighbour_refuted"
   ],
   "note": "Proved except for nodes differing from the own id in the last bit, which are never returned (C32_neighbour_refuted)."
  },
  {
   "property": "C33",
   "status": "partial",
   "theorems": [
    "C33_round_trip_partial",
    "C33_delimiter_refuted",
    "C33_foreign_file_refuted"
   ],
   "note": "Proved for tables in whose nodes the delimiter text does not occur; false otherwise (C33_delimiter_refuted). Hostile files: C33_foreign_file_refuted."
  },
  {
   "property": "C34",
   "status": "partial",
   "theorems": [
    "C34_accepted",
    "C34_accepted_iff",
    "C34_other_address_partial",
    "C34_expires",
    "C34_permuted_refuted"
   ],
   "note": "Acceptance during the lifetime proved in full. Rejection of other addresses proved for different character sums; false for permuted addresses, for all secrets (C34_permuted_refuted)."
  },
  {
   "property": "C35",
   "status": "partial",
   "theorems": [
    "C35_stored_partial",
    "C35_answer",
    "C35_kept_partial",
    "C35_expired",
    "C35_family_refuted"
   ],
   "note": "Proved unless an IPv6 address begins with the bytes of an IPv4 one of the same port (C35_family_refuted)."
  },
  {
   "property": "C36",
   "status": "partial",
   "theorems": [
    "C36_asked_once",
    "C36_candidates",
    "C36_outstanding",
    "C36_stopped",
    "C36_replaced",
    "C36_end_partial",
    "C36_end_refuted",
    "C36_outstanding_refuted",
    "C36_table_node_refuted"
   ],
   "note": "At most once for learned nodes and the bound of candidates proved for all replies. End reported once: proved when replies carry their transaction id; false otherwise (C36_end_refuted, C36_outstanding_refuted). Table nodes can be asked twice (C36_table_node_refuted)."
  },
  {
   "property": "C37",
   "status": "partial",
   "theorems": [
    "C37_in_order",
    "C37_delivered_partial",
    "C37_zero_refuted",
    "C37_hang_refuted"
   ],
   "note": "Prefix property proved for every network behaviour. Delivery of contiguous data proved when packet number 0 never waits; false otherwise (C37_zero_refuted). Buffer exhaustion: C37_hang_refuted."
  },
  {
   "property": "C38",
   "status": "proved",
   "theorems": [
    "C38_stream",
    "C38_forgotten",
    "C38_runs"
   ],
   "note": "Fully proved."
  },
  {
   "property": "C39",
   "status": "proved",
   "theorems": [
    "C39_header"
   ],
   "note": "Fully proved for every datagram."
  },
  {
   "property": "C40",
   "status": "partial",
   "theorems": [
    "C40_mask_partial",
    "C40_dropped",
    "C40_zero_refuted"
   ],
   "note": "Exactness of the mask proved when packet number 0 never waits, false otherwise (C40_zero_refuted); dropping by the sender proved."
  },
  {
   "property": "C41",
   "status": "partial",
   "theorems": [
    "C41_connect_request",
    "C41_announce_request",
    "C41_peers_partial",
    "C41_no_peers_refuted",
    "C41_connected",
    "C41_only_last",
    "C41_connect_only_last",
    "C41_safe_partial",
    "C41_short_refuted",
    "C41_mixed_reply_refuted",
    "C41_never_reconnects_refuted",
    "C41_connect_again",
    "C41_announce_again"
   ],
   "note": "Requests, acceptance and peers proved. Missing because false: replies without peers, 1 to 7 byte replies (over-read), announce reply taken as connect reply, the connection id is never renewed (four refutations)."
  },
  {
   "property": "C42",
   "status": "partial",
   "theorems": [
    "C42_unique_partial",
    "C42_only_added",
    "C42_duplicate_refuted",
    "C42_https_duplicate_refuted",
    "C42_backoff",
    "C42_later",
    "C42_fallback",
    "C42_safe_partial",
    "C42_dangling_refuted",
    "C42_removed_refuted",
    "C42_restart_after_stop_refuted"
   ],
   "note": "Back-off proved. Uniqueness proved for lists in which each address names a port and no host has two; false otherwise (C42_duplicate_refuted, C42_https_duplicate_refuted). Safety proved for fixed lists; false for lists changed while running (C42_dangling_refuted, C42_removed_refuted)."
  },
  {
   "property": "C43",
   "status": "partial",
   "theorems": [
    "C43_safe",
    "C43_consistent_partial",
    "C43_limit",
    "C43_contacts",
    "C43_nobody_missed",
    "C43_never_forgotten",
    "C43_found",
    "C43_twice_refuted",
    "C43_unwanted_refuted",
    "C43_holepunch_refuted",
    "C43_families_refuted"
   ],
   "note": "Consistency proved for all histories of one address family and settings in which attempts open a stream; limit proved. False otherwise (C43_twice_, C43_unwanted_, C43_holepunch_, C43_families_refuted)."
  },
  {
   "property": "C44",
   "status": "partial",
   "theorems": [
    "C44_read_back_partial",
    "C44_lists_partial",
    "C44_first_partial",
    "C44_sent",
    "C44_named",
    "C44_again_refuted",
    "C44_over_50_refuted",
    "C44_ipv6_refuted",
    "C44_first_refuted",
    "C44_flags"
   ],
   "note": "Read back and exact content of every message proved for IPv4 peers: dropped exactly; added lists all current peers, not only the new ones, so the statement is false (C44_again_refuted and three more)."
  },
  {
   "property": "C45",
   "status": "partial",
   "theorems": [
    "C45_content_length",
    "C45_first_chunk_partial",
    "C45_only_first_chunk_refuted",
    "C45_terminates_partial",
    "C45_partial_header_refuted",
    "C45_throw_refuted"
   ],
   "note": "Content length bodies and first chunk proved; termination for complete headers. False: partial headers loop (C45_partial_header_refuted, for all), only the first chunk is read (C45_only_first_chunk_refuted), throw on bad numbers."
  },
  {
   "property": "C46",
   "status": "partial",
   "theorems": [
    "C46_registry",
    "C46_merge",
    "C46_merge_magnet",
    "C46_remove",
    "C46_restart",
    "C46_race_refuted",
    "C46_garbage_refuted",
    "C46_stale_refuted",
    "C46_any_list"
   ],
   "note": "Uniqueness, merging and list proved for all sequences of calls. False: two threads adding at once (C46_race_refuted), a torrent that could not be loaded stays in the list (C46_stale_refuted), garbage files compare an unset hash (C46_garbage_refuted)."
  },
  {
   "property": "C47",
   "status": "partial",
   "theorems": [
    "C47_started_again_partial",
    "C47_file_started_again",
    "C47_stopped",
    "C47_magnet_refuted",
    "C47_failed_start_refuted",
    "C47_metadata_refuted",
    "C47_second_start_refuted",
    "C47_start_outcome",
    "C47_start_missing",
    "C47_check_begins"
   ],
   "note": "Proved for torrents whose metadata is saved and whose files open; every reachable state checked (finite). False otherwise: four refutations."
  },
  {
   "property": "C48",
   "status": "proved",
   "theorems": [
    "C48_sha1",
    "C48_parts"
   ],
   "note": "Fully proved for every length below 2^61 bytes."
  },
  {
   "property": "C49",
   "status": "proved",
   "theorems": [
    "C49_packet_wire",
    "C49_packet_round_trip",
    "C49_packet_remaining"
   ],
   "note": "Fully proved."
  },
  {
   "property": "C50",
   "status": "partial",
   "theorems": [
    "C50_sent",
    "C50_read_back",
    "C50_read_partial",
    "C50_short_error_refuted"
   ],
   "note": "Round trip proved in full; reading of arbitrary bytes exact unless an error message ends before its code (C50_short_error_refuted)."
  },
  {
   "property": "C51",
   "status": "partial",
   "theorems": [
    "C51_requests_partial",
    "C51_unchoke_refuted"
   ],
   "note": "Proved for all histories of messages whose blocks begin inside their piece; never twice except to a peer that unchokes again, where it is false (C51_unchoke_refuted)."
  },
  {
   "property": "C52",
   "status": "partial",
   "theorems": [
    "C52_have_refuted",
    "C52_short_bitfield_refuted",
    "C52_early_bitfield_partial"
   ],
   "note": "False of the code: index 2^32-1 (C52_have_refuted) and short bitfields (C52_short_bitfield_refuted, for all). Proved: all other indices (C19_add) and bitfields that are long enough or come before the size is known."
  },
  {
   "property": "C53",
   "status": "partial",
   "theorems": [
    "C53_allocate_partial",
    "C53_shrink",
    "C53_temporary_refuted"
   ],
   "note": "Proved unless the file holds exactly the ends of its range, where the second half of the statement is false (C53_temporary_refuted)."
  },
  {
   "property": "C54",
   "status": "partial",
   "theorems": [
    "C54_no_stall_partial",
    "C54_unlimited_partial",
    "C54_stall_refuted"
   ],
   "note": "Proved when all grants come later, or all at once. False for mixtures (C54_stall_refuted)."
  },
  {
   "property": "C55",
   "status": "partial",
   "theorems": [
    "C55_data_partial",
    "C55_stale_data_refuted"
   ],
   "note": "Proved when the storage read succeeds; false otherwise (C55_stale_data_refuted)."
  },
  {
   "property": "C56",
   "status": "proved",
   "theorems": [
    "C56_div",
    "C56_powm"
   ],
   "note": "Fully proved."
  },
  {
   "property": "C57",
   "status": "partial",
   "theorems": [
    "C57_message3_partial",
    "C57_message4_partial",
    "C57_message4_refuted"
   ],
   "note": "Message 3 proved for every fragmentation (when the lookup of C14 succeeds). Message 4 proved when whole in the delivery that completes 14 bytes; false otherwise (C57_message4_refuted)."
  },
  {
   "property": "C58",
   "status": "partial",
   "theorems": [
    "C58_initiator_partial",
    "C58_listener_refuted"
   ],
   "note": "Initiator proved. Listener: false (C58_listener_refuted)."
  },
  {
   "property": "C59",
   "status": "proved",
   "theorems": [
    "C59_accepted",
    "C59_none"
   ],
   "note": "Fully proved."
  },
  {
   "property": "C60",
   "status": "partial",
   "theorems": [
    "C60_check_partial",
    "C60_missing_file",
    "C60_truncated_refuted"
   ],
   "note": "Proved for the histories of C24 ('calm'); false outside as for C24."
  },
  {
   "property": "C61",
   "status": "proved",
   "theorems": [
    "C61_fully_used"
   ],
   "note": "Fully proved for all histories."
  },
  {
   "property": "C62",
   "status": "proved",
   "theorems": [
    "C62_stored_only_if_asked"
   ],
   "note": "Fully proved for all histories."
  },
  {
   "property": "C63",
   "status": "proved",
   "theorems": [
    "C63_outstanding_bounded",
    "C63_grows_to_the_limit"
   ],
   "note": "Fully proved for all histories."
  },
  {
   "property": "C64",
   "status": "proved",
   "theorems": [
    "C64_requests_inside",
    "C64_not_while_choked"
   ],
   "note": "Fully proved for all histories."
  },
  {
   "property": "C65",
   "status": "proved",
   "theorems": [
    "C65_announced_were_checked",
    "C65_checks_whole_pieces"
   ],
   "note": "Fully proved for all histories."
  },
  {
   "property": "C66",
   "status": "partial",
   "theorems": [
    "C66_safe_partial",
    "C66_begin_refuted",
    "C66_blocks_refuted",
    "C66_wrong_block_refuted"
   ],
   "note": "Proved for blocks that begin inside their piece. False otherwise (C66_begin_refuted), for pieces of 65536 blocks (C66_blocks_refuted) and for unaligned blocks (C66_wrong_block_refuted)."
  },
  {
   "property": "C67",
   "status": "partial",
   "theorems": [
    "C67_exchange_partial",
    "C67_wrap_refuted"
   ],
   "note": "Proved for part numbers below 2^18; false above (C67_wrap_refuted)."
  },
  {
   "property": "C68",
   "status": "partial",
   "theorems": [
    "C68_installed_partial",
    "C68_unverified_refuted"
   ],
   "note": "False of the code, whatever the wanted hash (C68_unverified_refuted). Proved: the metadata used is complete and stored with its own hash."
  },
  {
   "property": "C69",
   "status": "partial",
   "theorems": [
    "C69_announce_partial",
    "C69_waits",
    "C69_length_wraps_refuted"
   ],
   "note": "Proved when a byte behind the body is readable and sizes are below 2 GiB; false for content lengths near 2^32 (C69_length_wraps_refuted)."
  },
  {
   "property": "C70",
   "status": "proved",
   "theorems": [
    "C70_parts",
    "C70_nothing_lost",
    "C70_ipv6_refuted"
   ],
   "note": "Fully proved. Also a finding outside the statement: bracketed IPv6 hosts are cut at their first colon (C70_ipv6_refuted)."
  },
  {
   "property": "C71",
   "status": "partial",
   "theorems": [
    "C71_relay_partial",
    "C71_null_refuted",
    "C71_no_answer_refuted"
   ],
   "note": "Relay proved for addresses of one family and senders that named the extension. False otherwise: null pointer (C71_null_refuted), no answer for peers without support (C71_no_answer_refuted)."
  },
  {
   "property": "C72",
   "status": "proved",
   "theorems": [
    "C72_list"
   ],
   "note": "Fully proved."
  },
  {
   "property": "C73",
   "status": "partial",
   "theorems": [
    "C73_in_document",
    "C73_links",
    "C73_find",
    "C73_value_refuted",
    "C73_attribute_refuted",
    "C73_self_closing_refuted"
   ],
   "note": "All texts inside, links forward, search ends: proved for every document. False: the value of an element (C73_value_, C73_attribute_, C73_self_closing_refuted)."
  },
  {
   "property": "C74",
   "status": "partial",
   "theorems": [
    "C74_hash_partial",
    "C74_comment_refuted",
    "C74_last_refuted"
   ],
   "note": "Proved for every file with piece hashes in which no value before the info key is the text 'info'. False otherwise (C74_comment_refuted, C74_last_refuted)."
  },
  {
   "property": "C75",
   "status": "partial",
   "theorems": [
    "C75_read_partial",
    "C75_files_refuted",
    "C75_piece_length_refuted"
   ],
   "note": "Proved for files with piece hashes in which no value before the info key is the text 'info' (as C74), with the fields having their types. False: a file list holding something else than dictionaries leaves the parsed objects (C75_files_refuted); no piece length divides by zero (C75_piece_length_refuted)."
  },
  {
   "property": "C76",
   "status": "partial",
   "theorems": [
    "C76_below_partial",
    "C76_distinct",
    "C76_escape_refuted",
    "C76_zero_refuted"
   ],
   "note": "Place and distinctness proved for every directory and all plain names (no separator, no zero byte, not empty, '.' or '..'). False otherwise (C76_escape_refuted, C76_zero_refuted)."
  },
  {
   "property": "C77",
   "status": "partial",
   "theorems": [
    "C77_delete_partial",
    "C77_no_name_refuted",
    "C77_parent_refuted"
   ],
   "note": "Proved for plain names. False otherwise: a torrent without a name deletes the download directory (C77_no_name_refuted), one named '..' the directory above (C77_parent_refuted)."
  },
  {
   "property": "C78",
   "status": "partial",
   "theorems": [
    "C78_saved_bytes",
    "C78_read_back_partial",
    "C78_saved_built",
    "C78_single_partial",
    "C78_names_refuted",
    "C78_import_trackers",
    "C78_import_main"
   ],
   "note": "The written bytes are exact for every torrent. Reading back proved for torrents with their info bytes and for single-file ones without, when announce address and creator are not the text 'info'. False: a torrent of several files whose info bytes were not kept loses the names of its files (C78_names_refuted)."
  },
  {
   "property": "C79",
   "status": "partial",
   "theorems": [
    "C79_strikes",
    "C79_dropped_exactly",
    "C79_groups",
    "C79_cleared",
    "C79_alternating_refuted",
    "C79_innocent_refuted"
   ],
   "note": "Who is dropped, cleared and grouped is proved exactly for every history of fewer than 2^32 - 1 events. False: a peer whose bad pieces alternate with good ones is never dropped (C79_alternating_refuted), and an innocent peer is dropped with the one it shared three failed pieces with (C79_innocent_refuted)."
  },
  {
   "property": "C80",
   "status": "partial",
   "theorems": [
    "C80_requests",
    "C80_port_refuted",
    "C80_order_refuted"
   ],
   "note": "The bytes of all four requests are proved for every argument. False: an announce names the UDP port where TCP and UDP ports differ (C80_port_refuted), and the keys of get_peers and announce_peer are not sorted (C80_order_refuted)."
  },
  {
   "property": "C81",
   "status": "partial",
   "theorems": [
    "C81_read_partial",
    "C81_other",
    "C81_error_refuted",
    "C81_error_text",
    "C81_null_refuted",
    "C81_no_id_refuted",
    "C81_beyond_refuted",
    "C81_number_refuted"
   ],
   "note": "Reading is proved for every well-formed answer (C81_read_partial) and for messages that are no answer. False for others: code of a standard error never read (C81_error_refuted), null pointer on a list in the error (C81_null_refuted), id used without being read (C81_no_id_refuted), memory behind the message read (C81_beyond_refuted, C81_number_refuted)."
  },
  {
   "property": "C82",
   "status": "partial",
   "theorems": [
    "C82_answer",
    "C82_answered",
    "C82_nodes6_refuted",
    "C82_unknown_refuted",
    "C82_port_refuted"
   ],
   "note": "What is answered, and how the table and the stored peers change, is proved exactly for every bencoded message. False: nodes6 is never written, so IPv6 nodes go into nodes (C82_nodes6_refuted); unknown methods are answered like ping (C82_unknown_refuted); port 65536 is stored as 0 (C82_port_refuted)."
  },
  {
   "property": "C83",
   "status": "partial",
   "theorems": [
    "C83_ping",
    "C83_find_node_partial",
    "C83_get_peers_partial",
    "C83_announce",
    "C83_token",
    "C83_announced_found",
    "C83_find_node_refuted",
    "C83_unproven_refuted"
   ],
   "note": "Proved for ping, announce, the token and finding an announced peer without conditions on the table; for find_node and get_peers if the nodes found are IPv4 (partial theorems). With IPv6 nodes the asker reads garbage (C83_find_node_refuted); who merely asked is handed on as a live node (C83_unproven_refuted)."
  },
  {
   "property": "C84",
   "status": "partial",
   "theorems": [
    "C84_once",
    "C84_kept",
    "C84_receive",
    "C84_timer_partial",
    "C84_expires",
    "C84_lost_timer_refuted",
    "C84_other_timer_refuted",
    "C84_ends_other_refuted",
    "C84_given_up_refuted"
   ],
   "note": "At most one repeat, at most one end and nothing afterwards, and no request lost, are proved for every order of events. That a timer is left for each one waiting holds only if no timer expires during answers or for a client with several requests (C84_timer_partial): a timer may find nothing (C84_lost_timer_refuted), act for another request (C84_other_timer_refuted, C84_ends_other_refuted), and removal gives up only the first request of a client (C84_given_up_refuted)."
  },
  {
   "property": "C85",
   "status": "partial",
   "theorems": [
    "C85_one_order",
    "C85_no_deadlock_partial",
    "C85_dht_stop_refuted",
    "C85_bad_piece_refuted",
    "C85_stop_start_refuted",
    "C85_metadata_end_refuted",
    "C85_metadata_begin_refuted"
   ],
   "note": "Code that locks in one order never blocks (C85_one_order), and all modelled operations but five kinds lock in one order, so any number of threads running them in any order can always go on to the end (C85_no_deadlock_partial). The five are shown to block for good, whatever else runs: stopping the DHT during a lookup (C85_dht_stop_refuted), dropping the sender of a bad piece while the transfer is measured (C85_bad_piece_refuted), stopping a torrent whose thread is to start it (C85_stop_start_refuted), the end of metadata during a stop (C85_metadata_end_refuted), asking connected peers for metadata (C85_metadata_begin_refuted). Only mutexes and joins of the pools of torrents, storage and DHT are modelled; logging, alerts, UPnP and the end of the process are not."
  },
  {
   "property": "C86",
   "status": "partial",
   "theorems": [
    "C86_home",
    "C86_ends_partial",
    "C86_off_forgets",
    "C86_deaf_refuted",
    "C86_hears_partial",
    "C86_answered_partial",
    "C86_dropped_refuted",
    "C86_report_partial",
    "C86_interval",
    "C86_count",
    "C86_off_refuted",
    "C86_stale_refuted",
    "C86_count_refuted"
   ],
   "note": "That peers go home (C86_home), the interval (C86_interval) and the formula of the count (C86_count) are proved for every history. Waiting, reports, the other requests and the packets are proved while the DHT is not switched off (C86_ends_partial, C86_report_partial also needs that no torrent stops, C86_answered_partial, C86_hears_partial). Refuted: a torrent that waits when the DHT is switched off waits for ever (C86_off_forgets, C86_off_refuted); after it no unexpected packet, uTP included, is handed on (C86_deaf_refuted) and the requests of UDP trackers are dropped (C86_dropped_refuted); a torrent stopped and started again takes the end of the old lookup for that of the new one (C86_stale_refuted); the count adds running totals, so lookups of a torrent with fifty peers end early (C86_count_refuted). Missing: a lookup that reports its end twice (C36)."
  },
  {
   "property": "C87",
   "status": "partial",
   "theorems": [
    "C87_accepted_partial",
    "C87_announce_refuted",
    "C87_only_after_answer"
   ],
   "note": "The announce is sent and accepted (C87_accepted_partial), and only after a right answer with a token (C87_only_after_answer). Refuted for every pair of clients: its hash is the id of the node that answered, so the peer is stored there and nobody who asks for the torrent learns of it (C87_announce_refuted). The exchange is proved for tables with IPv4 nodes, as in C83."
  },
  {
   "property": "C88",
   "status": "partial",
   "theorems": [
    "C88_each_once",
    "C88_all",
    "C88_ends",
    "C88_judged_partial",
    "C88_unjudged_refuted",
    "C88_no_id_refuted",
    "C88_unknown"
   ],
   "note": "Order, number, progress and completeness of the pings are proved for every history; judging is proved for right answers and for none (C88_judged_partial). Refuted: any other packet ends the ping without a verdict (C88_unjudged_refuted), and an answer without an id puts a node of id 0 into the table (C88_no_id_refuted)."
  },
  {
   "property": "C89",
   "status": "partial",
   "theorems": [
    "C89_periodic",
    "C89_once",
    "C89_disabled",
    "C89_reschedule_refuted",
    "C89_stopped",
    "C89_refresh_partial",
    "C89_refresh_refuted",
    "C89_token_forever_refuted",
    "C89_stored_forever_refuted"
   ],
   "note": "The timer is proved for every history (C89_periodic, C89_once, C89_disabled), but a wait that had ended is not taken back by a new one (C89_reschedule_refuted). The refresh five minutes after the start is proved (C89_refresh_partial); it is the only one: refuted with C89_refresh_refuted, hence tokens are accepted for ever (C89_token_forever_refuted) and announced peers are kept for ever (C89_stored_forever_refuted)."
  },
  {
   "property": "C90",
   "status": "partial",
   "theorems": [
    "C90_exact_partial",
    "C90_all_partial",
    "C90_full_last_refuted",
    "C90_stale_refuted",
    "C90_empty_last_refuted"
   ],
   "note": "Exact for every piece all of whose files hold their bytes, when the last piece is not full (C90_exact_partial; C90_all_partial for all workers and complete files). Refuted: with a full last piece the check reads behind the end of the wanted pieces (C90_full_last_refuted), a missing file lets the zeroes of the buffer count as its bytes (C90_stale_refuted), and a missing empty last file hides the last piece (C90_empty_last_refuted). Not modelled: rejecting the check meanwhile and the data races of the four workers on the progress."
  },
  {
   "property": "C91",
   "status": "partial",
   "theorems": [
    "C91_demand_partial",
    "C91_one_partial",
    "C91_room_partial",
    "C91_space_refuted",
    "C91_empty_last_refuted"
   ],
   "note": "C91_demand_partial: the list of files and byte counts is exact for every parsed torrent whose files lie within its pieces. C91_one_partial: one file as a selection. C91_room_partial: when the request succeeds and what is on the disk then. C91_space_refuted: a half-present file is refused although the missing half fits. C91_empty_last_refuted: an empty file behind a full last piece is read out of range. Missing: the temporary files of C53_temporary_refuted."
  },
  {
   "property": "C92",
   "status": "partial",
   "theorems": [
    "C92_start_partial",
    "C92_checked_partial",
    "C92_own_partial",
    "C92_shortened_refuted",
    "C92_empty_refuted"
   ],
   "note": "C92_start_partial: dropped and checked pieces are exact. C92_checked_partial: result of the check for every order of the workers' additions, for pieces whose files hold their bytes and torrents whose last piece is not full (see C90). C92_own_partial: the start's own writes begin no check. C92_shortened_refuted: they do when a too long file is cut. C92_empty_refuted: a missing empty file which is not selected drops its piece at every start and is never made."
  },
  {
   "property": "C93",
   "status": "partial",
   "theorems": [
    "C93_safe_partial",
    "C93_in_order_partial",
    "C93_calls_partial",
    "C93_silent_partial",
    "C93_quota_partial",
    "C93_race_refuted",
    "C93_closed_while_resolving_refuted",
    "C93_next_address_refuted",
    "C93_clock_refuted",
    "C93_quota_lost_refuted",
    "C93_waiting_closed_refuted"
   ],
   "note": "Handlers are taken as whole steps. C93_in_order_partial, C93_calls_partial, C93_silent_partial, C93_quota_partial and C93_safe_partial hold for all histories of possible events. C93_race_refuted: a write between the halves of a finished connect is sent twice. C93_closed_while_resolving_refuted: a stream closed while resolving connects later and uses its timer which is gone. C93_next_address_refuted: only the first address of a host is tried. C93_clock_refuted: division by zero at seconds which are multiples of 2^29. C93_quota_lost_refuted: left quota is lost. C93_waiting_closed_refuted: the connect timer closes a connected stream that waits for bandwidth."
  },
  {
   "property": "C94",
   "status": "partial",
   "theorems": [
    "C94_found_partial",
    "C94_last_refuted",
    "C94_first_byte_refuted",
    "C94_before",
    "C94_file_partial",
    "C94_cut_safe",
    "C94_no_file",
    "C94_path_refuted",
    "C94_country_EE_refuted",
    "C94_longer_file_refuted",
    "C94_number_refuted"
   ],
   "note": "C94_found_partial: the country of the range is shown when another country follows under the same first byte. C94_last_refuted: the last country of each first byte is never shown. C94_first_byte_refuted: a range that began under a smaller first byte is not found. C94_path_refuted: toFile and fromFile mean different files for every folder. C94_country_EE_refuted, C94_longer_file_refuted, C94_number_refuted: entries of the file that are written or read out of place. The reading of the text of the list is left out."
  },
  {
   "property": "C95",
   "status": "partial",
   "theorems": [
    "C95_told",
    "C95_sent",
    "C95_tries_partial",
    "C95_refuse",
    "C95_require_partial",
    "C95_closed",
    "C95_other_way",
    "C95_again_and_again_refuted",
    "C95_plain_text_refuted"
   ],
   "note": "C95_told, C95_sent, C95_refuse, C95_closed and C95_other_way hold for all histories. C95_tries_partial: the bound holds until a connection was open; C95_again_and_again_refuted: a repetition that does not open is repeated without end and the owner is not told. C95_require_partial: no unencrypted data under Require unless the peer chose plain text; C95_plain_text_refuted: it can. The streams below and the bytes of the handshake are inputs here (TcpModel.v, PeModel.v have them)."
  },
  {
   "property": "C96",
   "status": "partial",
   "theorems": [
    "C96_calls",
    "C96_state",
    "C96_sent",
    "C96_answer_partial",
    "C96_full_reads_refuted",
    "C96_parts_refuted",
    "C96_never_again_refuted",
    "C96_short_write_refuted",
    "C96_stopped_connects_refuted",
    "C96_known",
    "C96_port_refuted"
   ],
   "note": "C96_calls, C96_state and C96_sent hold for all histories. C96_answer_partial: the response is given to the owner when every read but the last is full and the last is not. C96_full_reads_refuted: a length that is a multiple of 512 is lost. C96_parts_refuted: after a short first read nothing more is read and the announce never ends. C96_never_again_refuted: after any failure of a connection no later announce has a result. C96_short_write_refuted, C96_stopped_connects_refuted, C96_port_refuted: the rest of a partly written request is not sent, a stop while resolving does not keep it from connecting, the port is not used. Assumed of the sockets: a connected socket cannot be connected again."
  },
  {
   "property": "C97",
   "status": "partial",
   "theorems": [
    "C97_calls",
    "C97_state",
    "C97_sent",
    "C97_failure_told",
    "C97_answer_partial",
    "C97_first_bytes_refuted",
    "C97_never_again_refuted",
    "C97_old_end_refuted",
    "C97_old_answer_refuted",
    "C97_stopped_told_refuted",
    "C97_own_partial",
    "C97_stopped_partial",
    "C97_stop_closes"
   ],
   "note": "C97_calls, C97_state, C97_sent and C97_failure_told hold for all histories. C97_answer_partial: a response in any parts is given to the owner when the reader asks for more at every part. C97_own_partial, C97_stopped_partial: only the stream in use calls the owner, and none after a stop, as long as no response is bad. C97_never_again_refuted: after an answered announce whose connection is closed (the request asks for that) the closed stream is kept, so that no later announce is sent, answered or failed. C97_first_bytes_refuted: fewer than four first bytes are taken for a bad response. C97_old_end_refuted, C97_old_answer_refuted, C97_stopped_told_refuted: after a bad response the connection is forgotten but open, and its end or data fail or answer the next announce, also after a stop."
  },
  {
   "property": "C98",
   "status": "partial",
   "theorems": [
    "C98_left_partial",
    "C98_nothing_left_partial",
    "C98_files_partial",
    "C98_long_block_refuted",
    "C98_multiple_refuted",
    "C98_empty_file_refuted",
    "C98_check_refuted",
    "C98_selected_refuted"
   ],
   "note": "Proved for blocks of the length of their place and saved pieces that agree with their blocks. Missing because the code violates it: over-long blocks (C98_long_block_refuted), sizes that are a multiple of the piece size (exact excess in C98_left_partial; C98_multiple_refuted), saved pieces kept through a check (C98_check_refuted), an empty last file (C98_empty_file_refuted), the figure for the selected files on stop (C98_selected_refuted)."
  },
  {
   "property": "C99",
   "status": "partial",
   "theorems": [
    "C99_sent",
    "C99_pending",
    "C99_once_partial",
    "C99_twice_refuted",
    "C99_settled_partial",
    "C99_served_partial",
    "C99_unmap_partial",
    "C99_two_routers_refuted",
    "C99_retry_refuted",
    "C99_gone",
    "C99_again",
    "C99_settings"
   ],
   "note": "C99_sent, C99_pending, C99_gone, C99_again and C99_settings hold for all states and histories. C99_settled_partial and C99_served_partial: with one router, and one that serves; C99_unmap_partial: with one router; C99_once_partial: when no request is answered twice. Refuted: with two routers a wanted port is mapped and unmapped on the second without end (C99_two_routers_refuted), a router that refuses is asked again at once, any number of times (C99_retry_refuted), and one that answers twice is listed twice (C99_twice_refuted). Not modelled: the text of requests, the wait at shutdown, the discovery."
  },
  {
   "property": "C100",
   "status": "partial",
   "theorems": [
    "C100_location",
    "C100_parts",
    "C100_throws_refuted",
    "C100_no_port_refuted",
    "C100_path_port_refuted",
    "C100_services",
    "C100_description_partial",
    "C100_empty_refuted",
    "C100_asked_only",
    "C100_told",
    "C100_all_asked_partial",
    "C100_stop_partial",
    "C100_stop_refuted"
   ],
   "note": "C100_location, C100_parts, C100_services, C100_asked_only and C100_told hold for all texts and histories. C100_description_partial: when each text asked for has an element behind it; C100_all_asked_partial: while the program runs; C100_stop_partial: when the stop leaves no stream open. Refuted: exactly the texts with the first ':' or '/' among the last two characters throw (C100_throws_refuted), a location without a port reads a member never written (C100_no_port_refuted), a ':' in the path gives the port (C100_path_port_refuted), an empty name at the end of a description is read behind its elements (C100_empty_refuted), and stopping leaves older streams open whose answers call a function taken away (C100_stop_refuted). Not modelled: the search requests, the text of the request."
  },
  {
   "property": "C101",
   "status": "partial",
   "theorems": [
    "C101_once",
    "C101_handed",
    "C101_greeting",
    "C101_short",
    "C101_split_refuted",
    "C101_encrypted",
    "C101_ignored",
    "C101_fate_partial",
    "C101_stop_partial",
    "C101_tcp_off",
    "C101_fate_refuted",
    "C101_stop_refuted"
   ],
   "note": "Proved for every history and every encryption handshake: no stream is handed over twice and none that waits was handed over (C101_once); what is handed over is a whole greeting the stream sent, with the hash in it, or the result of a finished encryption handshake with its ciphers (C101_handed); what each kind of first data leads to (C101_greeting, C101_short, C101_encrypted); TCP turned off (C101_tcp_off). Partial because the code violates the rest: a greeting whose first segment ends between byte 20 and byte 67 makes the code compare an unset member with the hashes (C101_split_refuted); a peer refused after its encryption handshake is neither closed nor kept, and its stream stays open and ignored (C101_fate_refuted, C101_ignored), every other stream waits or was told to close (C101_fate_partial); a port change after stop opens a listener again (C101_stop_refuted), without one nothing is handed over (C101_stop_partial). Not modelled: the encryption setting, which this code does not read, and pointers used again for new streams (streams are numbered)."
  },
  {
   "property": "C102",
   "status": "partial",
   "theorems": [
    "C102_read",
    "C102_all",
    "C102_sender_partial",
    "C102_sender_refuted",
    "C102_empty",
    "C102_cut_refuted",
    "C102_bounded",
    "C102_stop"
   ],
   "note": "Proved for every sequence of datagrams of at most 2048 bytes: those read are passed on in order, once and unaltered, at least one per read (C102_read), all of them after as many reads as there are datagrams (C102_all); for any datagrams the bytes passed on fit the buffer, which stays between 10 and 50 KiB (C102_bounded); a datagram with nothing in it ends the read (C102_empty); nothing is passed on once stopped (C102_stop). Partial because the code violates the rest: the packets put aside are passed on only after the address was overwritten by the next datagram, so a datagram is credited to the next other sender (C102_sender_refuted, exactly as C102_read says); from one sender only it is right (C102_sender_partial); a datagram above 2048 bytes may be cut (C102_cut_refuted). The socket and asio are the environment."
  },
  {
   "property": "C103",
   "status": "partial",
   "theorems": [
    "C103_known",
    "C103_once_partial",
    "C103_lost_refuted",
    "C103_resolving_refuted",
    "C103_target_partial",
    "C103_target_refuted",
    "C103_closed",
    "C103_no_throw",
    "C103_again_refuted",
    "C103_answers",
    "C103_stuck_refuted",
    "C103_failed",
    "C103_not_found",
    "C103_loops_refuted",
    "C103_wait_partial"
   ],
   "note": "Proved for every history: only what was written is sent (C103_known), no callback that is not set is called (C103_no_throw), the owner is not called after a close (C103_closed); answers are passed on in order (C103_answers) and a failed send is told (C103_failed). Sent once and in order when no write comes before the connect is over (C103_once_partial); to the address set as long as only it answers (C103_target_partial). Partial because the code violates the rest: a second write before the connect is over loses the first and sends the second twice (C103_lost_refuted), writes during a lookup are lost but the last (C103_resolving_refuted), an answer overwrites the address (C103_target_refuted), a write after the close reopens the socket and is sent (C103_again_refuted), an empty datagram blocks all later ones (C103_stuck_refuted) and each failed send adds one more pending receive (C103_loops_refuted)."
  },
  {
   "property": "C104",
   "status": "partial",
   "theorems": [
    "C104_failed",
    "C104_path",
    "C104_kept",
    "C104_moved_partial",
    "C104_files_partial",
    "C104_succeeds",
    "C104_single_refuted",
    "C104_single",
    "C104_left_refuted",
    "C104_stay"
   ],
   "note": "Proved for every file system: a failure changes nothing (C104_failed), no file that is not empty is ever lost (C104_kept), a success sets the path asked for (C104_path); to a directory that is there, the whole root is moved and nothing else changes (C104_moved_partial, C104_files_partial), and this succeeds for torrents of several files (C104_succeeds). Without moving, the files stay and are checked again (C104_stay). Partial because the code violates the rest: a torrent of a single file cannot be moved to a directory without such a file, since file_size of a missing file is 2^64-1 (C104_single_refuted; only over an empty file, C104_single); and when the new directory is not there the files stay behind, are missing at the new place and are not checked again, although Success is answered (C104_left_refuted). Symbolic links, permissions and other volumes are left out, but calls may be refused."
  },
  {
   "property": "C105",
   "status": "partial",
   "theorems": [
    "C105_once",
    "C105_stopped",
    "C105_ends_partial",
    "C105_one_partial",
    "C105_race_refuted",
    "C105_stale_refuted"
   ],
   "note": "Proved for every interleaving: each check is told to begin once and to end at most once, with all its workers done (C105_once), and what a stopped check found never counts (C105_stopped). When no two workers count at the same moment, a check whose workers are done has ended and counts unless stopped (C105_ends_partial); when besides no check begins before the workers of the last one are done, at most one is busy and the state shows it (C105_one_partial). Partial because the code violates the rest: the counter is a plain uint32_t shared by threads, so a check can never end and blocks all later ones (C105_race_refuted; formally undefined behaviour, shown here as a lost update); and a stopped check that ends later takes the next one for ended, which then runs beside a third and cannot be stopped (C105_stale_refuted)."
  },
  {
   "property": "C106",
   "status": "proved",
   "theorems": [
    "C106_bits",
    "C106_first_bit",
    "C106_once",
    "C106_pop",
    "C106_category"
   ],
   "note": "C106_bits: each alert has one bit of its own, in its category's mask only. C106_once: over every history what was handed out and what waits is exactly the alerts asked for, once and in order. C106_pop, C106_category. The mask is read without the mutex (AlertsManager.cpp:8, 21, 34); calls are atomic in the model."
  },
  {
   "property": "C107",
   "status": "partial",
   "theorems": [
    "C107_apart",
    "C107_refused",
    "C107_within",
    "C107_empty_refuted",
    "C107_port_refuted",
    "C107_shown_refuted",
    "C107_bare_refuted",
    "C107_v6_refuted",
    "C107_typed",
    "C107_connect",
    "C107_bytes"
   ],
   "note": "Proved: with the port given apart the address is the one typed (C107_apart) and what is no address is refused (C107_refused); every text but the empty one is read within its bounds (C107_within); whatever is connected to is the whole typed text read as an address (C107_typed) and Peers::connect sees exactly that (C107_connect); from bytes (C107_bytes). Partial because the code violates the rest: the port is left in the text given to the reader, so no quad with a port can be connected to (C107_port_refuted), nor the text the program itself shows for a peer (C107_shown_refuted); a quad without port gets a port made of its own digits (C107_bare_refuted), an IPv6 address its last group (C107_v6_refuted); the empty text is read past its end (C107_empty_refuted)."
  },
  {
   "property": "C108",
   "status": "partial",
   "theorems": [
    "C108_found",
    "C108_kept_partial",
    "C108_lost_refuted",
    "C108_asked_refuted"
   ],
   "note": "Proved: what the check had found when it was stopped counts, with what was not to be checked (C108_found), also after the next start (C108_kept_partial). Partial because the code violates the rest: the stop saves the newest file's time as that of the state, so the next start begins no check and everything the check had not come to counts as missing, whatever is stored (C108_lost_refuted); a check the user asks for forgets all pieces first, so stopping it leaves only what it had found (C108_asked_refuted)."
  },
  {
   "property": "C109",
   "status": "partial",
   "theorems": [
    "C109_no_overflow",
    "C109_no_overflow_refuted",
    "C109_waits",
    "C109_given_up",
    "C109_kept",
    "C109_syn",
    "C109_unanswered",
    "C109_answer",
    "C109_ended",
    "C109_heard",
    "C109_written",
    "C109_told",
    "C109_resend_partial",
    "C109_never_again",
    "C109_resend_refuted"
   ],
   "note": "Proved: no overflow while posted closes are run before the next refresh (C109_no_overflow; C109_no_overflow_refuted shows that this is needed), the waits, the giving up, the two SYNs, what is told. The code breaks the resending: timeoutCount is never set back, so after six timeouts in its life a stream never again resends by timeout and the next such loss ends it (C109_resend_refuted, C109_never_again); before that it does (C109_resend_partial)."
  },
  {
   "property": "C110",
   "status": "partial",
   "theorems": [
    "C110_served",
    "C110_left",
    "C110_total",
    "C110_own",
    "C110_refused",
    "C110_syn_once_partial",
    "C110_syn_once_refuted",
    "C110_shadowed"
   ],
   "note": "Proved for all histories but the last sentence, which the code breaks: the stream made by a SYN is kept under the SYN's id plus one, so the same SYN again finds nothing and makes a second stream, also given to the listener (C110_syn_once_refuted, for every SYN), which then never gets a datagram while the first is there (C110_shadowed). C110_syn_once_partial: a SYN with an id that is in use makes none."
  },
  {
   "property": "C111",
   "status": "partial",
   "theorems": [
    "C111_printed_partial",
    "C111_at_once",
    "C111_printed_refuted",
    "C111_value_refuted",
    "C111_name"
   ],
   "note": "C111_printed_partial and C111_at_once hold for text without a 0; C111_name: a log given the first part of its name writes nothing until it is given the rest, and then keeps that name. C111_printed_refuted: with a 0 inside a std::string the rest of it is taken for items and the reading runs past the end. C111_value_refuted: 64 bit sizes are logged modulo 2^32, negative ints as large numbers, IPv6 addresses as their first four bytes."
  },
  {
   "property": "C112",
   "status": "partial",
   "theorems": [
    "C112_agree_partial",
    "C112_listener",
    "C112_initiator",
    "C112_padding_refuted"
   ],
   "note": "C112_agree_partial leaves out streams in which a marker stands by chance, torrents that are not looked up right (C14_refuted) and, for the initiator, message 4 cut beyond the first 13 bytes after the key's piece. C112_padding_refuted: with the tail of the padding of message 2 in a piece of its own the initiator waits for ever. C112_listener and C112_initiator hold for all bytes."
  },
  {
   "property": "C113",
   "status": "partial",
   "theorems": [
    "C113_same_download",
    "C113_requests",
    "C113_polled",
    "C113_grows",
    "C113_peers",
    "C113_gone_partial",
    "C113_gone_refuted",
    "C113_stopped_partial",
    "C113_stopped_refuted",
    "C113_told",
    "C113_text"
   ],
   "note": "Proved for all histories: C113_same_download, C113_requests, C113_told, C113_polled, C113_grows, C113_peers, C113_text. C113_gone_partial covers peers that disconnected as often as they connected; C113_gone_refuted: a peer that sent its extended handshake twice is taken off once and asked for ever. C113_stopped_partial: after the stop only connected and disconnected are logged; C113_stopped_refuted: a handshake behind the stop is logged behind the end. Calls and polls are single steps although the start appends and getEventsCount reads without the mutex (MetadataDownload.cpp:18, 73-76)."
  },
  {
   "property": "C114",
   "status": "proved",
   "theorems": [
    "C114_between",
    "C114_settles",
    "C114_average",
    "C114_two",
    "C114_large"
   ],
   "note": "C114_between, C114_average, C114_two, C114_settles, C114_large. The code is not called at this commit (the call at UtpStream.cpp:758 is commented out), so samples come from nowhere; negative samples are left out."
  },
  {
   "property": "C115",
   "status": "partial",
   "theorems": [
    "C115_once",
    "C115_found",
    "C115_cleared",
    "C115_size",
    "C115_saved",
    "C115_entries_refuted"
   ],
   "note": "Proved for all histories: C115_once, C115_found, C115_cleared, C115_size, C115_saved. C115_entries_refuted: a load leaves an empty entry behind which is never removed, so the list grows with each stop and start and the saved state has entries without data (they are skipped when it is read). C115_saved is on the entries; their bytes are the subject of C28."
  }
 ]
}