{
 "claims": [
  {
   "property": "C01",
   "status": "proved",
   "theorems": [
    "C01_big_endian_16",
    "C01_big_endian_32",
    "C01_big_endian_64",
    "C01_little_endian_16",
    "C01_little_endian_32",
    "C01_little_endian_64",
    "C01_bool_and_byte",
    "C01_bool_any_byte"
   ],
   "note": "Proved for every value, buffer and codec on a little-endian host; a big-endian host is C02."
  },
  {
   "property": "C02",
   "status": "partial",
   "theorems": [
    "C02_big_endian_16_on_be_host",
    "C02_big_endian_32_on_be_host",
    "C02_big_endian_64_on_be_host",
    "C02_little_endian_16_on_be_host",
    "C02_little_endian_32_on_be_host",
    "C02_little_endian_64_on_be_host",
    "C02_host_independence_refuted",
    "C02_interop_exact_partial"
   ],
   "note": "Refuted: on big-endian hosts the types BigEndian and LittleEndian swap wire order. The exact set of values that survive is proved."
  },
  {
   "property": "C03",
   "status": "proved",
   "theorems": [
    "C03_uint8_parser",
    "C03_uint16_parser",
    "C03_uint32_parser"
   ],
   "note": "Proved for every text and every earlier value of the receiver."
  },
  {
   "property": "C04",
   "status": "partial",
   "theorems": [
    "C04_uint64_exact",
    "C04_uint64_right_exact",
    "C04_uint64_parser_refuted",
    "C04_uint64_parser_partial",
    "C04_uint64_success_partial",
    "C04_uint64_twenty_digits_partial",
    "C04_uint64_error_keeps_receiver_partial"
   ],
   "note": "Refuted: the overflow check compares the truncated product with the old accumulator, so e.g. 18446744073709551616 parses as 0. Proved: exact below 2^64, success means value mod 2^64, exact decision on twenty digits. The exact set of numerals taken, with the value each is taken as, is C04_uint64_exact."
  },
  {
   "property": "C05",
   "status": "proved",
   "theorems": [
    "C05_format_then_parse"
   ],
   "note": "Proved for every number of every width."
  },
  {
   "property": "C06",
   "status": "proved",
   "theorems": [
    "C06_timer_heap",
    "C06_drain_in_due_order"
   ],
   "note": "Proved for every sequence of insertions and removals."
  },
  {
   "property": "C07",
   "status": "proved",
   "theorems": [
    "C07_due_time_saturates",
    "C07_longer_delay_not_earlier"
   ],
   "note": "Proved for every delay and every current time."
  },
  {
   "property": "C08",
   "status": "partial",
   "theorems": [
    "C08_stop_twice_refuted",
    "C08_periodic_hides_refuted",
    "C08_start_recorded",
    "C08_reset_recorded",
    "C08_fires_only_pending_and_due",
    "C08_stop_disarms",
    "C08_stop_report_refuted",
    "C08_no_timer_lost_partial",
    "C08_wakeup_completes_partial",
    "C08_periodic_starves_refuted",
    "C08_front_hides_refuted"
   ],
   "note": "Safety is proved for every history. Liveness/order hold for single-shot Start/Stop histories; refuted for periodic timers (a periodic timer keeps its old heap key; for every queue where one at the head is due again at each check, no other timer is ever called). Stop succeeds also for an already stopped timer, for every queue and timer."
  },
  {
   "property": "C09",
   "status": "partial",
   "theorems": [
    "C09_start_crashes_refuted",
    "C09_start_blocks_refuted",
    "C09_start_any_partial",
    "C09_add_crashes_refuted",
    "C09_add_deadlocks_refuted",
    "C09_add_completes_partial",
    "C09_add_never_blocks_partial",
    "C09_tick_refuses"
   ],
   "note": "False in the code: starting a timer crashes if all queued timers were stopped, and self-deadlocks if the earliest was rescheduled. Proved: without rescheduling it never blocks, and completes if some timer is pending or none was stopped; Tick refuses a first or interval below one and changes nothing."
  },
  {
   "property": "C10",
   "status": "partial",
   "theorems": [
    "C10_place_refuted",
    "C10_next_due_partial",
    "C10_next_due_refuted",
    "C10_late_wakeup_never_ends_refuted",
    "C10_key_updated_refuted"
   ],
   "note": "False when late by a period or more (sign error in the code); proved when late by less than a period. The heap key is not updated."
  },
  {
   "property": "C11",
   "status": "partial",
   "theorems": [
    "C11_exactly_n_refuted",
    "C11_stops_partial"
   ],
   "note": "False: a ticker limited to n delivers n+1 ticks; exact count proved."
  },
  {
   "property": "C12",
   "status": "partial",
   "theorems": [
    "C12_add_in_range_partial",
    "C12_wraps_refuted",
    "C12_fires_after_delay_partial",
    "C12_period_drift_refuted",
    "C12_periodic_crash_refuted",
    "C12_init_exact",
    "C12_no_slots_refuted",
    "C12_period_refuted",
    "C12_period_panics_exact",
    "C12_overwritten_refuted",
    "C12_slot_keeps",
    "C12_during_partial",
    "C12_quiet",
    "C12_alone_refuted"
   ],
   "note": "False once the position has advanced (no wrap-around); exact in-range condition and exact firing tick proved. C12_alone_refuted says for every wheel, interval and period whether and when a single timer makes the wheel panic. Which sizes Init takes is proved exactly; a wheel without slots is made and crashes on its first tick."
  },
  {
   "property": "C13",
   "status": "proved",
   "theorems": [
    "C13_field_round_trip",
    "C13_out_of_range",
    "C13_any_order"
   ],
   "note": "All nine integer field types; offsets in the 32-bit address space."
  },
  {
   "property": "C14",
   "status": "proved",
   "theorems": [
    "C14_field_round_trip",
    "C14_record_round_trip"
   ],
   "note": "Strings, typed arrays of 13 element types, arrays of strings and records of any number of such fields, for both the copying and the aliasing getters. Element memory is modelled for a little-endian host; floats and complex elements as bit patterns."
  },
  {
   "property": "C15",
   "status": "partial",
   "theorems": [
    "C15_bool_refuted",
    "C15_bool_partial",
    "C15_fixed_array_partial",
    "C15_complex64_partial",
    "C15_complex128_partial",
    "C15_complex_refuted",
    "C15_float32_partial",
    "C15_float64_partial"
   ],
   "note": "False of the code: booleans keep an old 1, GetFixedByteArray always returns nothing, the halves of complex numbers overlap on write and not on read. The _partial theorems give the exact result for every input."
  },
  {
   "property": "C16",
   "status": "partial",
   "theorems": [
    "C16_key_minified_round_trip",
    "C16_unsafe_int32",
    "C16_unsafe_string_round_trip",
    "C16_uint_round_trip",
    "C16_encoder_appends",
    "C16_int64_minified_round_trip",
    "C16_int64_minified_exact",
    "C16_int64_refuted",
    "C16_int64_partial",
    "C16_string_refuted",
    "C16_string_partial",
    "C16_key_round_trip",
    "C16_bool_round_trip",
    "C16_number_slice_round_trip",
    "C16_empty_slice_refuted",
    "C16_base64_round_trip",
    "C16_base64_no_room_refuted"
   ],
   "note": "True for unsigned integers of all widths, non-empty number lists, keys, booleans, and base64 byte strings (given room). False for negative integers with the non-minified decoder (sign dropped), strings needing escapes (not escaped; survive iff no quote) and empty number lists; exact results proved."
  },
  {
   "property": "C17",
   "status": "proved",
   "theorems": [
    "C17_escape_round_trip",
    "C17_kept_exact",
    "C17_host_zone_exact"
   ],
   "note": "Five components as stated; for host and zone (not in the claim) the exact set of texts that survive is proved as well."
  },
  {
   "property": "C18",
   "status": "proved",
   "theorems": [
    "C18_unescape_exact",
    "C18_malformed_exact"
   ],
   "note": "Proved for every text and every component."
  },
  {
   "property": "C19",
   "status": "partial",
   "theorems": [
    "C19_colon_refuted",
    "C19_origin_exact_partial",
    "C19_absolute_round_trip",
    "C19_origin_refuted",
    "C19_origin_partial"
   ],
   "note": "Absolute form proved. Origin form: read back exactly when there is no colon; with one, all before the first colon is taken for the scheme. The serialiser drops the fragment and writes / for an empty path."
  },
  {
   "property": "C20",
   "status": "proved",
   "theorems": [
    "C20_multimap",
    "C20_text_round_trip"
   ],
   "note": "Map iteration order is arbitrary in the theorem (any permutation of the entries)."
  },
  {
   "property": "C21",
   "status": "partial",
   "theorems": [
    "C21_exclude_refuted",
    "C21_first_write_wins",
    "C21_set_refuted",
    "C21_del_refuted",
    "C21_fresh_histories_partial",
    "C21_find_exact",
    "C21_find_absent"
   ],
   "note": "The law fails: set on a present name and delete change nothing (C21_set_refuted, C21_del_refuted, for every name and value). Exact behaviour for every history: first write wins. The law is proved for histories whose set/delete name nothing present, and Header_Find is characterised exactly."
  },
  {
   "property": "C22",
   "status": "partial",
   "theorems": [
    "C22_last_exact",
    "C22_last_refuted",
    "C22_last_coding_partial"
   ],
   "note": "Fails for every single coding and every list of two (C22_last_refuted); exact result in every case in C22_last_exact. (There is no header block serialiser in the repository at this commit, so the property first listed here was replaced.)"
  },
  {
   "property": "C23",
   "status": "partial",
   "theorems": [
    "C23_set_cookies_all_partial",
    "C23_walk_unique",
    "C23_empty_line_refuted",
    "C23_set_cookie_exact",
    "C23_set_cookie_round_trip_partial",
    "C23_set_cookie_refuted",
    "C23_cookie_round_trip",
    "C23_empty_value_refuted",
    "C23_cookies_lose_last_refuted",
    "C23_cookie_line_partial",
    "C23_add_cookie_refuted"
   ],
   "note": "Exact: every legal Set-Cookie round-trips unless HttpOnly/Secure come with SameSite, and then the parser panics. Cookie lines: read one by one they come back; the Next loop always loses the last cookie; AddCookie always panics; empty values are lost."
  },
  {
   "property": "C24",
   "status": "partial",
   "theorems": [
    "C24_check_exact",
    "C24_cookie_check",
    "C24_no_domain_refuted",
    "C24_check_stops",
    "C24_value_exact",
    "C24_path_exact",
    "C24_name_exact",
    "C24_illegal_octets_refuted",
    "C24_domain_exact",
    "C24_domain_complete"
   ],
   "note": "Each sanitiser characterised exactly, idempotent, legal input kept. Not only legal octets: ';' passes in values and paths, everything but CR/LF in names (C24_illegal_octets_refuted). Domain: exactly the host names."
  },
  {
   "property": "C25",
   "status": "partial",
   "theorems": [
    "C25_line_exact",
    "C25_line_total",
    "C25_sorted_stable",
    "C25_line_partial",
    "C25_first_parameter_refuted"
   ],
   "note": "Permutation, descending order and stability proved for every list of entries (NaN excluded from the order), and for every line exactly what its pieces stand for (C25_line_exact, C25_line_total). False as Accept is defined: a parameter before q is taken for the weight (C25_first_parameter_refuted)."
  },
  {
   "property": "C26",
   "status": "partial",
   "theorems": [
    "C26_one_holder",
    "C26_get_unheld",
    "C26_limit_partial",
    "C26_limit_exact_partial",
    "C26_limit_refuted",
    "C26_get_order_partial",
    "C26_order_refuted",
    "C26_starved_refuted",
    "C26_behind_refuted",
    "C26_len_refuted"
   ],
   "note": "One holder at a time proved for every history; limit proved without clean-up or below 4, exceeded without bound otherwise (for every limit >= 4); not LIFO; an empty slot can hide a stored object."
  },
  {
   "property": "C27",
   "status": "partial",
   "theorems": [
    "C27_prefix_partial",
    "C27_last_byte_refuted",
    "C27_read_refuted",
    "C27_read_bytes_partial",
    "C27_queue_exact"
   ],
   "note": "Bytes read are a prefix of those written in every history; Read never reads, and the last byte never comes out (refuted for every non-empty history). C27_queue_exact: exactly a queue from which ReadByte takes a byte only when two are there."
  },
  {
   "property": "C28",
   "status": "proved",
   "theorems": [
    "C28_split_join",
    "C28_join_split"
   ],
   "note": "Both directions for every int64 duration."
  },
  {
   "property": "C29",
   "status": "partial",
   "theorems": [
    "C29_weekday_partial",
    "C29_weekday_before_1970_refuted",
    "C29_weekday_exact",
    "C29_hours_refuted",
    "C29_hours_partial",
    "C29_membership",
    "C29_schedule_days_partial",
    "C29_schedule_hours_refuted"
   ],
   "note": "Weekday right from 1970 on; before 1970 exactly characterised (wrong or panicking except at some midnights); the hour bit never equals the published constant."
  },
  {
   "property": "C30",
   "status": "partial",
   "theorems": [
    "C30_add_exact",
    "C30_until_refuted",
    "C30_order",
    "C30_order_is_time",
    "C30_add_partial",
    "C30_add_no_carry_refuted",
    "C30_add_overflow_refuted",
    "C30_since_refuted",
    "C30_elapsed_units"
   ],
   "note": "Strict total order proved; Add exact but without carry, so equal instants compare unequal and repeated adds go back; Since exact only within one second. Durations of either sign, with the exact condition for a carry or borrow: C30_add_exact."
  },
  {
   "property": "C31",
   "status": "partial",
   "theorems": [
    "C31_tcp_get",
    "C31_tcp_data_offset",
    "C31_tcp_set",
    "C31_other_fields",
    "C31_tcp_set_get",
    "C31_tcp_flags",
    "C31_tcp_set_data_offset_partial",
    "C31_tcp_set_data_offset_refuted",
    "C31_tcp_set_flag_part_one_partial",
    "C31_tcp_set_payload",
    "C31_tcp_set_options"
   ],
   "note": "Every plain field and every flag proved for all segments; SetDataOffset and SetFlagPartOne or into the old bits (exact condition, refuted otherwise)."
  },
  {
   "property": "C32",
   "status": "partial",
   "theorems": [
    "C32_check",
    "C32_accessors",
    "C32_partition_partial",
    "C32_options_refuted"
   ],
   "note": "All accessors but Options; Options panics exactly when the header length is below 20, which the checker accepts."
  },
  {
   "property": "C33",
   "status": "partial",
   "theorems": [
    "C33_exact_partial",
    "C33_mss_partial",
    "C33_refuted"
   ],
   "note": "Exact behaviour on every byte string: lists of MSS options terminate; a no-operation or any other option loops forever, a truncated MSS panics. handleOptions is not called by Receive."
  },
  {
   "property": "C34",
   "status": "partial",
   "theorems": [
    "C34_reports",
    "C34_in_order_exact",
    "C34_last_byte_refuted",
    "C34_acknowledgement_refuted",
    "C34_total",
    "C34_syn_partial",
    "C34_server_refuted",
    "C34_client_partial",
    "C34_open_partial",
    "C34_close_refuted",
    "C34_in_order_partial",
    "C34_in_order_refuted"
   ],
   "note": "Receive is total; SYN is answered, a client is established by SYN+ACK, one-byte segments are delivered in order. False: a server never becomes established, FIN/RST are ignored, and a segment after one of two or more bytes is inserted before that one's last byte. The receive buffer is modelled by its interface's documentation. Segments in order of any lengths: C34_in_order_exact gives the exact buffer; a bare acknowledgement loses the next data (C34_acknowledgement_refuted)."
  },
  {
   "property": "C35",
   "status": "partial",
   "theorems": [
    "C35_ip4_congestion",
    "C35_ip4_ce_refuted",
    "C35_ip4_get",
    "C35_ip4_set",
    "C35_ip4_flags",
    "C35_ip4_set_version_partial",
    "C35_ip4_set_version_refuted",
    "C35_ip4_set_ihl_partial",
    "C35_ip4_set_dscp_refuted",
    "C35_ip4_fragment_get_refuted",
    "C35_ip4_fragment_set_partial",
    "C35_ip4_flag_ce_refuted",
    "C35_ip6_get",
    "C35_ip6_set",
    "C35_ip6_set_version_partial",
    "C35_ip6_set_traffic_class_partial",
    "C35_ip6_set_traffic_class_refuted",
    "C35_ip6_set_flow_label_partial",
    "C35_udp_get",
    "C35_udp_set",
    "C35_udp_set_length_refuted",
    "C35_payloads"
   ],
   "note": "Plain fields and flags proved; wrong: IPv4 SetVersion, SetIHL, SetDSCP, FragmentOffset, SetFragmentOffset, FlagCE; IPv6 SetVersion, SetTrafficClass, SetFlowLabel; UDP SetLength, each with its exact behaviour."
  },
  {
   "property": "C36",
   "status": "proved",
   "theorems": [
    "C36_ip4",
    "C36_ip6",
    "C36_udp",
    "C36_checkers_total"
   ],
   "note": "Proved for every accepted packet and every accessor."
  },
  {
   "property": "C37",
   "status": "partial",
   "theorems": [
    "C37_print",
    "C37_parse",
    "C37_round_trip",
    "C37_unique",
    "C37_bad_text_refuted",
    "C37_trailing_refuted",
    "C37_mixture_refuted"
   ],
   "note": "Round trip, uniqueness and totality proved for all addresses and texts; rejection refuted for every text: the error result is always nil, trailing text is ignored, and a text that fails midway leaves a mixture."
  },
  {
   "property": "C38",
   "status": "partial",
   "theorems": [
    "C38_parse_partial",
    "C38_unique",
    "C38_unspecified_refuted",
    "C38_errors_refuted",
    "C38_print_refuted",
    "C38_sample"
   ],
   "note": "Parsing proved for every valid text but \"::\"; refuted: \"::\" leaves the variable unchanged, errors are never reported, printing panics for every address but the unspecified one."
  },
  {
   "property": "C39",
   "status": "proved",
   "theorems": [
    "C39_accepts",
    "C39_frame_fields",
    "C39_address_fields",
    "C39_set_get"
   ],
   "note": "Proved for every frame and address."
  },
  {
   "property": "C40",
   "status": "partial",
   "theorems": [
    "C40_forward_partial",
    "C40_midway_partial",
    "C40_path_partial",
    "C40_next_partial",
    "C40_next_refuted",
    "C40_wrap_refuted",
    "C40_path_refuted",
    "C40_short_refuted",
    "C40_init_partial",
    "C40_broadcast_refuted"
   ],
   "note": "Proved for 1 to 252 hops and every path, ports and trailing bytes; refuted beyond (position wraps onto the frame type), for accepted frames shorter than their next hop, and for broadcast frames."
  },
  {
   "property": "C41",
   "status": "partial",
   "theorems": [
    "C41_init_partial",
    "C41_order_partial",
    "C41_twice_partial",
    "C41_length_refuted",
    "C41_short_refuted"
   ],
   "note": "Order of ports proved for 2 to 255 hops; refuted: the resulting length is wrong for every path, and 0 or 1 hop panics."
  },
  {
   "property": "C42",
   "status": "partial",
   "theorems": [
    "C42_well_formed_partial",
    "C42_progress",
    "C42_ends_partial",
    "C42_unknown_refuted",
    "C42_error_refuted",
    "C42_gp_refuted",
    "C42_gp_next_refuted",
    "C42_truncated_refuted",
    "C42_sample"
   ],
   "note": "Well-formed packets of padding, data, call, signature and opening frames are processed to the end; every round consumes a byte; the run ends within one round per byte unless it meets an unhandled type. Refuted: unhandled types loop forever; error frames, trailing GP frames and truncated frames panic."
  },
  {
   "property": "C43",
   "status": "partial",
   "theorems": [
    "C43_layout16",
    "C43_layout32",
    "C43_read_back",
    "C43_distinct",
    "C43_seconds8_partial",
    "C43_id8_refuted",
    "C43_random8_refuted",
    "C43_id32_refuted"
   ],
   "note": "16 and 32 byte identifiers: layout, time and random part read back for every clock value, distinct random parts distinct identifiers. 8 byte: the seconds are read back within 40 bits; refuted: its random part is overwritten, all identifiers of a second are equal; the id of a 32 byte identifier is its creation second."
  },
  {
   "property": "C44",
   "status": "partial",
   "theorems": [
    "C44_version",
    "C44_text",
    "C44_distinct",
    "C44_parse_partial",
    "C44_from_string_refuted",
    "C44_short_refuted",
    "C44_urn"
   ],
   "note": "Version, variant and the untouched bits for every random input; canonical text of the value, distinct texts, URN form; the parser computes the UUID into a copy. Refuted: the caller's UUID is unchanged, the package function returns zeros, short texts panic."
  },
  {
   "property": "C45",
   "status": "proved",
   "theorems": [
    "C45_exact",
    "C45_single_digit",
    "C45_adjacent_swap",
    "C45_swap_0_9"
   ],
   "note": "All three parts proved for digit strings of any length; non-digits are not rejected (example)."
  },
  {
   "property": "C46",
   "status": "partial",
   "theorems": [
    "C46_check_digit_partial",
    "C46_even_payload_refuted",
    "C46_empty_panics"
   ],
   "note": "Holds for payloads of odd length; for even length refuted with the exact acceptance condition; empty input panics."
  },
  {
   "property": "C47",
   "status": "partial",
   "theorems": [
    "C47_checks",
    "C47_total",
    "C47_flags",
    "C47_unknown",
    "C47_unmentioned",
    "C47_arg",
    "C47_empty_value_refuted",
    "C47_terminator_refuted",
    "C47_nflag_refuted"
   ],
   "note": "Every list of documented flags followed by nothing or a non-flag sets exactly the named fields in order and leaves the rest; unknown flags are errors; unmentioned fields keep their value for every argument list; parsing is total. Refuted: -name= is read as no value, -- is also reported as bad syntax, NFlag counts all fields."
  },
  {
   "property": "C48",
   "status": "partial",
   "theorems": [
    "C48_refuted",
    "C48_empty_partial",
    "C48_dashed_partial"
   ],
   "note": "Refuted for every object with a non-empty field: the arguments carry no dashes and are refused whole. Holds when all values are empty; with dashes it would hold for non-boolean fields."
  },
  {
   "property": "C49",
   "status": "partial",
   "theorems": [
    "C49_lookup_partial",
    "C49_sound",
    "C49_duplicate_refuted",
    "C49_delete_refuted",
    "C49_listing_refuted"
   ],
   "note": "Lookups are proved sound for every history and exact for duplicate-free ones. Refuted: duplicates return no error, deleting a duplicate drops the first one's id, the listing starts with 512 nils and keeps deleted services."
  },
  {
   "property": "C50",
   "status": "proved",
   "theorems": [
    "C50_lookup",
    "C50_register"
   ],
   "note": "Proved for every history in both modes."
  },
  {
   "property": "C51",
   "status": "proved",
   "theorems": [
    "C51_delivery"
   ],
   "note": "Proved for all histories of add/remove/dispatch with listeners that do not call the target back (C52 covers those)."
  },
  {
   "property": "C52",
   "status": "partial",
   "theorems": [
    "C52_quiet_partial",
    "C52_reentry_refuted",
    "C52_forever_refuted"
   ],
   "note": "Refuted: the mutex is held while listeners run, so any re-entrant call blocks forever and the target stays locked."
  },
  {
   "property": "C53",
   "status": "proved",
   "theorems": [
    "C53_replace",
    "C53_single"
   ],
   "note": "Proved, for any content of the spare capacity."
  },
  {
   "property": "C54",
   "status": "partial",
   "theorems": [
    "C54_join",
    "C54_separator_partial",
    "C54_separator_refuted",
    "C54_extension_partial",
    "C54_dot_refuted",
    "C54_init",
    "C54_stale_refuted",
    "C54_directory_partial",
    "C54_directory_refuted"
   ],
   "note": "Join and Init proved for every path; parts contain separators exactly for paths with two adjacent separators; the base keeps the dot; decoding keeps a stale extension; the directory question panics on paths without separator."
  },
  {
   "property": "C55",
   "status": "partial",
   "theorems": [
    "C55_create_refuted",
    "C55_empty_refuted",
    "C55_lookup_partial",
    "C55_ignored_refuted",
    "C55_deep_refuted",
    "C55_delete_refuted"
   ],
   "note": "Refuted: File/Directory compare an interface holding a nil pointer with nil, so nothing is ever created; deep paths look for a directory named like the file. Directory walks are proved."
  },
  {
   "property": "C56",
   "status": "proved",
   "theorems": [
    "C56_inclusion",
    "C56_order",
    "C56_monotone",
    "C56_union"
   ],
   "note": "Full."
  },
  {
   "property": "C57",
   "status": "partial",
   "theorems": [
    "C57_swapped_refuted",
    "C57_both_partial",
    "C57_remove_partial",
    "C57_negative_refuted",
    "C57_unwatched_refuted",
    "C57_report_partial",
    "C57_report_refuted"
   ],
   "note": "Refuted: read and write are swapped, a negative read timeout sets a past deadline, timeouts without a read deadline are reported as read timeouts. The joint setter and the report with both deadlines are proved."
  },
  {
   "property": "C58",
   "status": "partial",
   "theorems": [
    "C58_ten_refuted",
    "C58_quiet",
    "C58_start",
    "C58_restart",
    "C58_due",
    "C58_bounded",
    "C58_count_refuted",
    "C58_spacing_refuted",
    "C58_switch",
    "C58_reuse_refuted"
   ],
   "note": "Bounded by ten probes for every schedule; restart and idle proved. Refuted for every schedule of due checks: ten probes are sent, one more than configured, and a check at the due instant does not move the due time. Switched off it never probes and loses nothing (C58_switch). Refuted for a stream used again: Reinit clears the interval, so every check probes and the eleventh closes, at any times."
  },
  {
   "property": "C59",
   "status": "partial",
   "theorems": [
    "C59_parse_partial",
    "C59_panic_refuted"
   ],
   "note": "Decomposition proved for texts with a slash; refuted otherwise (panic)."
  },
  {
   "property": "C60",
   "status": "partial",
   "theorems": [
    "C60_meaning",
    "C60_equivalence",
    "C60_chain",
    "C60_nil_chain_refuted"
   ],
   "note": "Equality is an equivalence on all errors without a nil pointer inside and is preserved by wrapping at any depth. Refuted only for chaining nil."
  },
  {
   "property": "C61",
   "status": "partial",
   "theorems": [
    "C61_decode",
    "C61_round_trip",
    "C61_short_partial",
    "C61_long_refuted",
    "C61_malformed_refuted",
    "C61_any_malformed_refuted"
   ],
   "note": "Round trip for every identifier, exact result for every text; no panic up to eleven characters. Refuted: longer texts panic, malformed texts give id 0 without error."
  },
  {
   "property": "C62",
   "status": "partial",
   "theorems": [
    "C62_null_exact_partial",
    "C62_bool_exact_partial",
    "C62_bool_end_refuted",
    "C62_key_exact_partial",
    "C62_minified_exact_partial",
    "C62_number_at_end_refuted",
    "C62_list_exact_partial",
    "C62_list_minified_exact_partial",
    "C62_truncated_refuted",
    "C62_scalars_return_partial"
   ],
   "note": "For every method the texts on which it panics or never returns are given exactly (the _exact_partial theorems); on all others it returns and leaves a suffix of the text. Refuted: a list of numbers without a terminator after an earlier number loops for ever; truncated booleans and null checks panic; a number at the end of the text is replaced by the one decoded before."
  },
  {
   "property": "C63",
   "status": "partial",
   "theorems": [
    "C63_exact_partial",
    "C63_every_text",
    "C63_semicolons_refuted",
    "C63_colons_refuted",
    "C63_query_parse_total",
    "C63_semicolon_refuted"
   ],
   "note": "Termination, values added and the exact error proved for every text. The semicolon rule is refuted in general: the constant is defined as ':', so semicolons are accepted and colons rejected."
  },
  {
   "property": "C64",
   "status": "partial",
   "theorems": [
    "C64_stale_refuted",
    "C64_when_stale_refuted",
    "C64_marshal_current_refuted",
    "C64_marshal_current_partial"
   ],
   "note": "Refuted in general: the text cached by a parse, by Marshal or by Reinit is returned whatever the components were set to later. Proved while nothing is cached."
  },
  {
   "property": "C65",
   "status": "partial",
   "theorems": [
    "C65_uri_parse_panics_refuted",
    "C65_uri_parse_panics_partial"
   ],
   "note": "Refuted; the exact set of panicking inputs is proved."
  },
  {
   "property": "C66",
   "status": "partial",
   "theorems": [
    "C66_authority_exact",
    "C66_user_refuted",
    "C66_authority_refuted",
    "C66_authority_partial"
   ],
   "note": "Refuted for every authority with a user part (the slice keeps the wrong side of the @): the host is the user; proved without one. C66_authority_exact: right exactly without a user part."
  },
  {
   "property": "C67",
   "status": "partial",
   "theorems": [
    "C67_parameter_exact",
    "C67_content_type_partial",
    "C67_no_parameter_refuted",
    "C67_absent_crash_refuted"
   ],
   "note": "Proved for lines with a charset or boundary parameter; without a parameter the subtype is lost, without the line the reader panics (refuted). One parameter of any text: C67_parameter_exact."
  },
  {
   "property": "C68",
   "status": "proved",
   "theorems": [
    "C68_content_length",
    "C68_content_length_exact",
    "C68_status_code",
    "C68_max_age",
    "C68_max_age_exact",
    "C68_same_site",
    "C68_same_site_text"
   ],
   "note": "Ages at or below zero all become 0, as documented."
  },
  {
   "property": "C69",
   "status": "partial",
   "theorems": [
    "C69_cookie_crash_exact",
    "C69_never_crash_refuted",
    "C69_next_refuted"
   ],
   "note": "Refuted; the exact set of crashing texts is proved."
  },
  {
   "property": "C70",
   "status": "partial",
   "theorems": [
    "C70_monotonic_partial",
    "C70_seconds_refuted"
   ],
   "note": "Order and arithmetic proved; the seconds accessor returns nanoseconds and the nanosecond accessor is always 0 or panics (refuted for every time)."
  },
  {
   "property": "C71",
   "status": "partial",
   "theorems": [
    "C71_periods_in_seconds",
    "C71_periods_whole_seconds_partial",
    "C71_periods_below_second_refuted",
    "C71_periods_mixed_exact",
    "C71_no_period"
   ],
   "note": "Seconds right; nanosecond periods right for whole seconds, for every period below a second wrong from the first second on, and for longer periods that are no whole number of seconds never too few, with the exact condition under which the count is right (C71_periods_mixed_exact)."
  },
  {
   "property": "C72",
   "status": "partial",
   "theorems": [
    "C72_units_of_seconds",
    "C72_units_of_nanoseconds_refuted"
   ],
   "note": "Seconds right; from nanoseconds wrong for every duration of at least 60, 3600, ... ns because the constants are 10^9 too small."
  },
  {
   "property": "C73",
   "status": "partial",
   "theorems": [
    "C73_store_alone_partial",
    "C73_torn_read_refuted",
    "C73_mixed_stores_refuted",
    "C73_failed_cas_refuted"
   ],
   "note": "A store alone is read back; torn reads, mixed stores and failed swaps that change the time are shown for all different times."
  },
  {
   "property": "C74",
   "status": "partial",
   "theorems": [
    "C74_late_get_refuted",
    "C74_closed_once_partial",
    "C74_clean_and_close",
    "C74_close_leaks_refuted",
    "C74_race_refuted"
   ],
   "note": "Closed once and not held proved when no call races with Close; Close never closes the hot object and the victims, and a racing Get hands out a closed object."
  },
  {
   "property": "C75",
   "status": "partial",
   "theorems": [
    "C75_grow",
    "C75_grow_len_partial",
    "C75_grow_len_new_refuted",
    "C75_set_refuted",
    "C75_set_keeps",
    "C75_reset",
    "C75_write",
    "C75_write_string",
    "C75_read_at_refuted",
    "C75_grow_then_write"
   ],
   "note": "Grow and Reset proved; GrowLen wrong on a new buffer; Set keeps the old read position, so Read can panic (exact condition)."
  },
  {
   "property": "C76",
   "status": "partial",
   "theorems": [
    "C76_exact",
    "C76_accepts_partial",
    "C76_ip4_short_refuted",
    "C76_bad_length_refuted",
    "C76_payload_partial"
   ],
   "note": "Acceptance of valid packets proved for UDP and IPv4 from 40 bytes; short valid IPv4 packets are refused, inconsistent lengths accepted; the payload carries the trailing bytes."
  },
  {
   "property": "C77",
   "status": "partial",
   "theorems": [
    "C77_timer_refuted"
   ],
   "note": "False for every choice of delays: the minimum starts at 0, so the timer is never started."
  },
  {
   "property": "C78",
   "status": "proved",
   "theorems": [
    "C78_classes",
    "C78_mapped"
   ],
   "note": "Proved for every address; the octets are read against the prefixes of RFC 4291 stated separately."
  },
  {
   "property": "C79",
   "status": "partial",
   "theorems": [
    "C79_alternatives",
    "C79_change_refuted",
    "C79_change_panics_refuted",
    "C79_from_frame_refuted",
    "C79_write_refuted"
   ],
   "note": "Registration proved for every sequence; switching, initialisation from a frame and writing refuted in general."
  },
  {
   "property": "C80",
   "status": "partial",
   "theorems": [
    "C80_loop_refuted",
    "C80_visits"
   ],
   "note": "Every port is visited in 256 rounds, but the loop never ends (refuted for every number of rounds)."
  },
  {
   "property": "C81",
   "status": "partial",
   "theorems": [
    "C81_layout_partial",
    "C81_time_refuted",
    "C81_type_refuted"
   ],
   "note": "The random part and the stored type byte hold. Refuted for every input: the time is never stored and Type returns 0."
  },
  {
   "property": "C82",
   "status": "partial",
   "theorems": [
    "C82_lookup",
    "C82_dispatch",
    "C82_total_partial",
    "C82_help_refuted",
    "C82_path",
    "C82_root_refuted"
   ],
   "note": "Dispatch refines the specification and covers every call except a group reached without arguments that has a help command, which panics. Root always panics."
  },
  {
   "property": "C83",
   "status": "partial",
   "theorems": [
    "C83_to_go_partial",
    "C83_back_refuted"
   ],
   "note": "Refuted: the unchecked type assertion panics for every plain Go error, including the ones ToGoError makes."
  },
  {
   "property": "C84",
   "status": "partial",
   "theorems": [
    "C84_once_refuted",
    "C84_ignored_refuted"
   ],
   "note": "Refuted: options are stored and never looked at."
  },
  {
   "property": "C85",
   "status": "partial",
   "theorems": [
    "C85_unregister",
    "C85_other_refuted"
   ],
   "note": "Proved for errors sharing neither id nor media type; refuted for another error under the same id."
  },
  {
   "property": "C86",
   "status": "proved",
   "theorems": [
    "C86_counters",
    "C86_never_blocks",
    "C86_books"
   ],
   "note": "Proved for every schedule of reports."
  },
  {
   "property": "C87",
   "status": "proved",
   "theorems": [
    "C87_traffic",
    "C87_streams",
    "C87_lost_below_sent"
   ],
   "note": "Proved for every sequence of reports."
  },
  {
   "property": "C88",
   "status": "partial",
   "theorems": [
    "C88_any_host_refuted",
    "C88_other_host_refuted",
    "C88_host_line_refuted",
    "C88_follow_partial",
    "C88_check_host",
    "C88_check_host_once",
    "C88_served_exact",
    "C88_redirected_exact",
    "C88_digit_domain_refuted",
    "C88_www_domain_refuted",
    "C88_plain_domain_partial"
   ],
   "note": "Exact for a request whose host is known. Refuted: neither parsing a target nor setting its authority nor checking the Host line makes the host known, so every request is served whatever host it names (C88_any_host_refuted, C88_other_host_refuted, C88_host_line_refuted); a domain that begins with a digit or with www. is never served under its own name."
  },
  {
   "property": "C89",
   "status": "partial",
   "theorems": [
    "C89_error_line",
    "C89_first_error_stays",
    "C89_decimal_partial",
    "C89_nondigit_refuted",
    "C89_round_trip_refuted",
    "C89_status_by_error",
    "C89_redirect"
   ],
   "note": "Refuted for every identifier: SetError writes base64, GetError reads decimal. Proved: decimal texts are read right, statuses and redirects are right."
  },
  {
   "property": "C90",
   "status": "partial",
   "theorems": [
    "C90_one_response",
    "C90_method_not_allowed",
    "C90_service_by_id",
    "C90_panic_refuted",
    "C90_by_path",
    "C90_no_status_refuted",
    "C90_refused_host_refuted"
   ],
   "note": "Refuted: a POST to /s with a long query panics, refused hosts and the landing path get a response without a status, a missing main page panics."
  },
  {
   "property": "C91",
   "status": "partial",
   "theorems": [
    "C91_length_partial",
    "C91_type_lines",
    "C91_twice_refuted",
    "C91_no_body_refuted",
    "C91_body_never_set_refuted"
   ],
   "note": "Proved for non-empty bodies when the service wrote no length itself; refuted for empty bodies (announced as chunked) and for services that set the length (it is written twice)."
  },
  {
   "property": "C92",
   "status": "partial",
   "theorems": [
    "C92_layout_partial",
    "C92_float64_array_refuted",
    "C92_string_array_refuted"
   ],
   "note": "Proved for the field types the generator supports; refuted for float64 arrays and string arrays wherever they stand."
  },
  {
   "property": "C93",
   "status": "partial",
   "theorems": [
    "C93_wire_partial",
    "C93_uint64_slice_refuted",
    "C93_string_slice_refuted"
   ],
   "note": "Refuted for []uint64 (no room is counted) and []string (entries are not counted)."
  },
  {
   "property": "C94",
   "status": "partial",
   "theorems": [
    "C94_round_trip_partial",
    "C94_small_slice",
    "C94_uint64_slice_refuted",
    "C94_dropped_refuted",
    "C94_nested_alone",
    "C94_nested_alone_decode",
    "C94_nested_refuted",
    "C94_nested_read_refuted",
    "C94_after_nested_refuted"
   ],
   "note": "Refuted for []uint64, for nested named types (written over the start of the outer record), float slices and int fields (dropped). A nested record is read from the start of the outer one, whatever fields stand before it (C94_nested_read_refuted)."
  },
  {
   "property": "C95",
   "status": "partial",
   "theorems": [
    "C95_null_exact",
    "C95_null_kept",
    "C95_null_next",
    "C95_object_is_json",
    "C95_round_trip_partial",
    "C95_list_after_array_refuted",
    "C95_negative_refuted"
   ],
   "note": "Partial: proved for sequences without negative integers and without a list of numbers after a fixed array (general refutations for both); empty lists, quotes in strings and a buffer without room for base64 are excluded (refuted under C16). A null field leaves arrays, strings and the place in the text as they were, and the next key is found."
  },
  {
   "property": "C96",
   "status": "partial",
   "theorems": [
    "C96_round_trip_partial",
    "C96_key_after_boolean_refuted",
    "C96_identifiers_refuted",
    "C96_identifiers_odd_partial",
    "C96_identifiers_short_refuted"
   ],
   "note": "Partial: proved for sequences where a boolean comes last, without identifier lists and without a list after a fixed array. Refuted in general: a key after a boolean loses its first character; no list of 32-byte identifiers is accepted."
  },
  {
   "property": "C97",
   "status": "proved",
   "theorems": [
    "C97_compressor",
    "C97_decompressor",
    "C97_bad_level"
   ],
   "note": "Proved for every source, level and history of calls; the library's compress and decompress are parameters that invert each other."
  },
  {
   "property": "C98",
   "status": "partial",
   "theorems": [
    "C98_gzip_reports_nothing_refuted",
    "C98_damage_refuted",
    "C98_header_refuted",
    "C98_write_count_refuted",
    "C98_flate_reports_source_partial",
    "C98_flate_write_reports_partial",
    "C98_gzip_write_partial",
    "C98_gzip_bad_source",
    "C98_gzip_read_partial"
   ],
   "note": "Refuted in general for gzip (no reading call ever returns an error), for damaged data in both, and for WriteTo's count; partial: flate reports a failing source, and damage only from WriteTo."
  },
  {
   "property": "C99",
   "status": "partial",
   "theorems": [
    "C99_stale_compressor_refuted",
    "C99_given_data_ignored_refuted",
    "C99_follows_until_read_partial",
    "C99_write_follows_partial"
   ],
   "note": "Refuted in general: the first successful reading call freezes the content for ever, and data given to the gzip decompressor never shows in Marshal, MarshalTo or Len. Partial: the source is followed until the first reading call, and always by the compressors' WriteTo."
  },
  {
   "property": "C100",
   "status": "partial",
   "theorems": [
    "C100_unmarshalled_bytes",
    "C100_first_marshal",
    "C100_marshal_to",
    "C100_length_refuted",
    "C100_stale_refuted",
    "C100_silent_refuted"
   ],
   "note": "The first two parts are proved; refuted: Marshal follows the object after its first call, Marshal reports a failing ToJSON, UnmarshalFrom takes the data."
  },
  {
   "property": "C101",
   "status": "proved",
   "theorems": [
    "C101_lookup",
    "C101_refusal"
   ],
   "note": "Proved for every history of registrations."
  },
  {
   "property": "C102",
   "status": "partial",
   "theorems": [
    "C102_lookup",
    "C102_not_found_refuted",
    "C102_refusal_partial"
   ],
   "note": "Lookups proved; refuted: no lookup ever returns an error; only a type without both parts is refused."
  },
  {
   "property": "C103",
   "status": "partial",
   "theorems": [
    "C103_quiet",
    "C103_start",
    "C103_restart",
    "C103_bounded",
    "C103_spacing_refuted",
    "C103_delayed_ack_start",
    "C103_delayed_ack_refuted",
    "C103_reinit_refuted",
    "C103_reinit_used"
   ],
   "note": "Quiet, restart and the bound are proved for every state. Spacing is refuted: once due, eleven checks at any times close the stream. The delayed acknowledgement does nothing (refuted)."
  },
  {
   "property": "C104",
   "status": "partial",
   "theorems": [
    "C104_count_exact",
    "C104_syn",
    "C104_wrap_refuted",
    "C104_reuse_refuted"
   ],
   "note": "The limit is exact below 256 retries; the wrap and the missing reset on Reinit are refuted in general. Any number of retries: C104_count_exact."
  },
  {
   "property": "C105",
   "status": "partial",
   "theorems": [
    "C105_next_partial",
    "C105_next_refuted",
    "C105_timestamps_refuted",
    "C105_variable_partial",
    "C105_mss",
    "C105_one_octet_refuted",
    "C105_four_octets_refuted"
   ],
   "note": "Right for eight kinds (next option) and for MSS (value); for the others the wrong offset or width is refuted for every data."
  },
  {
   "property": "C106",
   "status": "partial",
   "theorems": [
    "C106_script",
    "C106_page_partial",
    "C106_page_refuted",
    "C106_bad_number_refuted",
    "C106_panic_refuted",
    "C106_ends"
   ],
   "note": "Proved for scripts; for pages every slot leaves its closing brace (refuted in general, exact output proved). Wrong numbers vanish silently or panic (refuted)."
  },
  {
   "property": "C107",
   "status": "partial",
   "theorems": [
    "C107_style",
    "C107_style_lost_refuted",
    "C107_page",
    "C107_page_refuted",
    "C107_pages_lost_refuted",
    "C107_style_on_page",
    "C107_languages",
    "C107_ends_exact_partial",
    "C107_no_texts_refuted"
   ],
   "note": "Insertion is proved; lost style sheets on a minifier error, misplaced or lost pages and that the combined script never holds any page are refuted in general."
  },
  {
   "property": "C108",
   "status": "partial",
   "theorems": [
    "C108_extract_partial",
    "C108_again",
    "C108_panic_refuted"
   ],
   "note": "Exact for imports with apostrophes preceded by a separator byte; a script that begins with an import, or any keyword without two apostrophes after it, panics (refuted)."
  },
  {
   "property": "C109",
   "status": "partial",
   "theorems": [
    "C109_bundle",
    "C109_main_last",
    "C109_order_partial",
    "C109_order_once_partial",
    "C109_order_refuted"
   ],
   "note": "Termination, completeness and uniqueness are proved; a file that is imported from one place comes after the files it imports, however often those are imported (C109_order_once_partial). Refuted for a file imported from two places, on a graph without cycles."
  },
  {
   "property": "C110",
   "status": "partial",
   "theorems": [
    "C110_page_exact",
    "C110_no_line_feed",
    "C110_plain",
    "C110_comment",
    "C110_words_refuted",
    "C110_twice_refuted"
   ],
   "note": "No line feed is left, plain text is kept and a comment is removed exactly; joined words and non-idempotence are refuted for all words and comments. Pages of any number of texts, line ends and comments: C110_page_exact."
  },
  {
   "property": "C111",
   "status": "partial",
   "theorems": [
    "C111_pending",
    "C111_never_blocks",
    "C111_no_phantom_partial",
    "C111_phantom_refuted"
   ],
   "note": "Proved for every schedule of the two threads while the channel is open. Refuted after Close: receives then succeed without a tick, any number of them."
  },
  {
   "property": "C112",
   "status": "partial",
   "theorems": [
    "C112_any_restart_refuted",
    "C112_one_shot_partial",
    "C112_ticker_refuted",
    "C112_restart_refuted",
    "C112_quiet_partial",
    "C112_twice_refuted",
    "C112_fired_refuted",
    "C112_unset_off"
   ],
   "note": "Proved for one-shot timers armed at most once and closed at most once, for every schedule, and that nothing follows a quiet close. Refuted: a ticker or a restarted timer closed while it is being called panics, closing twice panics, closing after it fired leaves the channel open."
  },
  {
   "property": "C113",
   "status": "partial",
   "theorems": [
    "C113_log_partial",
    "C113_run_partial",
    "C113_listen_partial",
    "C113_levels",
    "C113_panicking_refuted"
   ],
   "note": "Proved for listeners that return. Refuted: a listener that panics keeps the later ones from the event and keeps the mutex, so every later log call hangs."
  },
  {
   "property": "C114",
   "status": "partial",
   "theorems": [
    "C114_recovers_partial",
    "C114_quiet",
    "C114_event",
    "C114_text",
    "C114_fatal_error",
    "C114_listener_refuted",
    "C114_escapes_refuted"
   ],
   "note": "Proved for listeners that return. Refuted: a panic of a log listener makes the handler wait for ever; a listener that panics on the panic event lets the panic escape."
  },
  {
   "property": "C115",
   "status": "partial",
   "theorems": [
    "C115_init_partial",
    "C115_reported_partial",
    "C115_crypto_refuted",
    "C115_panic_refuted",
    "C115_deinit"
   ],
   "note": "What Init reports is characterised exactly for every outcome of its parts. Refuted: a failure of the cryptography part and a panic of any part are reported as success."
  },
  {
   "property": "C116",
   "status": "partial",
   "theorems": [
    "C116_status",
    "C116_order",
    "C116_received",
    "C116_waiting",
    "C116_complete_partial",
    "C116_lost_refuted"
   ],
   "note": "Status and order proved for every history; completeness while there are no more changes than the channel has room for; refuted: a change sent to a full channel is lost for that listener, so its last value can be old."
  },
  {
   "property": "C117",
   "status": "partial",
   "theorems": [
    "C117_only_partial",
    "C117_quiet",
    "C117_refuted"
   ],
   "note": "The exact condition for stopping is proved. Refuted: no history ever makes an application running, so no signal stops it."
  },
  {
   "property": "C118",
   "status": "partial",
   "theorems": [
    "C118_write_refuted",
    "C118_lost_refuted",
    "C118_reports",
    "C118_overwritten_refuted"
   ],
   "note": "Refuted: no history makes a queue one can write to; even with a first element in place writes are lost and not counted."
  },
  {
   "property": "C119",
   "status": "partial",
   "theorems": [
    "C119_write_refuted",
    "C119_from_refuted",
    "C119_read_partial",
    "C119_closed_refuted",
    "C119_new_refuted"
   ],
   "note": "Exact: a read returns if and only if the stream is reported complete. Refuted: writes never return, closing and time-outs are swallowed, a status change on a new socket blocks."
  },
  {
   "property": "C120",
   "status": "partial",
   "theorems": [
    "C120_exact_partial",
    "C120_at_most_partial",
    "C120_whole_refuted",
    "C120_units_refuted",
    "C120_type"
   ],
   "note": "Exact up to a billionth if and only if the product fits 64 bits; refuted for larger products, and for trillionths and quadrillionths."
  },
  {
   "property": "C121",
   "status": "partial",
   "theorems": [
    "C121_bool",
    "C121_bool_texts",
    "C121_bool_unknown_refuted",
    "C121_signed_format",
    "C121_signed_parse_refuted"
   ],
   "note": "Booleans proved, printing of signed integers proved. Refuted: unknown texts are no error; no signed integer is ever read."
  },
  {
   "property": "C122",
   "status": "proved",
   "theorems": [
    "C122_length"
   ],
   "note": "Proved for every text and all bounds."
  },
  {
   "property": "C123",
   "status": "partial",
   "theorems": [
    "C123_to_bytes",
    "C123_from_bytes",
    "C123_round_trip",
    "C123_truncates_refuted",
    "C123_alias",
    "C123_strings",
    "C123_string_refuted"
   ],
   "note": "Views, aliasing and the round trip from elements proved. Refuted: from bytes and back only whole elements survive (exact condition); a string made from a slice changes with it."
  },
  {
   "property": "C124",
   "status": "partial",
   "theorems": [
    "C124_describes",
    "C124_unnamed",
    "C124_ends_partial",
    "C124_recursive_refuted",
    "C124_lost_refuted",
    "C124_declared"
   ],
   "note": "Proved for finite types, with the exact description. Refuted: recursive types overflow the stack; the other kinds of type are lost."
  },
  {
   "property": "C125",
   "status": "partial",
   "theorems": [
    "C125_others",
    "C125_exported",
    "C125_recorded_partial",
    "C125_panics_refuted",
    "C125_groups_refuted"
   ],
   "note": "Proved for declarations of two groups with a named first parameter, and that nothing else changes. Refuted: groups are counted instead of parameters, methods count as functions, and the exact set of panicking sources is proved not empty."
  },
  {
   "property": "C126",
   "status": "partial",
   "theorems": [
    "C126_every_file_refuted",
    "C126_files",
    "C126_imports_partial",
    "C126_path",
    "C126_empty_path",
    "C126_version_refuted"
   ],
   "note": "Files, syntax errors and the import table proved. Refuted: every file is read whatever its name; a package whose name is not the last element of its path is not found."
  },
  {
   "property": "C127",
   "status": "partial",
   "theorems": [
    "C127_delivery_partial",
    "C127_reply_partial",
    "C127_ends_partial",
    "C127_loop_refuted",
    "C127_refuses",
    "C127_spreads_partial",
    "C127_send_partial"
   ],
   "note": "Proved for paths up to 252 hops and frames up to 255 bytes; refuted for next hops above 252, where a frame can circle for ever."
  },
  {
   "property": "C128",
   "status": "partial",
   "theorems": [
    "C128_passes_partial",
    "C128_silent_refuted",
    "C128_error_refuted",
    "C128_crossing_partial"
   ],
   "note": "Proved before the last hop. Refuted: at the last hop the frame vanishes silently; errors of the other side are lost."
  },
  {
   "property": "C129",
   "status": "partial",
   "theorems": [
    "C129_delivered_refuted",
    "C129_known_partial",
    "C129_service",
    "C129_ipv6_refuted"
   ],
   "note": "Proved for a table that has the stream. Refuted: no history makes one, every proper segment panics."
  },
  {
   "property": "C130",
   "status": "partial",
   "theorems": [
    "C130_fixed",
    "C130_next_partial",
    "C130_next_refuted",
    "C130_optional_refuted"
   ],
   "note": "Fixed part proved; next header proved without optional data, refuted for every header with some."
  },
  {
   "property": "C131",
   "status": "partial",
   "theorems": [
    "C131_answer",
    "C131_timeout_refuted",
    "C131_sent_refuted",
    "C131_never",
    "C131_left_open_refuted",
    "C131_no_stream"
   ],
   "note": "Answer, errors of sending and non-termination characterised exactly. Refuted: time-outs are not reported, a failed send leaves the stream open."
  },
  {
   "property": "C132",
   "status": "partial",
   "theorems": [
    "C132_answer",
    "C132_timeout_refuted",
    "C132_waits",
    "C132_sent_refuted",
    "C132_unsent",
    "C132_one_waits",
    "C132_serves",
    "C132_silent_refuted"
   ],
   "note": "Answer and the exact condition for waiting for ever proved. Refuted: time-outs and ends of the connection are not reported; unknown services are not answered."
  },
  {
   "property": "C133",
   "status": "partial",
   "theorems": [
    "C133_close_refuted",
    "C133_deadline_partial",
    "C133_swapped_refuted",
    "C133_zero_refuted",
    "C133_past_refuted",
    "C133_io_refuted"
   ],
   "note": "A deadline in the future for both directions is proved; every other clause is refuted in general."
  },
  {
   "property": "C134",
   "status": "partial",
   "theorems": [
    "C134_pages_partial",
    "C134_zero_refuted"
   ],
   "note": "Proved once the map exists; refuted for every Pages value another package can make."
  },
  {
   "property": "C135",
   "status": "proved",
   "theorems": [
    "C135_check",
    "C135_constants",
    "C135_all_none"
   ],
   "note": "Proved for all sets of actions."
  },
  {
   "property": "C136",
   "status": "partial",
   "theorems": [
    "C136_first_partial",
    "C136_four_partial",
    "C136_last_refuted",
    "C136_text_refuted",
    "C136_filled_refuted"
   ],
   "note": "Proved for a character that is followed by another or takes four bytes, with the exact condition for whole texts; refuted for shorter last characters."
  },
  {
   "property": "C137",
   "status": "partial",
   "theorems": [
    "C137_sort_refuted",
    "C137_sortable",
    "C137_hidden_partial",
    "C137_hidden_refuted"
   ],
   "note": "Hidden proved for every path to a file, refuted for directories; the sort order is refuted unless all files are of one age."
  },
  {
   "property": "C138",
   "status": "partial",
   "theorems": [
    "C138_start_refuted",
    "C138_runs_partial",
    "C138_core_refuted"
   ],
   "note": "Exact conditions proved for every number of processors, threads and core; refuted outside them."
  },
  {
   "property": "C139",
   "status": "partial",
   "theorems": [
    "C139_round_trip",
    "C139_secret_refuted",
    "C139_authentic_refuted"
   ],
   "note": "Only the round trip holds; secrecy and authenticity are refuted for every cipher, key and buffer."
  },
  {
   "property": "C140",
   "status": "partial",
   "theorems": [
    "C140_minify_partial",
    "C140_minify_refuted",
    "C140_urn_refuted"
   ],
   "note": "Errors of the codec proved; failures of the minifier and the parts of a URN refuted."
  },
  {
   "property": "C141",
   "status": "proved",
   "theorems": [
    "C141_queue",
    "C141_counts",
    "C141_first",
    "C141_check",
    "C141_check_exact"
   ],
   "note": "One core, one thread at a time; counters unbounded."
  },
  {
   "property": "C142",
   "status": "partial",
   "theorems": [
    "C142_move_refuted",
    "C142_move_partial",
    "C142_left_refuted"
   ],
   "note": "False in general (C142_move_refuted, C142_left_refuted); the exact condition to end and the effect then are C142_move_partial. The wake-up theorem supposes a wake-up time other than 0."
  },
  {
   "property": "C143",
   "status": "partial",
   "theorems": [
    "C143_in_time_partial",
    "C143_early",
    "C143_quarter_partial",
    "C143_none_left_partial",
    "C143_earlier_refuted",
    "C143_next_refuted"
   ],
   "note": "Tickers are excluded from the positive part (C08_periodic_starves_refuted: a ticker keeps its old key). C143_early needs no such restriction. Refuted: C143_earlier_refuted for every history, C143_next_refuted by a history."
  },
  {
   "property": "C144",
   "status": "partial",
   "theorems": [
    "C144_search_partial",
    "C144_nearest",
    "C144_sound",
    "C144_unopened_refuted",
    "C144_order_refuted",
    "C144_fresh_refuted",
    "C144_dependency_partial",
    "C144_dependency_refuted",
    "C144_find_files",
    "C144_find_file",
    "C144_find_nil_refuted",
    "C144_files",
    "C144_files_order",
    "C144_limit_refuted"
   ],
   "note": "Exact for trees whose directories are all opened (C144_search_partial, C144_dependency_partial), refuted for others. The order of a map is the order of a list over which the theorems quantify; sort.Strings is modelled as an insertion sort."
  },
  {
   "property": "C145",
   "status": "partial",
   "theorems": [
    "C145_contents_partial",
    "C145_save_refuted",
    "C145_unopened_refuted",
    "C145_nil_refuted",
    "C145_decode_refuted"
   ],
   "note": "The disk is a contract: no regular file is opened by an empty path or one that ends in a slash. Aliasing of slices given to Unmarshal and Prepend is not modelled."
  },
  {
   "property": "C146",
   "status": "partial",
   "theorems": [
    "C146_crc32",
    "C146_name_refuted",
    "C146_again_refuted",
    "C146_versions_partial",
    "C146_collision_refuted",
    "C146_rename",
    "C146_lost_refuted"
   ],
   "note": "CRC-32 is modelled bit by bit from its definition (library code). The four-byte bound is exact: C146_collision_refuted gives five bytes. The checksum is proved to be the CRC-32 of the standard for every content."
  },
  {
   "property": "C147",
   "status": "partial",
   "theorems": [
    "C147_resolves_partial",
    "C147_missing_refuted",
    "C147_beside_refuted",
    "C147_fresh_refuted",
    "C147_makes_refuted"
   ],
   "note": "The full statement is false (C147_missing_refuted, C147_beside_refuted, C147_fresh_refuted, C147_makes_refuted)."
  },
  {
   "property": "C148",
   "status": "partial",
   "theorems": [
    "C148_script_partial",
    "C148_plain_partial",
    "C148_left_out_refuted"
   ],
   "note": "The full statement is false (C148_left_out_refuted). Proved for all projects whose language names have no dot. File(name) is taken to make files as its comment says; that the directory of os/default does not is C55."
  },
  {
   "property": "C149",
   "status": "partial",
   "theorems": [
    "C149_sheets_partial",
    "C149_one_partial",
    "C149_stale_refuted",
    "C149_copy_refuted",
    "C149_inside_refuted"
   ],
   "note": "The full statement is false (C149_stale_refuted, C149_copy_refuted, C149_inside_refuted)."
  },
  {
   "property": "C150",
   "status": "partial",
   "theorems": [
    "C150_no_main_page",
    "C150_page_partial",
    "C150_main_refuted",
    "C150_empty_refuted",
    "C150_again_refuted",
    "C150_relative_refuted"
   ],
   "note": "The full statement is false (C150_main_refuted, C150_empty_refuted, C150_again_refuted, C150_relative_refuted); without landings/main.html nothing changes (C150_no_main_page)."
  },
  {
   "property": "C151",
   "status": "partial",
   "theorems": [
    "C151_grows_refuted",
    "C151_never_settles_refuted",
    "C151_none_partial",
    "C151_lost_refuted"
   ],
   "note": "The full statement is false (C151_grows_refuted, C151_never_settles_refuted, C151_lost_refuted)."
  },
  {
   "property": "C152",
   "status": "proved",
   "theorems": [
    "C152_worker",
    "C152_none"
   ],
   "note": "Proved for all projects whose language names have no dot."
  },
  {
   "property": "C153",
   "status": "partial",
   "theorems": [
    "C153_none_refuted",
    "C153_made_partial"
   ],
   "note": "The full statement is false (C153_none_refuted)."
  },
  {
   "property": "C154",
   "status": "partial",
   "theorems": [
    "C154_copies",
    "C154_left_alone",
    "C154_error_refuted",
    "C154_fails"
   ],
   "note": "The full statement is false (C154_error_refuted)."
  },
  {
   "property": "C155",
   "status": "partial",
   "theorems": [
    "C155_all",
    "C155_set_partial",
    "C155_twice_refuted",
    "C155_reuse_refuted",
    "C155_reinit"
   ],
   "note": "The documented 'in given order' and 'only those flags that have been set' fail in three ways: order of the line instead of declaration, a flag set twice visited twice, and leftovers after a second Init (C155_*_refuted). What is visited exactly is proved."
  },
  {
   "property": "C156",
   "status": "proved",
   "theorems": [
    "C156_same",
    "C156_short",
    "C156_way",
    "C156_here",
    "C156_all",
    "C156_tests"
   ],
   "note": "filepath.Rel and Clean of Go's library are modelled from their documentation on Unix, for an absolute working directory. Symbolic links are not modelled: 'leads to the same place' is by elements of the path."
  },
  {
   "property": "C157",
   "status": "partial",
   "theorems": [
    "C157_init",
    "C157_disarms",
    "C157_unused_refuted",
    "C157_start_refuted",
    "C157_reset_refuted",
    "C157_reset_partial"
   ],
   "note": "The old use is over after every Reinit without error. False: an unused or fired timer is refused, a reinitialised timer can never be started or made to tick again, and Reset panics while it is still queued."
  },
  {
   "property": "C158",
   "status": "partial",
   "theorems": [
    "C158_sleep_partial",
    "C158_spins_refuted",
    "C158_deaf_refuted",
    "C158_late_refuted"
   ],
   "note": "Never told to sleep beyond a due time (started and stopped timers). False: with nothing queued it does not sleep at all, and it is not woken by a new timer, whose callback is late."
  },
  {
   "property": "C159",
   "status": "partial",
   "theorems": [
    "C159_request_partial",
    "C159_target_partial",
    "C159_target_refuted",
    "C159_new_target",
    "C159_lines_refuted",
    "C159_response_partial"
   ],
   "note": "Everything read from it is as for a new one. False: the target of a reused request is written as nothing until one is read from text, and header lines of every earlier use remain as empty lines."
  },
  {
   "property": "C160",
   "status": "partial",
   "theorems": [
    "C160_report_exact",
    "C160_stops_partial",
    "C160_busy_refuted",
    "C160_leak_refuted",
    "C160_restart_refuted",
    "C160_ticks_partial",
    "C160_no_more",
    "C160_late"
   ],
   "note": "Proved when Stop finds the goroutine waiting. Refuted: Stop during a tick reports a wheel stopped already and leaks the goroutine; a wheel started again never ticks."
  },
  {
   "property": "C161",
   "status": "partial",
   "theorems": [
    "C161_named_exact",
    "C161_named_partial",
    "C161_persian_partial",
    "C161_distinct",
    "C161_sets_refuted"
   ],
   "note": "Proved from 1970 on in both languages; earlier times are named rightly at some midnights only; refuted: sets of several days and other languages have no name. C161_named_exact covers all times, before 1970 too."
  },
  {
   "property": "C162",
   "status": "partial",
   "theorems": [
    "C162_adds",
    "C162_total_partial",
    "C162_carry_refuted",
    "C162_swaps_partial",
    "C162_swaps_refuted",
    "C162_monotonic"
   ],
   "note": "Each addition is counted once, in each part. Refuted: nothing is carried from nanoseconds to seconds, and two swaps at once may return and leave times nobody stored."
  },
  {
   "property": "C163",
   "status": "partial",
   "theorems": [
    "C163_pragma_exact",
    "C163_others",
    "C163_once_partial",
    "C163_empty_refuted"
   ],
   "note": "Partial: a Cache-Control line with an empty value hides the added one, and every further call adds another (C163_empty_refuted)."
  },
  {
   "property": "C164",
   "status": "partial",
   "theorems": [
    "C164_new",
    "C164_new_tick",
    "C164_after",
    "C164_at_once",
    "C164_not_early",
    "C164_wakes_partial",
    "C164_lost_refuted"
   ],
   "note": "Refuted: a timer that runs after it was started and before the thread waits leaves the thread waiting for ever (C164_lost_refuted; the code has a TODO asking about it). The scheduler package that Yield belongs to is not in the repository: a wake-up is taken to reach only a thread that waits. Proved: never early, the rest of the sentence for the functions that make timers."
  },
  {
   "property": "C165",
   "status": "proved",
   "theorems": [
    "C165_story",
    "C165_callbacks",
    "C165_never_early",
    "C165_calls",
    "C165_no_crash",
    "C165_runs"
   ],
   "note": "Proved for every schedule of atomic steps where one goroutine at a time uses a timer."
  },
  {
   "property": "C166",
   "status": "partial",
   "theorems": [
    "C166_stop_partial",
    "C166_stop_late_refuted",
    "C166_restart_refuted",
    "C166_reschedule_refuted"
   ],
   "note": "Proved for a timer set once and not periodic (C166_stop_partial). False otherwise: the callback is called after Stop answered when the timer was set again or is periodic (C166_stop_late_refuted); once the core turns to a timer rescheduled while it waited, the lock is never released again, in every continuation (C166_reschedule_refuted); Stop crashes when the callback restarts its timer meanwhile (C166_restart_refuted)."
  },
  {
   "property": "C167",
   "status": "partial",
   "theorems": [
    "C167_once",
    "C167_rest_partial",
    "C167_kept_partial",
    "C167_next_partial",
    "C167_during_refuted"
   ],
   "note": "Proved between calls for every schedule. Missing and refuted: in the middle of Stop the count is one too low."
  },
  {
   "property": "C168",
   "status": "partial",
   "theorems": [
    "C168_kept_partial",
    "C168_written_partial",
    "C168_fresh_exact_partial",
    "C168_short_refuted",
    "C168_reset_refuted"
   ],
   "note": "False: a target with a scheme and a query but without a path announces one byte too few, others up to four too many, and a reset one announces bytes and writes none. Proved exactly when it holds."
  },
  {
   "property": "C169",
   "status": "partial",
   "theorems": [
    "C169_split",
    "C169_line_partial",
    "C169_leftover_refuted",
    "C169_asterisk_refuted",
    "C169_reset_partial"
   ],
   "note": "The split is proved for all data. False for the components: those that the new target lacks keep their old values."
  },
  {
   "property": "C170",
   "status": "partial",
   "theorems": [
    "C170_places",
    "C170_one_holder",
    "C170_bound_partial",
    "C170_count",
    "C170_refusal_partial",
    "C170_quiet_partial",
    "C170_limit_refuted",
    "C170_refused_refuted",
    "C170_stopped",
    "C170_reuse_refuted"
   ],
   "note": "Proved: every object is in exactly one place, one holder at a time, the counter is exact at every moment, the exact condition of a refusal, and that nothing leaves a stopped pool. False: the limit is exceeded while Clean closes what it has subtracted (and by the empty slots of C26), Get refuses because of another refusal under way, and Init called again panics but restarts the pool with closed objects in it."
  },
  {
   "property": "C171",
   "status": "partial",
   "theorems": [
    "C171_one_order",
    "C171_during",
    "C171_each_once",
    "C171_progress_partial",
    "C171_ends_partial",
    "C171_nested_refuted"
   ],
   "note": "The order is proved for all handlers, that calls come back for handlers that do not call the target. A handler that calls the target stops it for all goroutines."
  },
  {
   "property": "C172",
   "status": "partial",
   "theorems": [
    "C172_order",
    "C172_kept_partial",
    "C172_complete_partial",
    "C172_lost_refuted"
   ],
   "note": "Refuted for registrations that overlap: one of them is dropped and hears nothing again (any state in which a registration under way has not seen the channel). Partial: a channel that every registration under way has seen stays and is offered every later status. Order, no status twice and Status = last stored are proved for all schedules."
  },
  {
   "property": "C173",
   "status": "partial",
   "theorems": [
    "C173_chain",
    "C173_one_winner",
    "C173_told",
    "C173_alone_partial",
    "C173_stale_refuted",
    "C173_missed_refuted"
   ],
   "note": "Refuted: two goroutines that store may tell in the other order, so the listener ends with a status the stream no longer has; a status stored while no listener waits is told to nobody. Partial: one goroutine and a waiting listener. Chain, single winner and told-only-what-was-stored are proved for all schedules."
  },
  {
   "property": "C174",
   "status": "partial",
   "theorems": [
    "C174_answers_partial",
    "C174_parts_partial",
    "C174_alone_partial",
    "C174_forward_partial",
    "C174_backward_refuted",
    "C174_one_winner_partial"
   ],
   "note": "Proved for the seconds and the nanoseconds apart, and for the whole time of calls that run alone. Refuted: a reader may see a time nobody stored and the time going backwards, because the two parts are two atomic numbers."
  },
  {
   "property": "C175",
   "status": "partial",
   "theorems": [
    "C175_file_partial",
    "C175_only_files",
    "C175_told",
    "C175_main_page_refuted",
    "C175_front_refuted",
    "C175_below_refuted",
    "C175_setup_refuted",
    "C175_disk_refuted",
    "C175_setup_partial"
   ],
   "note": "Proved for files right in the directory. Refuted: files below it, the main page (a nil pointer in an interface is taken for a file and the server panics) and the setup."
  },
  {
   "property": "C176",
   "status": "partial",
   "theorems": [
    "C176_bodies_partial",
    "C176_text_partial",
    "C176_late_type_refuted",
    "C176_receiver_refuted",
    "C176_same_receiver_refuted",
    "C176_array_length_refuted",
    "C176_anonymous_refuted",
    "C176_anonymous_endless_refuted",
    "C176_error_lost_refuted",
    "C176_anonymous_taken_refuted",
    "C176_not_struct_refuted",
    "C176_octal_refuted"
   ],
   "note": "Proved for regular files (each type before its methods, named pointer receivers of different names, decimal array lengths, no struct without a name). Missing: all other files, for each of which what happens instead is proved."
  },
  {
   "property": "C177",
   "status": "partial",
   "theorems": [
    "C177_told_apart_exact",
    "C177_told_apart_refuted",
    "C177_status_partial",
    "C177_status_refuted",
    "C177_other",
    "C177_no_error",
    "C177_panics_exact",
    "C177_registered_partial",
    "C177_registered_refuted"
   ],
   "note": "Proved exactly which errors compare equal, and the status and register entry of the others. Refuted: unsupported media type and bad host carry the text of the unsupported transfer encoding."
  },
  {
   "property": "C178",
   "status": "partial",
   "theorems": [
    "C178_decode_returns_exact",
    "C178_encode_returns_exact",
    "C178_never_ends_exact",
    "C178_json_takes",
    "C178_gives_same_bytes_partial",
    "C178_gives_same_bytes_refuted",
    "C178_refused_exact",
    "C178_no_error_means_taken_partial",
    "C178_no_error_means_taken_refuted",
    "C178_from_nothing_refuted",
    "C178_encode_is_decode",
    "C178_count",
    "C178_from_json",
    "C178_from_compressor",
    "C178_from_decompressor",
    "C178_failing_source",
    "C178_through_bodies",
    "C178_srpc_sends_refuted",
    "C178_http_receives_refuted",
    "C178_http_receives_body",
    "C178_http_sends_refuted",
    "C178_http_sends_packed_refuted",
    "C178_uri_into_socket",
    "C178_uri_into_json",
    "C178_uri_takes_refuted"
   ],
   "note": "False as stated: giving anything to a socket never ends (C178_never_ends_exact, C178_srpc_sends_refuted) and an empty body reports success without moving anything (C178_no_error_means_taken_refuted). Proved exactly: which pairs come back for Decode and Encode, what a JSON codec takes and gives again, who refuses, and what the sRPC and HTTP handlers do with it."
  },
  {
   "property": "C179",
   "status": "partial",
   "theorems": [
    "C179_equal_exact",
    "C179_equal_laws",
    "C179_round_trip",
    "C179_read_equal_partial",
    "C179_texts",
    "C179_zeros_refuted",
    "C179_silent_refuted",
    "C179_hidden_refuted"
   ],
   "note": "Equality is exact; texts read back for every float. Refuted: NaN differs from what its text reads back, zeros are equal with two texts, bad texts are not refused. strconv is a parameter, with its promises as a hypothesis that an example library meets."
  },
  {
   "property": "C180",
   "status": "partial",
   "theorems": [
    "C180_round_trip_partial",
    "C180_minified",
    "C180_sign_refuted",
    "C180_special_refuted",
    "C180_stale_refuted",
    "C180_errors_exact"
   ],
   "note": "Partial: proved for floats that are not negative with the decoder of formatted JSON, and for every float with the minified decoder. Refuted for every negative float (the sign is lost in silence), for infinities and NaN (the next number in the text is read) and for a value with no end (the item read before is given again). strconv is a parameter with its promises as a hypothesis; a library that keeps them is exhibited."
  },
  {
   "property": "C181",
   "status": "partial",
   "theorems": [
    "C181_named",
    "C181_rest",
    "C181_made",
    "C181_identifier_exact",
    "C181_dash_refuted",
    "C181_distinct_partial",
    "C181_case_refuted",
    "C181_reuse_refuted"
   ],
   "note": "Partial: one name everywhere proved for every request, and what name is made from the words of a scope; the name made is an identifier exactly when the scope has no dash (refuted for every scope with one: a space is in the name); names differ for different lower-case scopes (refuted for the case of the first letter); refuted for a request used twice, which keeps the first page's name. Names are ASCII."
  },
  {
   "property": "C182",
   "status": "partial",
   "theorems": [
    "C182_skipped_partial",
    "C182_nested_refuted",
    "C182_comma_refuted",
    "C182_ends_refuted"
   ],
   "note": "Partial: proved for any number of other fields with any names, as long as no comma, bracket or brace is in their values. Refuted otherwise: after a value whose first end is a brace (an object inside) all later fields are lost in silence, after a string with a comma the next field is lost in silence, and on every text of three bytes or more without a quote and without an end the loop never ends. The loop itself is the client's: the repository only has its parts."
  },
  {
   "property": "C183",
   "status": "partial",
   "theorems": [
    "C183_text",
    "C183_round_trip_partial",
    "C183_both_layouts",
    "C183_fraction_exact",
    "C183_far_refuted",
    "C183_line_partial"
   ],
   "note": "Partial: proved for all instants of the years 1 to 9999, to the second (exactly those on a whole second come back unchanged), for both layouts of every date, and through the Set-Cookie line of a cookie without a same-site mode; refuted for every instant from year 10000 on: the expiry read is the start of year 1. Go's time package is modelled for these two layouts only: names in the spelling of the layout, zone GMT, full widths, no fraction; nothing is claimed of other texts it takes."
  }
 ]
}