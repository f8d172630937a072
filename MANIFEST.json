{"claims":[
{"property": "C01", "status": "proved", "theorems": ["C01_rendering_parses", "C01_print_is_rendering", "C01_print_parse", "C01_accepted_exactly", "C01_rejected_untouched", "C01_wire_roundtrip", "C01_short_dotted_refuted"], "note": "All renderings, every text; also shows that 6-character dotted texts are refused."},
{"property": "C02", "status": "proved", "theorems": ["C02_decode_ok_iff", "C02_decode_error", "C02_reencode", "C02_encode_layout", "C02_roundtrip", "C02_roundtrip_command", "C02_reused_receiver_refuted"], "note": "Decoding into a fresh variable. Reusing a variable keeps its old payload for standard messages (refuted theorem)."},
{"property": "C03", "status": "proved", "theorems": ["C03_accessors", "C03_every_byte_has_a_layout", "C03_build", "C03_build_refuses", "C03_set_ttl", "C03_set_max_ttl", "C03_ack_nak_exclusive", "C03_named_flags"], "note": "All flag bytes. The eight named flag values say what their names say."},
{"property": "C04", "status": "partial", "theorems": ["C04_equals_exactly", "C04_equal_is_duplicate", "C04_retransmission_is_duplicate", "C04_duplicate_iff_partial", "C04_duplicate_exactly", "C04_duplicate_refuted"], "note": "False as stated: message kind is not compared (refuted). Exact characterisation and same-kind case proved. C04_equals_exactly and C04_equal_is_duplicate are about Message.Equals, which only tests call."},
{"property": "C05", "status": "proved", "theorems": ["C05_encode_layout", "C05_decode", "C05_roundtrip", "C05_decode_ok_iff", "C05_reencode", "C05_equal_iff", "C05_flag_accessors", "C05_flag_setters", "C05_equal_availability_refuted", "C05_made_links", "C05_named_setters"], "note": "Equal ignores availability although its comment says otherwise (refuted theorem). Records made by ControllerLink and ResponderLink are given byte by byte."},
{"property": "C06", "status": "partial", "theorems": ["C06_text_refuted", "C06_text_roundtrip_partial", "C06_text_roundtrip_plain", "C06_made_links_are_plain", "C06_edited_lines"], "note": "False for records with other flag bits (refuted); normalised round trip for all records, exact one for plain records."},
{"property": "C07", "status": "proved", "theorems": ["C07_echo_decodes", "C07_message_echo_decodes", "C07_unsolicited_decodes", "C07_ack_nak"], "note": ""},
{"property": "C08", "status": "proved", "theorems": ["C08_session_read_back", "C08_decoding_determined", "C08_plain_noise_is_gap", "C08_chunking_irrelevant"], "note": "Any chunking, any noise in which no frame starts."},
{"property": "C09", "status": "proved", "theorems": ["C09_never_panics", "C09_packets_are_pieces", "C09_many_never_panic", "C09_error_only_at_end"], "note": ""},
{"property": "C10", "status": "partial", "theorems": ["C10_end_of_stream_refuted", "C10_returns_partial", "C10_hangs_exactly"], "note": "False for a stream ending in a lone start byte (refuted); exact set of hanging streams given."},
{"property": "C11", "status": "proved", "theorems": ["C11_queues_are_fifo", "C11_at_most_ten", "C11_nothing_lost_below_ten"], "note": "Refinement of every client history to a lossy ten-place queue, for all schedules of the reader goroutine."},
{"property": "C12", "status": "proved", "theorems": ["C12_sends_once", "C12_success_needs_ack", "C12_ack_gives_success", "C12_nak_gives_nak_error", "C12_no_crash", "C12_waiting_report_taken_for_reply_refuted"], "note": "All replies. Extra: the 'next packet' may be an older unsolicited report (refuted theorem shows the consequence)."},
{"property": "C13", "status": "partial", "theorems": ["C13_retry_trace", "C13_logging_is_harmless", "C13_bytes_on_the_line", "C13_modem_timeout_not_retried_refuted", "C13_plm_never_reports_bare_timeout"], "note": "Proved for every packet writer; the PLM wraps its time-out, so a modem time-out is never retried (refuted)."},
{"property": "C14", "status": "partial", "theorems": ["C14_reply_is_addressees_partial", "C14_success_has_message", "C14_first_match_taken", "C14_stale_reply_refuted"], "note": "Addressee, ACK/NAK and first-match proved; 'reply to this write' is false (stale acknowledgement, refuted)."},
{"property": "C15", "status": "partial", "theorems": ["C15_closed_port_crashes_refuted", "C15_closed_read_always_crashes", "C15_refused_write_partial"], "note": "False: nil dereference after the reader ended (refuted). Proved for refused writes."},
{"property": "C16", "status": "proved", "theorems": ["C16_links_exact", "C16_failures_reported", "C16_remembered", "C16_reads_again"], "note": "Exact for every database and interleaving on the ideal modem; trace theorem for every modem. C16_remembered and C16_reads_again: a database read not long ago would not be read again, but the time of reading is never noted."},
{"property": "C17", "status": "partial", "theorems": ["C17_replaces_partial", "C17_remembered_prefix", "C17_unread_database_refuted", "C17_failed_delete_refuted"], "note": "Proved when the database was read first; refuted when it was not, and for the remembered list after a failed delete."},
{"property": "C18", "status": "partial", "theorems": ["C18_repair_partial", "C18_deletes_garbled_refuted", "C18_otherwise"], "note": "False: the delete request is shifted by one byte (refuted). Exact repair request proved."},
{"property": "C19", "status": "proved", "theorems": ["C19_visits", "C19_each_once"], "note": ""},
{"property": "C20", "status": "proved", "theorems": ["C20_most_recent", "C20_never_crashes", "C20_size_zero_crashes"], "note": "Ring buffer refined to the list of everything that passed; all sizes >= 1. Message pointers are modelled as fresh numbers."},
{"property": "C21", "status": "proved", "theorems": ["C21_deliveries", "C21_never_crashes", "C21_drops_a_nak_refuted"], "note": "Exact w.r.t. the code's notion of duplicate; a refuted theorem shows a NAK lost because of C04."},
{"property": "C22", "status": "partial", "theorems": ["C22_bounded_retries_partial", "C22_reads_unchanged", "C22_modem_timeout_refuted"], "note": "Bounds and traces proved for every writer; the modem's time-outs are different error values and are not retried (refuted)."},
{"property": "C23", "status": "proved", "theorems": ["C23_sets_both", "C23_every_byte_has_a_layout", "C23_reads_unchanged"], "note": ""},
{"property": "C24", "status": "partial", "theorems": ["C24_checksum_partial", "C24_valid_exactly", "C24_full_payload_refuted", "C24_second_write_refuted", "C24_no_payload"], "note": "Exact checksum theorem for payloads whose last byte is free; a full 14-byte payload and a second write of the same message are refuted."},
{"property": "C25", "status": "proved", "theorems": ["C25_addressed", "C25_reads", "C25_returned_command", "C25_crash_only_without_ack", "C25_modem_no_crash", "C25_nak_reasons", "C25_nak_reasons_only", "C25_reason_lost_refuted"], "note": "For every underlying writer; a crash needs a writer that returns neither acknowledgement nor error, which the modem model never does. errLookup gives exactly the documented reason of a refusal, but nothing calls it: the caller is told only that the device refused (refuted: the reason reaches the caller)."},
{"property": "C26", "status": "partial", "theorems": ["C26_reads_exactly", "C26_lost_request", "C26_cached", "C26_foreign_record_refuted", "C26_repeated_ack_refuted", "C26_request_crash_refuted"], "note": "Exact for every memory content, repetition and interleaved traffic that does not carry the all-link command byte; foreign records, a repeated acknowledgement and foreign requests are refuted."},
{"property": "C27", "status": "partial", "theorems": ["C27_mirror_partial", "C27_mirror_blank", "C27_prefix", "C27_own_record_only", "C27_stale_refuted", "C27_negative_index_refuted"], "note": "Exact mirror for every history that does not append in front of old records, prefix for every history; old records coming back is refuted."},
{"property": "C28", "status": "partial", "theorems": ["C28_write_links_partial", "C28_fresh_handle", "C28_exact", "C28_shorter_list_refuted"], "note": "Exact outcome for every previous database; equals the given list unless the cache holds more records (refuted)."},
{"property": "C29", "status": "partial", "theorems": ["C29_update_partial", "C29_damage_bounded", "C29_known_single", "C29_in_place_refuted", "C29_stale_index_refuted"], "note": "Exact when known links come with unchanged flags. For all other lists (no last-record claim) new links are stored and only the first records can be damaged; a known link with other flags that comes alone always overwrites the first record. In-place update of flags and a stale index are refuted."},
{"property": "C30", "status": "partial", "theorems": ["C30_exact", "C30_empty_partial", "C30_dropped_refuted", "C30_free_record_refuted"], "note": "Exact outcome for every database: nothing is lost, but as many new links are dropped as there are records (refuted)."},
{"property": "C31", "status": "partial", "theorems": ["C31_whole_list", "C31_single_records", "C31_device_keeps", "C31_device_partial", "C31_lost_error_refuted", "C31_cut_short_refuted", "C31_stale_refuted"], "note": "Both kinds of devices: exact traces; on an ideal device in-use records stay whatever is lost, and all links are there when nothing is lost and the memory above the mark is blank. Refuted: an append error overwritten by a later success, a new link without bit 1 cutting the database short, appending in front of old memory."},
{"property": "C32", "status": "partial", "theorems": ["C32_whole_list", "C32_single_partial", "C32_device_partial", "C32_silent_failure_refuted"], "note": "Exactly the described records are written free (trace, and on an ideal device). Refuted: for devices that write single records a failed write is not reported."},
{"property": "C33", "status": "partial", "theorems": ["C33_force_link", "C33_unlink", "C33_link_leaves_mode", "C33_cross_link_leaves_mode", "C33_cross_link_all_leaves_mode", "C33_already_linked", "C33_not_linked", "C33_half_linked", "C33_lost_ack_refuted"], "note": "Exact traces for every environment; both devices are told to leave after either entered; the four cases of Link. Refuted: a controller that entered the mode but whose acknowledgement was lost is not told to leave."},
{"property": "C34", "status": "partial", "theorems": ["C34_every_group", "C34_report_partial", "C34_lost_error_refuted"], "note": "Every record of the responder's address is tried, the result is that of the last; no-error means success for at most one group. Refuted for several groups."},
{"property": "C35", "status": "proved", "theorems": ["C35_first_record", "C35_read_error", "C35_duplicates"], "note": ""},
{"property": "C36", "status": "partial", "theorems": ["C36_substitution", "C36_no_leak_partial", "C36_random_leak_refuted", "C36_random_merge_refuted"], "note": "One substitution function, replacements in order of first appearance, then random ones. Refuted: a random address may equal an original one, and two random ones may coincide."},
{"property": "C37", "status": "partial", "theorems": ["C37_first_record_partial", "C37_sound", "C37_counterpart", "C37_second_group_refuted", "C37_free_counterpart_refuted", "C37_fix_loses_refuted", "C37_fix", "C37_exact"], "note": "Sound; complete for the first in-use record of an address. Refuted: further groups of the same address, free records taken as counterparts; fixCrosslinks drops additions. C37_fix says exactly what fixCrosslinks makes of the records."},
{"property": "C38", "status": "partial", "theorems": ["C38_exact", "C38_numeric", "C38_strict_partial_order", "C38_strict_weak", "C38_wide_address_refuted"], "note": "Strict partial order for all addresses and exact characterisation; strict weak order and numeric order for 24-bit addresses. For wider uint32 values it is not a weak order (refuted)."},
{"property": "C39", "status": "partial", "theorems": ["C39_get_last_put_partial", "C39_zero_info_refuted", "C39_get_found", "C39_get_absent", "C39_needs_saving_sound", "C39_filter", "C39_put_keys", "C39_after_load_refuted"], "note": "Proved for every history of puts, gets, filters and saves, except that a put of the all-zero DeviceInfo is dropped (refuted) and that a failed load changes the contents without raising the flag (refuted)."},
{"property": "C40", "status": "partial", "theorems": ["C40_load_saved_partial", "C40_puts_ok", "C40_wide_address_refuted", "C40_reader_error", "C40_bad_document_empties", "C40_failed_load_refuted", "C40_load_replaces", "C40_null_document_refuted", "C40_file_roundtrip", "C40_filedb_put_sync", "C40_filedb_put_stores", "C40_member_names", "C40_file_text"], "note": "Round trip proved on the actual JSON text for every database with three-byte addresses, in memory and through the file. False for wider addresses and for failed loads, which empty the database (refuted); a null document makes the next put panic. The text of the file is given member by member: keys in order, names, addresses, categories and numbers. C40_member_names says which names of members are taken for which."},
{"property": "C41", "status": "partial", "theorems": ["C41_crash_states_partial", "C41_crash_empties", "C41_crash_safe_refuted", "C41_torn_file_detected", "C41_steps_are_savedb", "C41_failed_save_stays_dirty"], "note": "Refuted for every database and every non-empty old file: SaveDB truncates first. What holds: the file is always a prefix of the new document or unchanged, and a torn file never loads (proved on the JSON text)."},
{"property": "C42", "status": "partial", "theorems": ["C42_uses_stored_info", "C42_new_device_filtered_partial", "C42_known_device_unfiltered", "C42_filedb_unfiltered", "C42_filters_refuted", "C42_filedb_filters_refuted", "C42_stores_only_after_success", "C42_failed_open_stores_nothing"], "note": "Stored information is used and only complete successful queries are stored (proved). Filters are dropped for known devices and always by the file database (refuted)."},
{"property": "C43", "status": "partial", "theorems": ["C43_engine_version", "C43_open_partial", "C43_foreign_announcement_refuted", "C43_handle", "C43_modem_no_crash", "C43_product_data", "C43_product_data_reported", "C43_foreign_product_data_refuted", "C43_product_encoding", "C43_product_encoding_refuted"], "note": "Engine version and the returned handle are exact for every writer; an announcement from another device is accepted (refuted). Product data is exact in the same way, in both directions, and likewise accepted from another device (refuted). Encoded product data is read back only when filled up to fourteen bytes (alone: refuted)."},
{"property": "C44", "status": "partial", "theorems": ["C44_set_mode", "C44_set_fan_speed", "C44_set_unit", "C44_single_speed_refuted", "C44_status_message", "C44_setpoints_partial", "C44_setpoints_any", "C44_setpoints_refuted", "C44_setpoint_zone_refuted", "C44_zone_requests_partial", "C44_up_is_down_refuted", "C44_questions", "C44_zone_info", "C44_info_set0", "C44_info_set1", "C44_info_other", "C44_checksum_as_temperature_refuted", "C44_get_info", "C44_same_set_twice_refuted", "C44_same_set_twice", "C44_status", "C44_status_failed", "C44_flag_bits", "C44_time_format_refuted", "C44_time_format_always_zero"], "note": "Modes, speeds, units and questions proved for every argument; setpoints and changes are twice the value up to 127, above that they wrap (refuted). Also refuted: zone of setpoints ignored, up/down commands inconsistent between zone and thermostat requests, time format always 0, checksum byte read as temperature, repeated data set not noticed. Status is exact: what was asked, in which order, and which answer each field holds, with and without an error."},
{"property": "C45", "status": "partial", "theorems": ["C45_fixed_requests", "C45_flag_requests", "C45_level_requests", "C45_level_any", "C45_level_range_refuted", "C45_on_at_ramp", "C45_on_at_ramp_any", "C45_on_at_ramp_level_refuted", "C45_off_at_ramp", "C45_off_at_ramp_any", "C45_status", "C45_operating_flags", "C45_flag_bits", "C45_dimmer_config", "C45_switch_config", "C45_no_config_on_error", "C45_config_from_other_device_refuted", "C45_dimmer_config_round_trip", "C45_switch_config_round_trip", "C45_wide_config_refuted", "C45_config_decode"], "note": "Every request proved for every transport, firmware and argument in range; out-of-range levels wrap and a ramp level is only four bits (refuted). Configurations round-trip for byte fields; the answer may come from another device (refuted). C45_no_config_on_error: a failed query gives the zero configuration."},
{"property": "C46", "status": "proved", "theorems": ["C46_set", "C46_set_refused", "C46_number_unique", "C46_compose", "C46_decompose", "C46_sub_command", "C46_matches", "C46_word_determined"], "note": " C46_set and C46_set_refused (Props_CmdSet.v) are about Command.Set: a decimal number replaces the second command byte, anything else is refused."},
{"property": "C47", "status": "proved", "theorems": ["C47_flag_positions", "C47_flags_independent", "C47_wire_roundtrip", "C47_set_config_bytes", "C47_config_read"], "note": ""},
{"property": "C48", "status": "partial", "theorems": ["C48_word_denotes_partial", "C48_high_bytes_refuted", "C48_high_bytes_always_refused", "C48_accepted_exactly", "C48_other_texts_refuted", "C48_rejected_untouched"], "note": "Command words with both bytes below 128 proved for every rendering; bytes are parsed as signed numbers, so 128 and above are refused (refuted, and proved for all of them). The accepted texts are characterised exactly; signs and a dot anywhere are accepted (refuted)."},
{"property": "C49", "status": "partial", "theorems": ["C49_line_is_shown_partial", "C49_modem_direction", "C49_refused_echo_refuted", "C49_host_message_lost_refuted", "C49_host_message_lost_always", "C49_loops_never_panic", "C49_order_kept", "C49_everything_arrives", "C49_bad_frame_stalls_refuted"], "note": "For every pair of sessions and every schedule of the three goroutines: proved for host commands 0x61-0x64 and positively acknowledged echoes. Refuted: host commands without ack are framed wrongly so the following message is swallowed, refused echoes are shown again, one undecodable frame stalls the line."},
{"property": "C50", "status": "proved", "theorems": ["C50_first_match", "C50_rest_remains", "C50_no_match", "C50_and", "C50_or", "C50_not", "C50_elementary", "C50_match_ack"], "note": ""},
{"property": "C51", "status": "proved", "theorems": ["C51_encode", "C51_decode", "C51_roundtrip", "C51_accepts", "C51_marshal_crash", "C51_address_wraps"], "note": "Read requests carry the count; write requests always say 8 and responses 0, as the code does."},
{"property": "C52", "status": "proved", "theorems": ["C52_info_layout", "C52_info_no_crash", "C52_info_correct", "C52_known_address_not_asked", "C52_address_learnt", "C52_address_correct", "C52_reset_restores_timeout", "C52_info_round_trip", "C52_info_bytes"], "note": "Info cannot crash on reader-made replies; address and reset for all schedules. Info goes to bytes and back."},
{"property": "C53", "status": "partial", "theorems": ["C53_linking_frames", "C53_manage_frames", "C53_manage_roundtrip", "C53_manage_short", "C53_empty_crash_refuted", "C53_start_roundtrip", "C53_start_short"], "note": "Frames and round trips proved; decoding an empty manage-record frame crashes (refuted)."},
{"property": "C54", "status": "partial", "theorems": ["C54_data_read_in_order", "C54_data_first_bad_stops", "C54_data_garbage_refuted", "C54_addresses_read_in_order", "C54_addresses_first_bad_stops", "C54_addresses_print_parse", "C54_group", "C54_group_otherwise", "C54_group_garbage_refuted"], "note": "Exact acceptance and partial results proved for every list; trailing garbage after the digits of a data byte is accepted (refuted). A group given as a word has the same gap (refuted); exactly which words are taken is proved."},
{"property": "C55", "status": "partial", "theorems": ["C55_link_trace", "C55_link_single_partial", "C55_only_first_linked_refuted", "C55_failure_hidden_refuted", "C55_unlink_inert", "C55_unlink_refuted", "C55_unlink_both_sides", "C55_reset_only_if_asked", "C55_open_quiet", "C55_open_links", "C55_open_success_without_link_refuted", "C55_flag", "C55_flag_written"], "note": "The flag commands are right for every flag, configuration and modem behaviour. Linking is characterised exactly: devices that do not open are skipped and not reported, only the first device that opens is linked (refuted: the others are never contacted; a device that does not answer is reported as success). Unlink does nothing for all arguments. Opening with the question answered yes may report success without a link. If the addresses reached unlink, success would mean both sides were asked (C55_unlink_both_sides). Reset is proved."},
{"property": "C56", "status": "partial", "theorems": ["C56_unchanged_writes_nothing", "C56_writes_the_edited_records", "C56_bad_line_writes_nothing", "C56_one_line_partial", "C56_untouched_record_refuted", "C56_partial_read_refuted"], "note": "Unchanged text, a failed editor or an invalid line write nothing; otherwise exactly the records of the text are written. Changing one line changes only that record if the records have no flag bits other than 7, 6 and 1; refuted otherwise (the text form drops them), and refuted for a failed read (its error is ignored and the part that was read replaces the database)."},
{"property": "C57", "status": "partial", "theorems": ["C57_transparent", "C57_lines", "C57_never_crashes", "C57_nothing_read_crashes_refuted", "C57_ack_names_its_command", "C57_overheard_ack_refuted"], "note": "Over any writer below: results and requests are unchanged, the lines are exactly those described by an independent relation, and nothing crashes if every read gives a message or an error (refuted otherwise). The acknowledgement of a write names the written command; an overheard acknowledgement may name another controller's command (refuted). A line is modelled as the values printed, not as text."},
{"property": "C58", "status": "partial", "theorems": ["C58_monitor_mode", "C58_no_monitor_mode", "C58_loop", "C58_never_ends", "C58_one_bad_message_ends_it_refuted", "C58_closed_port_crashes_refuted"], "note": "Configuration and loop are characterised for every modem; over the modem model it uses up any number of reads without ending or crashing while the port is open and packets are what they claim. Refuted: one standard message whose flags claim to be extended ends the monitor, and a closed port crashes it."},
{"property": "C59", "status": "partial", "theorems": ["C59_invalid_untouched", "C59_records", "C59_no_address_left", "C59_structure_kept", "C59_comments", "C59_again", "C59_crash_states", "C59_crash_loses_all", "C59_comment_leak_refuted", "C59_indented_comment_lost_refuted"], "note": "Proved at the level of the file's characters, through the reader and the writer of the text form: untouched if invalid, same records with one substitution, comments kept in order, nothing changes but addresses on a second run, structure kept when draws differ. Refuted: an address in a comment survives, an indented comment is lost, and for every valid file a crash right after the truncation leaves an empty file that reads as a valid empty database. ASCII text only."},
{"property": "C60", "status": "partial", "theorems": ["C60_linking_mode_pause", "C60_propagation_delay", "C60_delay_monotone", "C60_delay_255_refuted", "C60_write_waits", "C60_pause_always_whole", "C60_waits_too_long_refuted", "C60_first_unpaused", "C60_interface_never_pauses", "C60_interface_pauses_refuted", "C60_read", "C60_short_message_crashes_refuted", "C60_read_with_timeout", "C60_read_with_timeout_some_result", "C60_closed_channel_refuted"], "note": "The delay is proved for all hop counts below 255 (255 wraps to no delay: refuted). Over any clock that works Write never sends too early; it always waits the whole delay, however long ago the packet was read (refuted: no longer than needed). Used through the packetWriter interface it never pauses, because its method is not called WritePacket (universal, and refuted). Short messages crash the read; a closed channel gives neither message nor error (refuted). Time.Add and Sub are modelled without overflow; nothing in the repository constructs the pausing writer. The pause in linking mode is half a second more than the delay of fourteen bytes with three hops."},
{"property": "C61", "status": "proved", "theorems": ["C61_command_text", "C61_message_text", "C61_wire_text", "C61_text_unique_refuted"], "note": "Proved for all messages (iff). C61_text_unique_refuted settles the unconditional claim, which the statement does not make: the old and new Light On/Off At Ramp commands have the same name, so different frames read alike."},
{"property": "C62", "status": "partial", "theorems": ["C62_modem_names", "C62_thermostat_names", "C62_packet_text", "C62_packet_hex_refuted", "C62_config_text", "C62_equipment_text", "C62_record_text", "C62_request_text", "C62_device_text", "C62_thermostat_text", "C62_thermostat_address_refuted", "C62_dump", "C62_listing_order", "C62_listing_exists", "C62_listing_contents", "C62_listing_stable", "C62_listing_ambiguous_refuted", "C62_description_lines", "C62_packet_short", "C62_description"], "note": "Refuted parts: every thermostat prints the address 00.00.00 (an info field that nothing sets); the hexadecimal form of a packet shows an answer byte that unsolicited packets do not have; a database with two records of one address and group has several possible listings. The short text of a packet tells the command and the ending, the description of a device its address, category, firmware and engine. The lines of that description are given exactly."},
{"property": "C63", "status": "partial", "theorems": ["C63_wrong_kind", "C63_not_opened", "C63_dimmer_acts", "C63_device_acts", "C63_thermostat_acts", "C63_dimmer_status", "C63_switch_status", "C63_switch_crashes", "C63_switch_acts_refuted", "C63_dimmer_config_error", "C63_dimmer_config_error_refuted", "C63_thermostat_status_first", "C63_status_changes_nothing_refuted", "C63_just_linked", "C63_just_linked_refuted", "C63_version_text", "C63_version_refuted"], "note": "Proved for device, dimmer and thermostat actions and for both status reports. Refuted with witnesses: every switch action crashes before sending (C63_switch_crashes is the universal form); dimmer config loses the error of the configuration request; thermostat status first changes the unit to Fahrenheit; a device linked on the way is then refused as being of the wrong kind; device version prints the firmware and not the engine version. Assumes the command-line library calls the command's callback, then the subcommand's, and stops at the first error."},
{"property": "C64", "status": "partial", "theorems": ["C64_device_info", "C64_device_info_refuted", "C64_dimmer_config", "C64_thermostat_report", "C64_modem_info_errors", "C64_modem_info", "C64_log_flags", "C64_quiet_refuted", "C64_walk_lines", "C64_walk_stores"], "note": "Reports, modem information and the walk are proved. Refuted: thermostats all show the address 00.00.00 in device info; the quiet flag switches debug logging on and silences nothing (C64_log_flags is the universal form). The database part of the walk excludes the address 00.00.00, and assumes reading a device's links leaves the database alone. Two iterations of the link listing are compared up to C62. Time.Sleep between devices is not modelled."},
{"property": "C65", "status": "partial", "theorems": ["C65_only_the_named_device", "C65_opening_known", "C65_dimmer_bytes", "C65_device_bytes", "C65_thermostat_bytes", "C65_dimmer_answered", "C65_device_answered", "C65_one_frame", "C65_own_addresses_kept", "C65_wrong_file_refuted"], "note": "Proved for the whole path from the command to p_sent, the frames given to the serial port, for devices stored under their own address (kept by every Put; C65_one_frame: the specification of a frame leaves one frame per command and engine; C65_wrong_file_refuted shows a database file for which the claim fails without it), and when the user is not asked to link or declines. The acknowledgement may be one of an earlier command (C14). The reader goroutine is the schedule of Plm.v."},
{"property": "C66", "status": "proved", "theorems": ["C66_line", "C66_every_device_asked", "C66_stores"], "note": "Proved from the program to p_sent, the frames given to the serial port, for devices stored under their own address (kept by every Put, C65) and packets whose payload is bytes. C66_every_device_asked assumes at least one record; the walk may still crash on a modem that closes (C18, C65). C66_stores excludes the address 00.00.00."},
{"property": "C67", "status": "proved", "theorems": ["C67_link", "C67_cross_link_all", "C67_cross_link_all_linked", "C67_unlink", "C67_unlink_all", "C67_unlink_all_clean", "C67_unlink_all_half_refuted", "C67_tool_links", "C67_modem_link", "C67_modem_link_refuted"], "note": "The network is an environment written in NetSpec.v, not code: no device fails or stays silent (failing devices are C33 and C34), and how records are laid out is left open (stores_well, shown meetable by plain_well). What the last two sentences of the statement say that Link and UnlinkAll do not achieve is shown by C67_modem_link_refuted, with the exact condition in C67_modem_link, and C67_unlink_all_half_refuted. The modem is taken as a party without single-record writes whose record update is not implemented."},
{"property": "C68", "status": "proved", "theorems": ["C68_link", "C68_any_outcome", "C68_agreed", "C68_answered", "C68_told_to_stop_refuted", "C68_device_told_to_stop_refuted"], "note": "Success with neither controller nor responder asked for means nothing is linked. The last sentence is the clause lost_start of C68_link; C68_told_to_stop_refuted and C68_device_told_to_stop_refuted are two such runs. Link databases of modem and device are taken as new on every use; linking does not look at them. With the debug log on and the modem's address unknown the modem is asked for it in between; see C84."},
{"property": "C69", "status": "proved", "theorems": ["C69_packets_are_the_bytes", "C69_pieces_do_not_matter", "C69_lost_port", "C69_success_was_received", "C69_answered", "C69_noise_refuted", "C69_busy_line", "C69_other_packet_refuted", "C69_crowded_line_refuted"], "note": "C69_noise_refuted shows the last sentence. A goroutine blocked in the middle of a packet is modelled as one that starts that packet again when more bytes are there; it reads the same bytes and comes to the same packet. Bytes that are to arrive while a write waits are counted as received but lost, since a write does not wait in this model; C69_answered asks that there be none. The time window in C69_success_was_received is that of the last byte of each acknowledgement. With other traffic: messages that are no answer, up to the length of the queue, do not change the outcome and those after the answer are kept; one packet of another kind before the modem's word, or ten messages before the answer, make the command fail though both acknowledgements came (refuted)."},
{"property": "C70", "status": "proved", "theorems": ["C70_alone", "C70_every_schedule", "C70_delivered_once", "C70_line", "C70_success", "C70_count", "C70_crossed_refuted", "C70_stolen_refuted"], "note": "C70_alone and C70_every_schedule tie the interleaving model to Plm.v and PlmLinkdb.v in both directions. C70_crossed_refuted and C70_stolen_refuted prove the last sentence. A goroutine makes one call here; one that makes several is several goroutines of which the next starts when the one before is done, which is one of the interleavings. Accesses are indivisible and seen in one order. The number of turns of a loop over the modem's records or of a wait for a message is bounded by a number in the call; C70_alone asks of WriteLinks that the bound is beyond the records remembered (enough). C70_success and C70_count ask that the modem may transmit at least once (0 <= retries; New sets 3)."},
{"property": "C71", "status": "proved", "theorems": ["C71_values", "C71_no_reset", "C71_one_reset", "C71_overlap_refuted"], "note": "C71_overlap_refuted proves the last sentence. A Reset that crashes (the port is lost while it waits) leaves the twenty seconds, as it does alone; C71_one_reset is about one that returns."},
{"property": "C72", "status": "proved", "theorems": ["C72_report", "C72_told_apart", "C72_checksum_shown_refuted"], "note": "C72_checksum_shown_refuted proves the last sentence. The float arithmetic is F32.v: rationals rounded to 24 bits, to nearest even, after each operation, as Go computes this expression; exponents never leave the normal range here. That %.01f rounds the exact value is taken from strconv."},
{"property": "C73", "status": "proved", "theorems": ["C73_modem_text", "C73_modem_told", "C73_info_text", "C73_request_text", "C73_linking_text", "C73_payload_text", "C73_payload_told"], "note": "The record part uses the comparison of C62. Verbs of fmt are modelled in GoText.v."},
{"property": "C74", "status": "proved", "theorems": ["C74_line_text", "C74_layout", "C74_output", "C74_shown_lines", "C74_same_output", "C74_acks", "C74_nak_not_shown_refuted"], "note": "C74_nak_not_shown_refuted proves the last sentence. The text of an error value is a parameter: any texts without a newline."},
{"property": "C75", "status": "proved", "theorems": ["C75_write_links", "C75_add_links", "C75_update_links", "C75_same_list_refuted", "C75_fix", "C75_fix_shared_refuted"], "note": "C75_same_list_refuted: the list given to UpdateLinks is not what the caller wrote down afterwards. C75_fix_shared_refuted: fixCrosslinks with spare capacity and a free record."},
{"property": "C76", "status": "proved", "theorems": ["C76_genuine", "C76_readers", "C76_one_reader", "C76_one_writer", "C76_split_refuted", "C76_blank_refuted", "C76_cut_refuted", "C76_crash_refuted", "C76_lost_refuted"], "note": "The five _refuted theorems prove the last sentence, with the ideal modem of PlmLinkdbSpec.v answering every frame at once (serves). The others ask that a failed write to the port does not report the package's own ErrNak. C76_one_reader and C76_one_writer say what one goroutine gets, not that it gets it: C76_cut_refuted shows one reader misled."},
{"property": "C77", "status": "proved", "theorems": ["C77_values", "C77_known", "C77_twice_refuted", "C77_zero_refuted"], "note": "C77_twice_refuted and C77_zero_refuted prove the last sentence. C77_values asks that a failed write to the port does not report the package's own ErrNak."},
{"property": "C78", "status": "partial", "theorems": ["C78_as_meant_refuted", "C78_read_as_meant_partial", "C78_printed_is_meant", "C78_accepted_exactly", "C78_refused"], "note": "C78_as_meant_refuted: data written 0x1c is accepted and read as 0. C78_read_as_meant_partial lacks the lines accepted though not meant; C78_accepted_exactly says exactly which lines are accepted and as what, C78_refused what a refusal means."},
{"property": "C79", "status": "proved", "theorems": ["C79_new", "C79_chosen_one", "C79_copy", "C79_uncopied", "C79_tool", "C79_waits", "C79_delay_ignored"], "note": "PlmObj.v has modem objects as records with the port and channels shared; the plain modem is that of Plm.v and PlmLinkdb.v, so what the other claims prove of it holds of the tool's modem (C79_tool). One goroutine beside the reader uses the copy, as in the tool. The documentation of the option WriteDelay (a delay after writing a command) is not what the code does: C79_delay_ignored."},
{"property": "C80", "status": "proved", "theorems": ["C80_same", "C80_objects", "C80_tools", "C80_retry_snoop_needed", "C80_no_source_needed"], "note": "MemFilters.v has the filters over a memory of message objects; C80_same relates them to the filters over values of Filters.v and UtilSnoop.v, and so justifies the simplification made there. The payload of a message is not shared byte by byte: no filter changes a payload. C80_retry_snoop_needed and C80_no_source_needed show the two conditions are needed."},
{"property": "C81", "status": "partial", "theorems": ["C81_devcats", "C81_order_unique", "C81_names_kept", "C81_names_refuted", "C81_table_unique", "C81_rows_unique", "C81_bad_row", "C81_uneven_row", "C81_short_row", "C81_failed_run_refuted", "C81_devcats_outcomes", "C81_whole_text_refuted", "C81_two_files_refuted", "C81_commands", "C81_docs", "C81_repo_devcats", "C81_repo_commands", "C81_all_commands_refuted", "C81_run_commands"], "note": "Autogen.v models the program: the csv reader of the Go library with its default settings, strconv.ParseInt with base 0, the templates written out, HTML escaping of text nodes as html/template does it, the steps of writing a file. go/format is an arbitrary partial function on texts; creating and writing a file an arbitrary outcome for each name. AutogenSpec.v says independently how a table of fields is written as csv, how a number is written, and how a text is read back as a table; C81_table_unique and C81_rows_unique show that these relations leave no choice. Partial because of C81_names_refuted, C81_failed_run_refuted, C81_whole_text_refuted, C81_two_files_refuted and C81_all_commands_refuted; C81_devcats and C81_devcats_outcomes say what holds instead. Rows whose names contain a backslash, a newline or a byte order mark are outside C81_devcats."},
{"property": "C82", "status": "partial", "theorems": ["C82_saves_apart_partial", "C82_nothing_lost", "C82_one_after_another", "C82_lost_update_refuted", "C82_newest_save_or_unreadable", "C82_two_saves_refuted", "C82_pieces_refuted", "C82_start_while_saving", "C82_unreadable_forever", "C82_first_use", "C82_first_use_refuted", "C82_killed_while_saving", "C82_events_are_put", "C82_pieces_alone"], "note": "SharedDb.v runs the database model of C39-C42 in any number of numbered runs over one file, each save split into the opening (which empties the file) and writes at the writer's own offset. C82_events_are_put ties the events of one undisturbed put to fileDB.Put. Loading is one step; failures of file operations other than being killed are in C40 and C41. Partial because of C82_lost_update_refuted, C82_two_saves_refuted, C82_pieces_refuted and C82_first_use_refuted; C82_saves_apart_partial says exactly what the file knows when saves do not overlap, C82_newest_save_or_unreadable what it can be in every interleaving of whole writes, and C82_pieces_alone what an undisturbed save in pieces does."},
{"property": "C83", "status": "partial", "theorems": ["C83_undisturbed", "C83_no_file", "C83_killed_loading", "C83_bytes_of_saves", "C83_without_loads", "C83_file_newest_or_unreadable", "C83_whole_text_read", "C83_emptied_refused", "C83_torn_refuted", "C83_torn_for_good_refuted"], "note": "SharedLoad.v adds opening for loading and single reads to the events of SharedDb.v (C82); C83_without_loads says that the old events mean the same. Partial because of C83_torn_refuted, C83_torn_for_good_refuted and C83_emptied_refused; C83_undisturbed, C83_whole_text_read, C83_bytes_of_saves and C83_file_newest_or_unreadable say what holds for all interleavings. Bytes and characters are the same here because the saved texts are ASCII."},
{"property": "C84", "status": "partial", "theorems": ["C84_link", "C84_same", "C84_any_outcome", "C84_agreed", "C84_unlink_modem", "C84_unlink_device", "C84_log_unseen_refuted", "C84_log_harmless_refuted"], "note": "DebugLog.v adds the effect of putting a Linkable into text to ForceLink, Unlink and the link command. Partial because of C84_log_unseen_refuted and C84_log_harmless_refuted; C84_same, C84_link, C84_any_outcome, C84_agreed, C84_unlink_modem and C84_unlink_device say what holds. With the log off, the last two are also what unlinking the modem from a device puts on the line. Whether discarded log lines are put into text is up to the version of package log and is the parameter `on`."},
{"property": "C85", "status": "partial", "theorems": ["C85_quiet", "C85_commands", "C85_link", "C85_walk", "C85_modem_links", "C85_commands_always_end_refuted", "C85_listing_always_ends_refuted", "C85_library", "C85_library_always_ends_refuted", "C85_edit", "C85_modem_commands", "C85_unlink"], "note": "In the model a loop without a limit of its own is given a number of turns and reports when they are used up; C85 says that for a bounded number of packets that report is never made, so it also shows that the number of turns given in the other claims does not matter once it is large enough. Partial because of C85_commands_always_end_refuted, C85_listing_always_ends_refuted and C85_library_always_ends_refuted; C85_quiet, C85_commands, C85_link, C85_walk, C85_modem_links, C85_library, C85_edit, C85_modem_commands and C85_unlink say what holds. Not covered: `ic monitor` and isnoop, which are meant to go on, and the time a user or their editor takes to answer."},
{"property": "C86", "status": "proved", "theorems": ["C86_command", "C86_message", "C86_packet", "C86_config", "C86_modem", "C86_record", "C86_request", "C86_listing", "C86_edited", "C86_dump", "C86_device_info", "C86_switch_config", "C86_dimmer_config", "C86_thermostat", "C86_modem_info", "C86_layout_exact"], "note": "Layouts are lists of words, two-digit bytes, numbers, addresses and line ends (TextsSpec.v); C86_layout_exact: a layout has one text only. Command names are those of the table that C81 ties to the repository's own list. The report of a thermostat's whole state is C72, the lines of the snooper C74."},
{"property": "C87", "status": "proved", "theorems": ["C87_message", "C87_commands", "C87_link", "C87_modem", "C87_bounded_waits_refuted", "C87_bounded_frames_refuted", "C87_library", "C87_walk", "C87_listed", "C87_modem_write"], "note": "The cost is read off the record of frames and of time-outs waits were begun with, both kept by the model of the modem. The limits are upper ones: C87_message_case reaches the number of frames of a message. The pauses of the writer (C60) and the twenty seconds of Reset (C71) are not counted here."},
{"property": "C88", "status": "proved", "theorems": ["C88_device", "C88_open", "C88_links", "C88_library", "C88_filters", "C88_modem", "C88_last_try", "C88_update_refuted", "C88_library_refuted", "C88_commands", "C88_dimmer_config", "C88_linking_commands", "C88_commands_refuted", "C88_linking_commands_refuted"], "note": "Failures are noted beside the world by a wrapper around any message writer, packet writer or device; the programs themselves are the ones of the model. A call that crashes or does not end returns nothing and is not judged (C85 and the claims on crashes). The theorems named refuted show that each failure listed as kept does occur and that UpdateLinks may name another error."},
{"property": "C89", "status": "proved", "theorems": ["C89_sent_again", "C89_hops_again", "C89_read_again", "C89_update_known", "C89_update_again_refuted", "C89_update_new", "C89_update_twice", "C89_saved_again", "C89_stored_again", "C89_add_again_refuted", "C89_fixed_again", "C89_fixed_again_refuted", "C89_removed_again"], "note": "The theorems named refuted, and C89_update_twice for every connection, are the witnesses for what is not the same when done twice. The message is changed in place by BasicDevice.Write, which is why the caller's second write starts from the first one's bytes. Removing is stated of a device that keeps a list of records."},
{"property": "C90", "status": "proved", "theorems": ["C90_text_is_contents", "C90_file_in_any_order", "C90_stored_in_any_order", "C90_same_address_refuted", "C90_conditions", "C90_hops_and_retries", "C90_both_tools", "C90_duplicates_and_retries_refuted", "C90_retries_multiply"], "note": "The numbers of tries count as at least one, which is what the retrying filter does. Addresses above three bytes are written as their low three bytes (C40_wide_address_refuted) and are left out by db_ok."},
{"property": "C91", "status": "proved", "theorems": ["C91_lights", "C91_thermostats", "C91_linking", "C91_bounds_refuted"], "note": "Arguments out of range are cut to a byte, so a level of 256 is a level of 0 (C91_bounds_refuted). The zone of a set point is not sent (C44_setpoint_zone_refuted). Reading requests (status, configuration) are not included: they also wait for answers."}
]}
