{
 "C01": {
  "status": "proved",
  "note": "All renderings, every text; also shows that 6-character dotted texts are refused."
 },
 "C02": {
  "status": "proved",
  "note": "Decoding into a fresh variable. Reusing a variable keeps its old payload for standard messages (refuted theorem)."
 },
 "C03": {
  "note": "All flag bytes. The eight named flag values say what their names say."
 },
 "C04": {
  "status": "partial",
  "note": "False as stated: message kind is not compared (refuted). Exact characterisation and same-kind case proved. C04_equals_exactly and C04_equal_is_duplicate are about Message.Equals, which only tests call."
 },
 "C05": {
  "status": "proved",
  "note": "Equal ignores availability although its comment says otherwise (refuted theorem). Records made by ControllerLink and ResponderLink are given byte by byte."
 },
 "C06": {
  "status": "partial",
  "note": "False for records with other flag bits (refuted); normalised round trip for all records, exact one for plain records."
 },
 "C07": {
  "note": ""
 },
 "C08": {
  "note": "Any chunking, any noise in which no frame starts."
 },
 "C09": {
  "note": ""
 },
 "C10": {
  "status": "partial",
  "note": "False for a stream ending in a lone start byte (refuted); exact set of hanging streams given."
 },
 "C46": {
  "note": " C46_set and C46_set_refused (Props_CmdSet.v) are about Command.Set: a decimal number replaces the second command byte, anything else is refused."
 },
 "C11": {
  "note": "Refinement of every client history to a lossy ten-place queue, for all schedules of the reader goroutine."
 },
 "C12": {
  "status": "proved",
  "note": "All replies. Extra: the 'next packet' may be an older unsolicited report (refuted theorem shows the consequence)."
 },
 "C13": {
  "status": "partial",
  "note": "Proved for every packet writer; the PLM wraps its time-out, so a modem time-out is never retried (refuted)."
 },
 "C14": {
  "status": "partial",
  "note": "Addressee, ACK/NAK and first-match proved; 'reply to this write' is false (stale acknowledgement, refuted)."
 },
 "C15": {
  "status": "partial",
  "note": "False: nil dereference after the reader ended (refuted). Proved for refused writes."
 },
 "C47": {
  "note": ""
 },
 "C52": {
  "note": "Info cannot crash on reader-made replies; address and reset for all schedules. Info goes to bytes and back."
 },
 "C16": {
  "note": "Exact for every database and interleaving on the ideal modem; trace theorem for every modem. C16_remembered and C16_reads_again: a database read not long ago would not be read again, but the time of reading is never noted."
 },
 "C17": {
  "status": "partial",
  "note": "Proved when the database was read first; refuted when it was not, and for the remembered list after a failed delete."
 },
 "C18": {
  "status": "partial",
  "note": "False: the delete request is shifted by one byte (refuted). Exact repair request proved."
 },
 "C19": {
  "note": ""
 },
 "C53": {
  "status": "partial",
  "note": "Frames and round trips proved; decoding an empty manage-record frame crashes (refuted)."
 },
 "C20": {
  "status": "proved",
  "note": "Ring buffer refined to the list of everything that passed; all sizes >= 1. Message pointers are modelled as fresh numbers."
 },
 "C21": {
  "status": "proved",
  "note": "Exact w.r.t. the code's notion of duplicate; a refuted theorem shows a NAK lost because of C04."
 },
 "C22": {
  "status": "partial",
  "note": "Bounds and traces proved for every writer; the modem's time-outs are different error values and are not retried (refuted)."
 },
 "C23": {
  "note": ""
 },
 "C50": {
  "note": ""
 },
 "C24": {
  "note": "Exact checksum theorem for payloads whose last byte is free; a full 14-byte payload and a second write of the same message are refuted."
 },
 "C25": {
  "status": "proved",
  "note": "For every underlying writer; a crash needs a writer that returns neither acknowledgement nor error, which the modem model never does. errLookup gives exactly the documented reason of a refusal, but nothing calls it: the caller is told only that the device refused (refuted: the reason reaches the caller)."
 },
 "C43": {
  "note": "Engine version and the returned handle are exact for every writer; an announcement from another device is accepted (refuted). Product data is exact in the same way, in both directions, and likewise accepted from another device (refuted). Encoded product data is read back only when filled up to fourteen bytes (alone: refuted)."
 },
 "C26": {
  "note": "Exact for every memory content, repetition and interleaved traffic that does not carry the all-link command byte; foreign records, a repeated acknowledgement and foreign requests are refuted."
 },
 "C27": {
  "note": "Exact mirror for every history that does not append in front of old records, prefix for every history; old records coming back is refuted."
 },
 "C28": {
  "note": "Exact outcome for every previous database; equals the given list unless the cache holds more records (refuted)."
 },
 "C29": {
  "note": "Exact when known links come with unchanged flags. For all other lists (no last-record claim) new links are stored and only the first records can be damaged; a known link with other flags that comes alone always overwrites the first record. In-place update of flags and a stale index are refuted."
 },
 "C30": {
  "note": "Exact outcome for every database: nothing is lost, but as many new links are dropped as there are records (refuted)."
 },
 "C51": {
  "status": "proved",
  "note": "Read requests carry the count; write requests always say 8 and responses 0, as the code does."
 },
 "C31": {
  "note": "Both kinds of devices: exact traces; on an ideal device in-use records stay whatever is lost, and all links are there when nothing is lost and the memory above the mark is blank. Refuted: an append error overwritten by a later success, a new link without bit 1 cutting the database short, appending in front of old memory."
 },
 "C32": {
  "note": "Exactly the described records are written free (trace, and on an ideal device). Refuted: for devices that write single records a failed write is not reported."
 },
 "C33": {
  "note": "Exact traces for every environment; both devices are told to leave after either entered; the four cases of Link. Refuted: a controller that entered the mode but whose acknowledgement was lost is not told to leave."
 },
 "C34": {
  "note": "Every record of the responder's address is tried, the result is that of the last; no-error means success for at most one group. Refuted for several groups."
 },
 "C36": {
  "note": "One substitution function, replacements in order of first appearance, then random ones. Refuted: a random address may equal an original one, and two random ones may coincide."
 },
 "C37": {
  "note": "Sound; complete for the first in-use record of an address. Refuted: further groups of the same address, free records taken as counterparts; fixCrosslinks drops additions. C37_fix says exactly what fixCrosslinks makes of the records."
 },
 "C38": {
  "note": "Strict partial order for all addresses and exact characterisation; strict weak order and numeric order for 24-bit addresses. For wider uint32 values it is not a weak order (refuted)."
 },
 "C39": {
  "note": "Proved for every history of puts, gets, filters and saves, except that a put of the all-zero DeviceInfo is dropped (refuted) and that a failed load changes the contents without raising the flag (refuted)."
 },
 "C40": {
  "note": "Round trip proved on the actual JSON text for every database with three-byte addresses, in memory and through the file. False for wider addresses and for failed loads, which empty the database (refuted); a null document makes the next put panic. The text of the file is given member by member: keys in order, names, addresses, categories and numbers. C40_member_names says which names of members are taken for which."
 },
 "C41": {
  "note": "Refuted for every database and every non-empty old file: SaveDB truncates first. What holds: the file is always a prefix of the new document or unchanged, and a torn file never loads (proved on the JSON text)."
 },
 "C42": {
  "note": "Stored information is used and only complete successful queries are stored (proved). Filters are dropped for known devices and always by the file database (refuted)."
 },
 "C44": {
  "note": "Modes, speeds, units and questions proved for every argument; setpoints and changes are twice the value up to 127, above that they wrap (refuted). Also refuted: zone of setpoints ignored, up/down commands inconsistent between zone and thermostat requests, time format always 0, checksum byte read as temperature, repeated data set not noticed. Status is exact: what was asked, in which order, and which answer each field holds, with and without an error."
 },
 "C45": {
  "note": "Every request proved for every transport, firmware and argument in range; out-of-range levels wrap and a ramp level is only four bits (refuted). Configurations round-trip for byte fields; the answer may come from another device (refuted). C45_no_config_on_error: a failed query gives the zero configuration."
 },
 "C48": {
  "note": "Command words with both bytes below 128 proved for every rendering; bytes are parsed as signed numbers, so 128 and above are refused (refuted, and proved for all of them). The accepted texts are characterised exactly; signs and a dot anywhere are accepted (refuted)."
 },
 "C49": {
  "note": "For every pair of sessions and every schedule of the three goroutines: proved for host commands 0x61-0x64 and positively acknowledged echoes. Refuted: host commands without ack are framed wrongly so the following message is swallowed, refused echoes are shown again, one undecodable frame stalls the line."
 },
 "C54": {
  "note": "Exact acceptance and partial results proved for every list; trailing garbage after the digits of a data byte is accepted (refuted). A group given as a word has the same gap (refuted); exactly which words are taken is proved."
 },
 "C55": {
  "note": "The flag commands are right for every flag, configuration and modem behaviour. Linking is characterised exactly: devices that do not open are skipped and not reported, only the first device that opens is linked (refuted: the others are never contacted; a device that does not answer is reported as success). Unlink does nothing for all arguments. Opening with the question answered yes may report success without a link. If the addresses reached unlink, success would mean both sides were asked (C55_unlink_both_sides). Reset is proved."
 },
 "C56": {
  "note": "Unchanged text, a failed editor or an invalid line write nothing; otherwise exactly the records of the text are written. Changing one line changes only that record if the records have no flag bits other than 7, 6 and 1; refuted otherwise (the text form drops them), and refuted for a failed read (its error is ignored and the part that was read replaces the database)."
 },
 "C57": {
  "note": "Over any writer below: results and requests are unchanged, the lines are exactly those described by an independent relation, and nothing crashes if every read gives a message or an error (refuted otherwise). The acknowledgement of a write names the written command; an overheard acknowledgement may name another controller's command (refuted). A line is modelled as the values printed, not as text."
 },
 "C58": {
  "note": "Configuration and loop are characterised for every modem; over the modem model it uses up any number of reads without ending or crashing while the port is open and packets are what they claim. Refuted: one standard message whose flags claim to be extended ends the monitor, and a closed port crashes it."
 },
 "C59": {
  "note": "Proved at the level of the file's characters, through the reader and the writer of the text form: untouched if invalid, same records with one substitution, comments kept in order, nothing changes but addresses on a second run, structure kept when draws differ. Refuted: an address in a comment survives, an indented comment is lost, and for every valid file a crash right after the truncation leaves an empty file that reads as a valid empty database. ASCII text only."
 },
 "C60": {
  "note": "The delay is proved for all hop counts below 255 (255 wraps to no delay: refuted). Over any clock that works Write never sends too early; it always waits the whole delay, however long ago the packet was read (refuted: no longer than needed). Used through the packetWriter interface it never pauses, because its method is not called WritePacket (universal, and refuted). Short messages crash the read; a closed channel gives neither message nor error (refuted). Time.Add and Sub are modelled without overflow; nothing in the repository constructs the pausing writer. The pause in linking mode is half a second more than the delay of fourteen bytes with three hops."
 },
 "C61": {
  "note": "Proved for all messages (iff). C61_text_unique_refuted settles the unconditional claim, which the statement does not make: the old and new Light On/Off At Ramp commands have the same name, so different frames read alike.",
  "status": "proved"
 },
 "C62": {
  "note": "Refuted parts: every thermostat prints the address 00.00.00 (an info field that nothing sets); the hexadecimal form of a packet shows an answer byte that unsolicited packets do not have; a database with two records of one address and group has several possible listings. The short text of a packet tells the command and the ending, the description of a device its address, category, firmware and engine. The lines of that description are given exactly."
 },
 "C63": {
  "note": "Proved for device, dimmer and thermostat actions and for both status reports. Refuted with witnesses: every switch action crashes before sending (C63_switch_crashes is the universal form); dimmer config loses the error of the configuration request; thermostat status first changes the unit to Fahrenheit; a device linked on the way is then refused as being of the wrong kind; device version prints the firmware and not the engine version. Assumes the command-line library calls the command's callback, then the subcommand's, and stops at the first error."
 },
 "C64": {
  "note": "Reports, modem information and the walk are proved. Refuted: thermostats all show the address 00.00.00 in device info; the quiet flag switches debug logging on and silences nothing (C64_log_flags is the universal form). The database part of the walk excludes the address 00.00.00, and assumes reading a device's links leaves the database alone. Two iterations of the link listing are compared up to C62. Time.Sleep between devices is not modelled."
 },
 "C65": {
  "note": "Proved for the whole path from the command to p_sent, the frames given to the serial port, for devices stored under their own address (kept by every Put; C65_one_frame: the specification of a frame leaves one frame per command and engine; C65_wrong_file_refuted shows a database file for which the claim fails without it), and when the user is not asked to link or declines. The acknowledgement may be one of an earlier command (C14). The reader goroutine is the schedule of Plm.v."
 },
 "C66": {
  "note": "Proved from the program to p_sent, the frames given to the serial port, for devices stored under their own address (kept by every Put, C65) and packets whose payload is bytes. C66_every_device_asked assumes at least one record; the walk may still crash on a modem that closes (C18, C65). C66_stores excludes the address 00.00.00."
 },
 "C67": {
  "note": "The network is an environment written in NetSpec.v, not code: no device fails or stays silent (failing devices are C33 and C34), and how records are laid out is left open (stores_well, shown meetable by plain_well). What the last two sentences of the statement say that Link and UnlinkAll do not achieve is shown by C67_modem_link_refuted, with the exact condition in C67_modem_link, and C67_unlink_all_half_refuted. The modem is taken as a party without single-record writes whose record update is not implemented.",
  "status": "proved"
 },
 "C68": {
  "note": "Success with neither controller nor responder asked for means nothing is linked. The last sentence is the clause lost_start of C68_link; C68_told_to_stop_refuted and C68_device_told_to_stop_refuted are two such runs. Link databases of modem and device are taken as new on every use; linking does not look at them. With the debug log on and the modem's address unknown the modem is asked for it in between; see C84.",
  "status": "proved"
 },
 "C69": {
  "note": "C69_noise_refuted shows the last sentence. A goroutine blocked in the middle of a packet is modelled as one that starts that packet again when more bytes are there; it reads the same bytes and comes to the same packet. Bytes that are to arrive while a write waits are counted as received but lost, since a write does not wait in this model; C69_answered asks that there be none. The time window in C69_success_was_received is that of the last byte of each acknowledgement. With other traffic: messages that are no answer, up to the length of the queue, do not change the outcome and those after the answer are kept; one packet of another kind before the modem's word, or ten messages before the answer, make the command fail though both acknowledgements came (refuted).",
  "status": "proved"
 },
 "C70": {
  "note": "C70_alone and C70_every_schedule tie the interleaving model to Plm.v and PlmLinkdb.v in both directions. C70_crossed_refuted and C70_stolen_refuted prove the last sentence. A goroutine makes one call here; one that makes several is several goroutines of which the next starts when the one before is done, which is one of the interleavings. Accesses are indivisible and seen in one order. The number of turns of a loop over the modem's records or of a wait for a message is bounded by a number in the call; C70_alone asks of WriteLinks that the bound is beyond the records remembered (enough). C70_success and C70_count ask that the modem may transmit at least once (0 <= retries; New sets 3).",
  "status": "proved"
 },
 "C71": {
  "note": "C71_overlap_refuted proves the last sentence. A Reset that crashes (the port is lost while it waits) leaves the twenty seconds, as it does alone; C71_one_reset is about one that returns.",
  "status": "proved"
 },
 "C72": {
  "note": "C72_checksum_shown_refuted proves the last sentence. The float arithmetic is F32.v: rationals rounded to 24 bits, to nearest even, after each operation, as Go computes this expression; exponents never leave the normal range here. That %.01f rounds the exact value is taken from strconv.",
  "status": "proved"
 },
 "C73": {
  "note": "The record part uses the comparison of C62. Verbs of fmt are modelled in GoText.v."
 },
 "C74": {
  "note": "C74_nak_not_shown_refuted proves the last sentence. The text of an error value is a parameter: any texts without a newline.",
  "status": "proved"
 },
 "C75": {
  "note": "C75_same_list_refuted: the list given to UpdateLinks is not what the caller wrote down afterwards. C75_fix_shared_refuted: fixCrosslinks with spare capacity and a free record.",
  "status": "proved"
 },
 "C76": {
  "note": "The five _refuted theorems prove the last sentence, with the ideal modem of PlmLinkdbSpec.v answering every frame at once (serves). The others ask that a failed write to the port does not report the package's own ErrNak. C76_one_reader and C76_one_writer say what one goroutine gets, not that it gets it: C76_cut_refuted shows one reader misled.",
  "status": "proved"
 },
 "C77": {
  "note": "C77_twice_refuted and C77_zero_refuted prove the last sentence. C77_values asks that a failed write to the port does not report the package's own ErrNak.",
  "status": "proved"
 },
 "C78": {
  "note": "C78_as_meant_refuted: data written 0x1c is accepted and read as 0. C78_read_as_meant_partial lacks the lines accepted though not meant; C78_accepted_exactly says exactly which lines are accepted and as what, C78_refused what a refusal means."
 },
 "C79": {
  "note": "PlmObj.v has modem objects as records with the port and channels shared; the plain modem is that of Plm.v and PlmLinkdb.v, so what the other claims prove of it holds of the tool's modem (C79_tool). One goroutine beside the reader uses the copy, as in the tool. The documentation of the option WriteDelay (a delay after writing a command) is not what the code does: C79_delay_ignored."
 },
 "C80": {
  "note": "MemFilters.v has the filters over a memory of message objects; C80_same relates them to the filters over values of Filters.v and UtilSnoop.v, and so justifies the simplification made there. The payload of a message is not shared byte by byte: no filter changes a payload. C80_retry_snoop_needed and C80_no_source_needed show the two conditions are needed."
 },
 "C81": {
  "note": "Autogen.v models the program: the csv reader of the Go library with its default settings, strconv.ParseInt with base 0, the templates written out, HTML escaping of text nodes as html/template does it, the steps of writing a file. go/format is an arbitrary partial function on texts; creating and writing a file an arbitrary outcome for each name. AutogenSpec.v says independently how a table of fields is written as csv, how a number is written, and how a text is read back as a table; C81_table_unique and C81_rows_unique show that these relations leave no choice. Partial because of C81_names_refuted, C81_failed_run_refuted, C81_whole_text_refuted, C81_two_files_refuted and C81_all_commands_refuted; C81_devcats and C81_devcats_outcomes say what holds instead. Rows whose names contain a backslash, a newline or a byte order mark are outside C81_devcats."
 },
 "C82": {
  "note": "SharedDb.v runs the database model of C39-C42 in any number of numbered runs over one file, each save split into the opening (which empties the file) and writes at the writer's own offset. C82_events_are_put ties the events of one undisturbed put to fileDB.Put. Loading is one step; failures of file operations other than being killed are in C40 and C41. Partial because of C82_lost_update_refuted, C82_two_saves_refuted, C82_pieces_refuted and C82_first_use_refuted; C82_saves_apart_partial says exactly what the file knows when saves do not overlap, C82_newest_save_or_unreadable what it can be in every interleaving of whole writes, and C82_pieces_alone what an undisturbed save in pieces does."
 },
 "C83": {
  "note": "SharedLoad.v adds opening for loading and single reads to the events of SharedDb.v (C82); C83_without_loads says that the old events mean the same. Partial because of C83_torn_refuted, C83_torn_for_good_refuted and C83_emptied_refused; C83_undisturbed, C83_whole_text_read, C83_bytes_of_saves and C83_file_newest_or_unreadable say what holds for all interleavings. Bytes and characters are the same here because the saved texts are ASCII."
 },
 "C84": {
  "note": "DebugLog.v adds the effect of putting a Linkable into text to ForceLink, Unlink and the link command. Partial because of C84_log_unseen_refuted and C84_log_harmless_refuted; C84_same, C84_link, C84_any_outcome, C84_agreed, C84_unlink_modem and C84_unlink_device say what holds. With the log off, the last two are also what unlinking the modem from a device puts on the line. Whether discarded log lines are put into text is up to the version of package log and is the parameter `on`."
 },
 "C85": {
  "note": "In the model a loop without a limit of its own is given a number of turns and reports when they are used up; C85 says that for a bounded number of packets that report is never made, so it also shows that the number of turns given in the other claims does not matter once it is large enough. Partial because of C85_commands_always_end_refuted, C85_listing_always_ends_refuted and C85_library_always_ends_refuted; C85_quiet, C85_commands, C85_link, C85_walk, C85_modem_links, C85_library, C85_edit, C85_modem_commands and C85_unlink say what holds. Not covered: `ic monitor` and isnoop, which are meant to go on, and the time a user or their editor takes to answer."
 },
 "C86": {
  "note": "Layouts are lists of words, two-digit bytes, numbers, addresses and line ends (TextsSpec.v); C86_layout_exact: a layout has one text only. Command names are those of the table that C81 ties to the repository's own list. The report of a thermostat's whole state is C72, the lines of the snooper C74."
 },
 "C87": {
  "note": "The cost is read off the record of frames and of time-outs waits were begun with, both kept by the model of the modem. The limits are upper ones: C87_message_case reaches the number of frames of a message. The pauses of the writer (C60) and the twenty seconds of Reset (C71) are not counted here.",
  "status": "proved"
 },
 "C88": {
  "note": "Failures are noted beside the world by a wrapper around any message writer, packet writer or device; the programs themselves are the ones of the model. A call that crashes or does not end returns nothing and is not judged (C85 and the claims on crashes). The theorems named refuted show that each failure listed as kept does occur and that UpdateLinks may name another error.",
  "status": "proved"
 },
 "C89": {
  "note": "The theorems named refuted, and C89_update_twice for every connection, are the witnesses for what is not the same when done twice. The message is changed in place by BasicDevice.Write, which is why the caller's second write starts from the first one's bytes. Removing is stated of a device that keeps a list of records.",
  "status": "proved"
 },
 "C90": {
  "note": "The numbers of tries count as at least one, which is what the retrying filter does. Addresses above three bytes are written as their low three bytes (C40_wide_address_refuted) and are left out by db_ok.",
  "status": "proved"
 },
 "C91": {
  "note": "Arguments out of range are cut to a byte, so a level of 256 is a level of 0 (C91_bounds_refuted). The zone of a set point is not sent (C44_setpoint_zone_refuted). Reading requests (status, configuration) are not included: they also wait for answers.",
  "status": "proved"
 }
}