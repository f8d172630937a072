{"id": "C01", "title": "Device addresses survive printing and parsing", "statement": "Parsing the printed form of an Insteon address yields the same address, whether it is written dotted (xx.xx.xx), undotted (xxxxxx), or with upper-case digits. A text that is rejected is rejected with the address-format error and leaves the variable being parsed into untouched.", "quantifier": "every 24-bit address, every case mix of its digits, every (ASCII) input text and every previous value of the variable", "why_tests_cant": "there are 2^24 addresses and infinitely many texts; unit tests sample nine strings", "anchors": ["address.go: Address.String, Address.UnmarshalText, Address.Set, Address.Put, Address.Bytes, MarshalText"]}
{"id": "C02", "title": "Insteon messages survive the wire encoding", "statement": "Decoding a byte string succeeds exactly when it is at least 9 bytes (23 when its flags byte says extended); re-encoding the decoded message gives back exactly those leading bytes; and encoding then decoding a message gives the same source, destination, flags, command bytes and (zero padded to 14) payload.", "quantifier": "every byte string of every length, every message with 24-bit addresses and any payload", "why_tests_cant": "the input space is 256^23; tests use a handful of vectors", "anchors": ["message.go: Message.MarshalBinary, Message.UnmarshalBinary", "commands/command.go: From"]}
{"id": "C03", "title": "Message flag accessors are consistent", "statement": "Flags built from a message type, length, hops-left and max-hops (each at most 3) report exactly these back; changing the hop counters changes nothing else; a message is never both an ACK and a NAK; direct and broadcast are complementary.", "quantifier": "every flags byte, every message type, every hop value 0..255", "why_tests_cant": "exhaustive over the byte domain and the interaction of setters, tests check a few constants", "anchors": ["message.go: Flag, Flags.Ack, Nak, Type, Standard, Extended, TTL, SetTTL, MaxTTL, SetMaxTTL, MessageType.Direct, Broadcast, AllLink"]}
{"id": "C04", "title": "Retransmissions are recognised as duplicates and nothing else is", "statement": "Two messages are reported as duplicates exactly when everything except the hops-left counter is the same.", "quantifier": "every pair of messages", "why_tests_cant": "a claim about every pair of messages; tests compare a few pairs", "anchors": ["message.go: Message.Duplicate"]}
{"id": "C05", "title": "Link records survive the wire encoding and are identified by role, group and address", "statement": "Decoding the 8-byte encoding of a link record returns the record; decoding fails exactly below 8 bytes; re-encoding a decoded record returns the bytes; two records are Equal exactly when they have the same controller/responder role, group and address.", "quantifier": "every record, every byte string", "why_tests_cant": "2^64 records; tests use one vector", "anchors": ["link.go: LinkRecord.MarshalBinary, UnmarshalBinary, ID, Equal"]}
{"id": "C06", "title": "Editing a link database as text loses nothing", "statement": "Rendering a list of link records as editable text and parsing that text gives back the same list, with or without the heading, whatever the records are.", "quantifier": "every list of link records, every length", "why_tests_cant": "quantifies over all lists and all field values, tests use four zero-data records and compare with a coarse equality", "anchors": ["link.go: LinkRecord.MarshalText, UnmarshalText, RecordControlFlags.UnmarshalText, Group.UnmarshalText", "util/link.go: LinksToText, TextToLinks", "util/textlinks.tmpl"]}
{"id": "C07", "title": "Modem packets survive encoding", "statement": "The bytes of a packet produced by the host are the start byte, the command and the payload; decoding the modem's echo of a packet (the same bytes followed by an ACK or NAK byte) returns the command, the payload and the acknowledgement for every modem command.", "quantifier": "every command in the modem command table and every payload of the length the command prescribes", "why_tests_cant": "30 commands x all payloads", "anchors": ["plm/packet.go: Packet.MarshalBinary, UnmarshalBinary, ACK, NAK", "plm/command.go: commandLens"]}
{"id": "C08", "title": "The modem byte stream is cut into exactly the packets the modem sent", "statement": "When the serial stream consists of complete modem packets, possibly separated by line noise that contains no start byte, the packet reader returns exactly those packets in that order, no matter how the stream is chopped into reads.", "quantifier": "every sequence of valid modem packets, every noise, every chunking of the stream", "why_tests_cant": "an unbounded sequence of packets and every fragmentation; tests read a single packet from one buffer", "anchors": ["plm/port.go: packetReader.sync, read, ReadPacket", "plm/packet.go: Packet.UnmarshalBinary"]}
{"id": "C09", "title": "The packet reader is safe on arbitrary input", "statement": "On any byte stream at all the packet reader never indexes outside its fixed buffer, never crashes, and every packet it returns was cut from a contiguous, non-overlapping piece of the stream beginning with the start byte and a known command and having the length that command prescribes.", "quantifier": "every byte stream, both reader modes, every number of packets read", "why_tests_cant": "safety over all 256^n inputs", "anchors": ["plm/port.go: packetReader.sync, read, ReadPacket", "plm/packet.go: maxPaclen, Packet.UnmarshalBinary"]}
{"id": "C10", "title": "The packet reader ends when its stream ends", "statement": "When the underlying stream reports end of file, reading a packet returns (with a packet or an error) instead of running forever.", "quantifier": "every finite byte stream", "why_tests_cant": "termination on all inputs; a test can only hang", "anchors": ["plm/port.go: packetReader.sync"]}
{"id": "C11", "title": "Received packets are queued in order, routed by kind and bounded", "statement": "Insteon messages received from the network go only to the message queue and all other packets only to the acknowledgement queue; each queue hands packets out in arrival order, each at most once, never holds more than ten, and loses a packet only when ten were already waiting.", "quantifier": "every sequence of arriving packets and every interleaving with readers", "why_tests_cant": "every schedule of the reader goroutine against the clients", "anchors": ["plm/plm.go: PLM.readLoop, ReadPacket, Read, New"]}
{"id": "C12", "title": "A modem command only succeeds on a matching acknowledgement", "statement": "Writing a packet transmits exactly its encoding once; the call returns no error only if the next packet from the modem is an ACK for the same command echoing the same payload (payload not compared for get-info and get-config); a NAK always yields the NAK error.", "quantifier": "every packet written, every reply, every queue content and schedule", "why_tests_cant": "every reply the modem could produce in every state", "anchors": ["plm/plm.go: PLM.WritePacket, ReadPacket"]}
{"id": "C13", "title": "Modem commands are retried a bounded number of times", "statement": "A retried command is transmitted at most retries+1 times, all transmissions carry identical bytes, it is re-sent exactly after a NAK (when NAKs are to be retried) or a modem read timeout, and the result returned is that of the last transmission.", "quantifier": "every retry budget, every sequence of outcomes of the underlying writer", "why_tests_cant": "unbounded sequences of outcomes", "anchors": ["plm/port.go: retryWriter.WritePacket, retry", "plm/plm.go: PLM.ReadPacket"]}
{"id": "C14", "title": "A message write returns the addressee's own acknowledgement", "statement": "Writing an Insteon message through the modem returns a message that came from the destination device and is an ACK or NAK; success means an ACK and a NAK is reported as the NAK error; the acknowledgement returned is the reply to this write.", "quantifier": "every queue content, every traffic from other devices, every schedule", "why_tests_cant": "every interleaving of unrelated traffic", "anchors": ["plm/plm.go: PLM.Write, Read"]}
{"id": "C15", "title": "Losing the serial port yields errors, not crashes", "statement": "After the serial port has failed or been closed, every modem operation returns an error.", "quantifier": "every operation, every point at which the port fails", "why_tests_cant": "every crash point", "anchors": ["plm/plm.go: PLM.readLoop, ReadPacket, Read, WritePacket, Write, Info"]}
{"id": "C16", "title": "Reading the modem's link database returns exactly its records", "statement": "For a modem that answers get-first/get-next as documented, Links returns its records in order, whatever the database and whatever unrelated unsolicited packets precede each record; an empty database gives an empty list; any failure other than the end-of-database NAK is reported.", "quantifier": "every database of every size, every interleaved unrelated packet", "why_tests_cant": "unbounded databases and interleavings", "anchors": ["plm/linkdb.go: linkdb.refresh, Links"]}
{"id": "C17", "title": "Writing the modem's link database replaces it", "statement": "After WriteLinks succeeds the modem's database consists of exactly the given links (given that no two of them describe the same link); when it fails part way, the locally remembered list is exactly the prefix that was acknowledged.", "quantifier": "every old database, every new list, every failure point", "why_tests_cant": "every failure point in an unbounded sequence of commands", "anchors": ["plm/linkdb.go: linkdb.WriteLinks, deleteLink, writeLink"]}
{"id": "C18", "title": "A garbled record write is repaired by deleting the garbled record", "statement": "When the modem's echo of a record write differs from what was sent, the record the modem echoed is deleted before the write is tried again.", "quantifier": "every link and every echoed record", "why_tests_cant": "every echo the modem could send", "anchors": ["plm/linkdb.go: linkdb.WriteLinks, manageRecordRequest.MarshalBinary"]}
{"id": "C19", "title": "Iterating the linked devices visits each device once", "statement": "IterateDevices calls the callback exactly once for every distinct address in the modem's database, in order of first appearance, and not at all when the database cannot be read.", "quantifier": "every database", "why_tests_cant": "unbounded databases", "anchors": ["plm/linkdb.go: linkdb.IterateDevices"]}
{"id": "C20", "title": "The message cache remembers exactly the most recent messages", "statement": "A cache of size n>=1 holds exactly the last n messages that passed through it (read or written), and a lookup returns the most recent of them that matches, or reports not-found when none does; it never crashes.", "quantifier": "every cache size at least one, every history of messages, every matcher", "why_tests_cant": "unbounded histories over a ring buffer", "anchors": ["devices/filters.go: NewCache, CacheFilter.push, Lookup, Filter"]}
{"id": "C21", "title": "The duplicate filter drops exactly recent retransmissions", "statement": "Reading through the duplicate filter delivers, in order, exactly the messages that are not duplicates of one of the nine messages that passed immediately before them; errors are passed on.", "quantifier": "every sequence of incoming and outgoing messages", "why_tests_cant": "every history", "anchors": ["devices/filters.go: FilterDuplicates, CacheFilter", "devices/matcher.go: DuplicateMatcher"]}
{"id": "C22", "title": "Message-level retries are bounded and only follow a timeout", "statement": "The retry filter writes a message at least once and at most max(1,tries) times, writes again only after a read timeout, and returns the outcome of the last write; in particular a timeout reported by the modem is retried.", "quantifier": "every number of tries and every sequence of outcomes", "why_tests_cant": "unbounded outcome sequences", "anchors": ["devices/filters.go: RetryFilter", "plm/plm.go: PLM.Read"]}
{"id": "C23", "title": "The TTL filter sets both hop counters and nothing else", "statement": "With a TTL between 0 and 3 every message written through the TTL filter carries that value as hops-left and max-hops and is otherwise unchanged; reads are unaffected.", "quantifier": "every message and TTL", "why_tests_cant": "all flag bytes and messages", "anchors": ["devices/filters.go: TTL"]}
{"id": "C24", "title": "Extended messages to checksum devices carry a valid checksum", "statement": "Every extended message sent to an I2CS device has command bytes and 14 data bytes summing to zero modulo 256.", "quantifier": "every command and every payload", "why_tests_cant": "all payloads, including resending the same buffer", "anchors": ["devices/util.go: checksum, setChecksum", "devices/basic.go: BasicDevice.Write, writeWithChecksum"]}
{"id": "C25", "title": "Commands reach the device they were issued on", "statement": "Whatever a caller puts into the message, a write through a device handle is a direct message to that device's address, extended exactly when it carries a payload, with the given command; the returned command is that of the acknowledgement.", "quantifier": "every message, device and transport", "why_tests_cant": "all messages and transports", "anchors": ["devices/basic.go: BasicDevice.Write, sendCommand, Send, SendCommand"]}
{"id": "C26", "title": "Reading a device's link database returns exactly its records", "statement": "For a device that streams its records in order and ends with the high-water-mark record, Links returns exactly the records before the mark, no matter how often each response is retransmitted or how many unrelated messages are interleaved.", "quantifier": "every database, every retransmission count, every interleaved unrelated message", "why_tests_cant": "unbounded databases and all interleavings", "anchors": ["devices/linkdb.go: linkdb.refresh, Links, LinkRequest.UnmarshalBinary", "devices/connection.go: Read"]}
{"id": "C27", "title": "The cached link database mirrors the device", "statement": "After any sequence of record writes, of which any may fail before reaching the device, the cached records equal what the device's memory holds below its high-water mark; a write to one index never changes another record.", "quantifier": "every history of WriteLink calls and failures", "why_tests_cant": "every history and failure pattern", "anchors": ["devices/linkdb.go: linkdb.WriteLink, LinkRequest.MarshalBinary"]}
{"id": "C28", "title": "WriteLinks overwrites the whole device database", "statement": "After WriteLinks succeeds, re-reading the device returns exactly the given list of links.", "quantifier": "every previous database and every new list", "why_tests_cant": "every pair of databases", "anchors": ["devices/linkdb.go: linkdb.WriteLinks, writeLinks", "devices/device.go: Linkable"]}
{"id": "C29", "title": "UpdateLinks changes matching records in place and adds the rest", "statement": "UpdateLinks updates the flags of the record that describes the same link, puts new links into available records first and appends the remainder, and leaves every other in-use record alone.", "quantifier": "every database and every list of links", "why_tests_cant": "every combination of databases and updates", "anchors": ["devices/linkdb.go: linkdb.UpdateLinks", "devices/device.go: Linkable"]}
{"id": "C30", "title": "AddLinks on a device adds the given links", "statement": "After AddLinks succeeds every given link is stored in the device's database and no in-use record was lost.", "quantifier": "every database and every list of links", "why_tests_cant": "every combination of databases and additions", "anchors": ["devices/linkdb.go: linkdb.AddLinks"]}
{"id": "C31", "title": "util.AddLinks keeps existing links and adds the new ones", "statement": "AddLinks fills available records in order with the new links, appends what is left, and keeps every in-use record where it was, for both kinds of devices (those that can write single records and those that can not).", "quantifier": "every database and every list of links", "why_tests_cant": "every combination", "anchors": ["util/link.go: AddLinks"]}
{"id": "C32", "title": "util.RemoveLinks removes the given links or reports failure", "statement": "RemoveLinks marks exactly the records that describe one of the given links as available; if it returns no error they are so marked in the device.", "quantifier": "every database, every list of links, every failure of the device", "why_tests_cant": "every failure pattern", "anchors": ["util/link.go: RemoveLinks"]}
{"id": "C33", "title": "Linking never leaves a device in linking mode", "statement": "Whatever fails, once the controller was put into linking or unlinking mode both devices are told to leave it before ForceLink, Link, Unlink return; if both link records already exist Link does nothing at all.", "quantifier": "every pair of devices, every failure pattern", "why_tests_cant": "every failure point", "anchors": ["util/link.go: ForceLink, Link, Unlink, CrossLink, CrossLinkAll"]}
{"id": "C34", "title": "UnlinkAll unlinks every group or reports failure", "statement": "UnlinkAll unlinks every group the controller shares with the responder; if it returns no error every one of these unlink operations succeeded.", "quantifier": "every database and failure pattern", "why_tests_cant": "every failure pattern", "anchors": ["util/link.go: UnlinkAll"]}
{"id": "C35", "title": "Searching link databases is exact", "statement": "FindLinkRecord returns the first in-use record with the given role, address and group and reports not-found exactly when there is none; FindDuplicateLinks reports nothing exactly when no two records are equal under the given relation and only reports records that occur later than an equal one.", "quantifier": "every database, every relation", "why_tests_cant": "unbounded databases", "anchors": ["util/link.go: FindLinkRecord, FindDuplicateLinks"]}
{"id": "C36", "title": "Anonymising substitutes addresses consistently", "statement": "Anonymize changes nothing but addresses, replaces equal addresses by equal addresses, uses the given replacements in order of first appearance, and does not leak any original address unless it is one of the replacements.", "quantifier": "every list of links, every replacement list, every random sequence", "why_tests_cant": "unbounded lists", "anchors": ["util/link.go: Anonymize"]}
{"id": "C37", "title": "Missing cross links are all found", "statement": "For every in-use record of a requested address whose counterpart (same address and group, opposite role) is absent, MissingCrosslinks returns that counterpart.", "quantifier": "every list of links and addresses", "why_tests_cant": "unbounded lists", "anchors": ["util/link.go: MissingCrosslinks, fixCrosslinks"]}
{"id": "C38", "title": "Printed link lists are sorted by address then group", "statement": "The order used for printing link databases is a strict weak order and coincides with numeric order of address, then group.", "quantifier": "every triple of records", "why_tests_cant": "a sort needs the order axioms for all triples", "anchors": ["util/link.go: Links.Less, PrintLinks"]}
{"id": "C39", "title": "The device database is a map with a sound needs-saving flag", "statement": "After any sequence of puts a get returns the last info put under that address, or not-found when none was put; whenever the contents differ from what was last saved the database says it needs saving.", "quantifier": "every history of operations", "why_tests_cant": "unbounded histories", "anchors": ["util/database.go: memDB.Get, Put, Filter, Save, NeedsSaving"]}
{"id": "C40", "title": "A saved device database loads back unchanged", "statement": "Loading what was saved restores exactly the saved contents; a failed load leaves the database as it was.", "quantifier": "every database contents, every loaded document", "why_tests_cant": "every contents", "anchors": ["util/database.go: memDB.Save, Load, MarshalJSON, UnmarshalJSON", "address.go", "insteon.go: DevCat.MarshalJSON, UnmarshalJSON"]}
{"id": "C41", "title": "Saving the device database is crash safe", "statement": "If the process or machine stops at any moment while the database file is being saved, the file afterwards holds either the old or the new contents.", "quantifier": "every crash point", "why_tests_cant": "every crash point", "anchors": ["util/database.go: SaveDB, fileDB.save"]}
{"id": "C42", "title": "Opening a device through the database applies the given filters and never stores unlinked devices", "statement": "Database.Open returns a device whose traffic passes through the given filters, uses the stored info when present, and stores info only after a fully successful query.", "quantifier": "every database, every filter list, every device behaviour", "why_tests_cant": "every device behaviour", "anchors": ["util/database.go: memDB.Open, fileDB.Open", "devices/device.go: Open"]}
{"id": "C43", "title": "Querying a device reports that device's own data", "statement": "Open reports the engine version acknowledged by the device, the not-linked condition exactly for a NAK with code 0xff, and the category and firmware announced by the queried device.", "quantifier": "every device behaviour and every interleaved traffic", "why_tests_cant": "every interleaving", "anchors": ["devices/connection.go: IDRequest, GetEngineVersion, Read", "devices/device.go: Open"]}
{"id": "C44", "title": "Thermostat requests are encoded faithfully", "statement": "Mode, fan speed and unit requests send the command documented for the requested value and reject every other value without sending anything; setpoints and temperature changes are sent as twice the value.", "quantifier": "every argument value", "why_tests_cant": "every int argument", "anchors": ["devices/thermostat.go: SetMode, SetFanSpeen, SetTempUnit, SetCoolSetpoint, SetHeatSetpoint, IncreaseTemp, DecreaseTemp, ThermostatFlags"]}
{"id": "C45", "title": "Dimmer and switch requests are encoded faithfully", "statement": "On-level, ramp, status and configuration requests put the documented command bytes on the wire for every argument and firmware version and configuration records survive encode/decode.", "quantifier": "every argument, firmware version and configuration", "why_tests_cant": "every argument", "anchors": ["devices/dimmer.go", "devices/switch.go"]}
{"id": "C46", "title": "Command words compose and decompose consistently", "statement": "Building a command from flags and two bytes and taking it apart returns the bytes; replacing the sub-command changes only the second byte; every command matches exactly those with the same first byte.", "quantifier": "every byte triple and int", "why_tests_cant": "2^24 commands and all ints", "anchors": ["commands/command.go: From, SubCommand, Command0, Command1, Command2, Matches, Set"]}
{"id": "C47", "title": "Modem configuration flags are independent", "statement": "Setting or clearing one configuration flag changes only that flag; sending and reading back a configuration preserves the four flags.", "quantifier": "every configuration byte", "why_tests_cant": "all sequences of flag operations", "anchors": ["plm/config.go", "plm/plm.go: Config, SetConfig", "cmd/ic/plm.go: flagCmd"]}
{"id": "C48", "title": "Command-line command words are parsed faithfully", "statement": "Every pair of hexadecimal bytes, dotted or not, is accepted and denotes that command; anything else is rejected.", "quantifier": "every byte pair and every text", "why_tests_cant": "2^16 commands and all texts", "anchors": ["cmd/ic/vars.go: cmdVar.Set, dataVar.Set"]}
{"id": "C49", "title": "Snooping shows exactly the traffic on the line", "statement": "The snooper delivers every Insteon message received by the modem and every message the host sends, and nothing else, in order per direction.", "quantifier": "every stream of host and modem packets", "why_tests_cant": "unbounded streams", "anchors": ["plm/snoop.go: Snoop, snoop.readLoop", "plm/port.go: packetReader (ignoreAck)"]}
{"id": "C50", "title": "Waiting for a message returns the first match and loses nothing after it", "statement": "Waiting for a matching message returns the first one that matches, consumes exactly the messages up to it, and passes on errors; the matcher combinators behave as boolean and, or, not.", "quantifier": "every message sequence and matcher", "why_tests_cant": "unbounded sequences", "anchors": ["devices/connection.go: Read", "devices/matcher.go"]}
{"id": "C51", "title": "All-link request frames round-trip", "statement": "Encoding and decoding an all-link database request preserves its kind, memory address (16 bit), record and record count; malformed frames are rejected without a crash.", "quantifier": "every request, every byte string", "why_tests_cant": "all byte strings", "anchors": ["devices/linkdb.go: LinkRequest.MarshalBinary, UnmarshalBinary"]}
{"id": "C52", "title": "The modem's own address and info are decoded without crashing", "statement": "Info decodes the address, category and firmware from the modem's reply for every reply that the packet reader can deliver; the address is asked for at most until it is known; Reset restores the time-out whatever happens.", "quantifier": "every modem reply", "why_tests_cant": "all replies", "anchors": ["plm/plm.go: Info, Address, Reset", "plm/info.go"]}
{"id": "C53", "title": "Modem linking requests are encoded as documented", "statement": "Entering linking or unlinking mode and leaving it send exactly the documented modem frames for every group and report the modem's verdict; the manage-record and start-linking request encodings round-trip, and a frame that is too short is rejected without a crash.", "quantifier": "all groups, all link records, all byte strings, all modem behaviours", "why_tests_cant": "256 groups times 2^64 records and arbitrary modem replies", "anchors": ["plm/linkdb.go:44-77", "plm/linkdb.go:216-235"]}
{"id": "C54", "title": "Lists of data bytes and addresses on the command line are read element by element", "statement": "A list of arguments is accepted exactly when every element is a number (an address), and then the values are appended in order; otherwise the first bad element is reported and only the elements before it have been added. Nothing but a number counts as a number.", "quantifier": "every list of texts and every receiver value", "why_tests_cant": "all lists of all texts", "anchors": ["cmd/ic/vars.go: dataVar.Set", "util/vars.go: Addresses.Set, Addresses.String"]}
{"id": "C55", "title": "Modem subcommands act on every device named and change only the flag named", "statement": "`ic plm link`, `crosslink` and `unlink` deal with every device named on the command line and report failures; opening a device links it only after the user said yes and reports success only if it is linked then; `setflag`/`clearflag` change exactly the named configuration flag of the modem and write nothing when the flag is unknown or the configuration could not be read; `reset` sends the reset request only after the user said yes, and nothing else.", "quantifier": "all lists of devices, all behaviours of devices and modem, all flags and configuration bytes", "why_tests_cant": "arbitrary many devices that may each fail at any step", "anchors": ["cmd/ic/plm.go:102-108", "cmd/ic/plm.go:127-228", "cmd/ic/main.go:103-119"]}
{"id": "C56", "title": "Editing a link database writes exactly what was edited", "statement": "Editing a link database as text writes back exactly the records of the edited text, only if the text was changed and every line of it is valid; a record whose line was not changed stays as it is, and a database that could not be read completely is not overwritten.", "quantifier": "all link databases, all edits, all devices", "why_tests_cant": "all edits of all databases", "anchors": ["cmd/ic/device.go:100-115", "util/link.go:67-98"]}
{"id": "C57", "title": "Showing messages neither changes nor loses any", "statement": "Reading and writing through the snoop filter gives the same results as without it; every message that goes by is shown once, in order, with its sender, receiver, hops, command and data as they are; an acknowledgement is shown with the command it acknowledges; showing never crashes.", "quantifier": "all message writers below, all sequences of reads and writes, all messages and device databases", "why_tests_cant": "all interleavings of messages, and all histories the cache of recent messages can hold", "anchors": ["util/snoop.go:14-135", "devices/filters.go:65-142"]}
{"id": "C58", "title": "The monitor goes on until reading fails", "statement": "`ic monitor` switches the modem to monitor mode changing nothing else in its configuration, then shows every message received, carries on through silences, and ends only with an error of the port, which it returns.", "quantifier": "all modems, all schedules of packets, unboundedly many reads", "why_tests_cant": "unbounded running time and all schedules", "anchors": ["cmd/ic/monitor.go:35-53", "cmd/isnoop/main.go:75-76", "plm/plm.go:192-238"]}
{"id": "C59", "title": "Anonymising a file replaces its addresses and nothing else", "statement": "The anonymising program leaves a file it cannot read as records untouched; otherwise the file it writes reads back as the same records in the same order, with every address replaced consistently by a drawn one, preceded by the comment lines of the input; no original address is left, and an interruption loses nothing.", "quantifier": "all files, all sequences of random draws, all moments of interruption", "why_tests_cant": "all texts, record lists, coincidences of random addresses and crash points", "anchors": ["cmd/anonymize/main.go:13-50", "util/link.go:67-98", "util/link.go:395-429"]}
{"id": "C60", "title": "Pauses are long enough and no longer than needed", "statement": "The propagation delay is one mains cycle per byte and transmission and grows with both; the pausing writer sends a packet only when the last message read has had time to propagate and the least pause is over, waits no longer than that, and passes packets, results and reads on unchanged; reading with a timeout gives a message in time or the timeout error.", "quantifier": "all packets, lengths and hop counts, all clocks that never go back, all writers below", "why_tests_cant": "all clock readings and interleavings; real time in tests is one execution", "anchors": ["util.go:12-27", "plm/port.go:25-77", "devices/basic.go:30"]}
{"id": "C61", "title": "A displayed message identifies the message", "statement": "The text printed for a message determines the message: two messages print the same text exactly when they agree in flags, source, destination (only the group byte for an all-link broadcast), command (only its two wire bytes for an acknowledgement; and the two generations of each ramp command share a name) and, if extended, payload. Two command words print alike exactly when they are equal or such a ramp pair. So frames with the same text are byte for byte equal unless they are all-link broadcasts or name a standard ramp command.", "quantifier": "all pairs of 24-bit command words; all pairs of messages with 24-bit addresses, any flags byte and any payload; all pairs of frames", "why_tests_cant": "It is a statement about all pairs of messages, 2^72 and more frames each; a test compares a few texts with expected strings and would not notice a second message with the same text.", "anchors": ["commands/command.go:73-80", "commands/commands.go:347-450", "message.go:61-83", "message.go:160-167", "message.go:237-276"]}
{"id": "C62", "title": "Other texts and listings tell what they should, and never crash", "statement": "Modem command codes, thermostat modes, units and fan speeds print their documented names, and no value of any of them crashes the name tables. The readable form of a modem packet determines its command, payload and outcome; a settings text the four settings; an equipment text the four state bits; the text of a record everything but its six low flag bits; the text of a link request everything but an unknown type number. A device text shows the device's address. A link dump determines the database completely. A link listing is sorted by address as a number and then by group, always exists, determines the records up to order and low flag bits, and does not depend on the order of the database when no two records share address and group.", "quantifier": "all bytes, all integers, all packets, all pairs of records and requests, all link databases of any length and any order", "why_tests_cant": "Every code of every table, every pair of values and every permutation of databases of any length; tests print a handful of values.", "anchors": ["plm/command_string.go:7-31", "plm/packet.go:43-79", "plm/config.go:42-69", "devices/thermostatmode_string.go:22-69", "devices/thermostat.go:73-88", "devices/thermostat.go:397-399", "devices/linkdb.go:42-84", "devices/basic.go:182-190", "devices/switch.go:122-124", "devices/dimmer.go:145-147", "link.go:93-105", "link.go:189-191", "util/link.go:56-65", "util/link.go:439-454", "util/dumplinks.tmpl", "util/printlinks.tmpl"]}
{"id": "C63", "title": "Each device subcommand sends its one request to a device of the right kind, and reports truthfully", "statement": "For the device, dimmer, switch and thermostat commands: if the device cannot be opened, or is not of the kind the command is for, nothing is sent after opening it, nothing is shown, and that error is returned. Otherwise an action subcommand sends exactly the one documented request to that device and its error is the command's error; status prints the level in words matching the answer; version prints the firmware; dimmer config and thermostat status behave as stated.", "quantifier": "all addresses, device worlds, ways of opening, subcommands with all arguments, and all answers of the device", "why_tests_cant": "The claim covers every behaviour of the modem and device behind each subcommand; the command-line tool has no tests of these commands, and a test with one scripted device would not see the crash on every switch or the error that is lost.", "anchors": ["cmd/ic/device.go:32-123", "cmd/ic/dimmer.go:29-112", "cmd/ic/switch.go:29-80", "cmd/ic/thermostat.go:29-78", "cmd/ic/main.go:103-119"]}
{"id": "C64", "title": "Reports tell what was found; log flags and the walk do what they say", "statement": "What device info, dimmer config, thermostat status and plm info print determines what was found: address, engine, category and firmware, every configuration field and flag, every thermostat reading, the modem's settings, and the link records as far as a listing tells them. plm info stops at the first error and returns it. The quiet flag silences the log. iwalk asks each device of the modem's list exactly once and in order, logs a failure for that device only and continues; afterwards each device is in the database unless its opening was logged as failed, and none is forgotten.", "quantifier": "all pairs of devices, configurations, readings and link databases; all lists of flags; all address lists, worlds, openers and device answers", "why_tests_cant": "Telling things apart is a statement about all pairs of reports, and the walk about lists of any length with any pattern of failures; the command-line programs have no tests.", "anchors": ["cmd/ic/device.go:69-89", "cmd/ic/dimmer.go:75-98", "cmd/ic/thermostat.go:60-78", "cmd/ic/plm.go:110-125", "cmd/ic/main.go:41-77", "cmd/iwalk/main.go:77-95"]}
{"id": "C65", "title": "A subcommand for a device puts exactly its request on the serial line, and only for that device", "statement": "Whatever subcommand of device, dimmer, switch or thermostat is given for address a, whether or not a is in the database: every byte the program writes to the serial line belongs to frames 02 62 that make the modem send a direct message to a. An acting subcommand of an opened device writes, after opening, nothing but one frame - address, flags, command bytes, data and a checksum the device accepts - one to retries+1 times unchanged, leaves the database and its file alone, and reports success only if an acknowledgement from a came in. If the modem echoes the frame and the device acknowledges (refuses), the frame is written once and the subcommand succeeds (reports the refusal). A device in the saved database is opened without any traffic.", "quantifier": "all addresses, databases, subcommands with all arguments, retry counts, modem states, and schedules of everything the modem and the port do", "why_tests_cant": "The claim spans the command line, device layer, message codec, retry layer and modem with its reader goroutine, for every interleaving and every answer; the tests of each layer use mocks of the next, and the command-line program has none.", "anchors": ["cmd/ic/main.go:103-119", "cmd/ic/dimmer.go:39-73", "cmd/ic/device.go:41-71", "devices/basic.go:56-82", "message.go:180-193", "plm/plm.go:123-181", "plm/port.go:85-99"]}
{"id": "C66", "title": "iwalk asks exactly the devices the modem has records of, each once, and speaks to no other", "statement": "Whatever the modem, the devices and the disk do, the serial line of a walk is: requests for the first record, then requests for the next record, then direct messages to devices, one device after the other, each device at most once and only devices the modem sent a record of. A walk that comes to its end has spoken to just the devices its log names. If the modem tells its records one by one, the log names every device they are about, once, in the order of first appearance. Afterwards every device named is in the database unless the log says that it could not be opened, and no device is forgotten.", "quantifier": "all modem states, record lists, databases, retry counts, file-system answers, and schedules of everything the modem and the port do", "why_tests_cant": "The claim is about the whole program over every sequence of packets and every network; iwalk has no tests, the modem's record loop is tested with a fixed script, and no test puts the modem, the database and the devices together.", "anchors": ["cmd/iwalk/main.go:76-95", "plm/linkdb.go:95-128", "plm/linkdb.go:197-210", "util/database.go:85-99", "devices/linkdb.go:197-204", "plm/plm.go:148-190"]}
{"id": "C67", "title": "On a network of cooperating devices, linking and unlinking make and undo exactly the links asked for", "statement": "Take devices that store a controller and a responder record when a second device enters linking mode while a first one waits, and forget both after unlinking mode. Link leaves exactly the records of that link in addition, also when half of it was there before, and leaves nobody waiting; CrossLinkAll does so for every two devices in both directions, and running it again changes nothing. Unlink takes away exactly the records of the link. UnlinkAll leaves the first device without a record of the second and no whole link between them. The link command makes just the links its flags ask for. Link cannot repair a link of which only the modem has its half: it fails and changes nothing. UnlinkAll leaves a record that only the second device has.", "quantifier": "all numbers of devices, addresses, groups, record lists, and ways of storing records that add and remove just the record meant", "why_tests_cant": "The tests replace the devices by stubs with one or two records and count calls. What the calls achieve depends on the records both devices hold before, and on which device waits when the other is told to link.", "anchors": ["util/link.go:124-150", "util/link.go:266-282", "util/link.go:284-296", "util/link.go:298-368", "util/link.go:370-404", "util/link.go:406-429", "cmd/ic/plm.go:127-157"]}
{"id": "C68", "title": "Linking with the tool puts exactly the starts and stops of that link on the serial line", "statement": "The link command of the tool gives up addresses it cannot open, each after messages to that address alone, and links the first one it can. Then it writes: the modem is told to start linking the group; if it took that, the device is told to start (one to retries+1 times the same frame), the modem to stop, the device to stop, whatever the device said; for a link from the device, the same with the roles exchanged; both in that order if both are asked for. Later addresses are never spoken to. Success means the modem took its start and the device acknowledged. Whatever happens, no frame is anything else than a message to one of the addresses, the modem's start for that group, or the modem's stop; this also holds of a device command whose user agrees to link the device first. If modem and device answer everything, there are exactly four frames. If the acknowledgement of the first start is lost, nobody is told to stop.", "quantifier": "all schedules of incoming packets, losses and write errors, device databases with devices under their own addresses, lists of addresses, groups, retry counts, file system answers and user answers", "why_tests_cant": "The tests of linking use stubs for both parties. The frames depend on the device's engine version, on how often the modem refuses or stays silent, and on which addresses can be opened, so the runs cannot be listed.", "anchors": ["cmd/ic/plm.go:127-157", "cmd/ic/main.go:103-119", "util/link.go:266-282", "plm/linkdb.go:216-227", "devices/basic.go:40-54", "plm/plm.go:57-69"]}
{"id": "C69", "title": "The bytes received on the serial line decide what a device command does, however they arrive", "statement": "Whatever bytes arrive on the serial line, in whatever pieces and whenever, the packets the commands get are exactly the frames in those bytes, in order, and there is only one way to read them; the pieces do not matter. An acting device command of the tool succeeds only if, between opening the device and its end, the line brought back the frame with the modem's acknowledgement and the bytes of an acknowledgement from that device. Conversely, if the port takes the frame and, each after noise that starts no frame, the echo and the device's answer arrive in time in pieces of any size, the frame is written exactly once and the outcome is the device's answer. When the port is lost, the reader ends, unless what it holds is noise ending in a start byte, and no packet comes after. Receiving both acknowledgements is not enough: noise that looks like the start of a frame swallows what follows. Messages that are no answer (from another device, or saying neither acknowledged nor refused) may come before, between and after, in pieces of any size: as long as there are at most ten messages the outcome is the same and those after the answer stay readable. A packet that is no message before the modem's word, or ten messages before the answer, make the command fail although both acknowledgements came.", "quantifier": "all streams of bytes, ways to divide them over the waits, times of arrival, write errors, time-outs, device databases with devices under their own addresses, acting subcommands and retry counts", "why_tests_cant": "The reader is tested on whole packets in a buffer, the modem on packets that are already cut. How a stream is cut depends on where it is divided, and there are exponentially many divisions, none of which the tests combine with a command that waits.", "anchors": ["plm/plm.go:94-120", "plm/port.go:105-218", "plm/plm.go:122-181", "plm/port.go:85-103", "cmd/ic/device.go:117-123"]}
{"id": "C70", "title": "Goroutines that share a modem get every packet at most once, and never more successes than acknowledgements", "statement": "Let any number of goroutines call methods of one modem object at the same time (packets, messages, configuration, linking modes, its address, reading and writing its link database), their accesses to the port, the two channels, the modem's fields and the memory of its link records interleaving in any way. A call during which no other goroutine acts does exactly what the method does alone. Each channel stays a first-in-first-out queue of ten places: a packet that arrives goes to one caller at most, in the order of arrival. Each call puts only its own frame on the line, at most as often as it may retry; Links sends only the two requests for records, WriteLinks only deletions and its records in their order. A call that succeeds itself received the acknowledgement it reports, and no more calls succeed with a packet than matching acknowledgements came in. But which caller gets a packet is left to chance: two overlapping calls can both fail although the modem echoed both frames promptly and in order, and two overlapping messages can both time out although both devices acknowledged.", "quantifier": "all numbers of goroutines, calls they make, interleavings, arrivals of packets, losses of the port, write errors and time-outs", "why_tests_cant": "The tests call the modem from one goroutine. The number of interleavings of two calls is already exponential in their length, and a test run sees one, chosen by the scheduler.", "anchors": ["plm/plm.go:71-146", "plm/plm.go:148-214", "plm/plm.go:226-238", "plm/plm.go:250-259", "plm/linkdb.go:95-233", "plm/port.go:79-103"]}
{"id": "C71", "title": "Reset puts the modem's time-out back unless two Resets overlap", "statement": "Whatever goroutines call the modem and however they interleave, its time-out is at every moment the one it had at first or the twenty seconds of Reset, and every wait is entered with one of the two. Without a Reset it never changes. With one Reset among any other calls it has its first value again when Reset returns. Two Resets that overlap can both succeed and leave the twenty seconds behind for good, and the second one waits for less.", "quantifier": "all numbers of goroutines, calls they make, interleavings, arrivals of packets, losses of the port, write errors and time-outs", "why_tests_cant": "Reset is tested alone. The lost value needs the second Reset to read the field between two assignments of the first.", "anchors": ["plm/plm.go:183-205", "plm/plm.go:216-224"]}
{"id": "C72", "title": "The report of a thermostat shows what its two answers say", "statement": "Decoding any two data answers of a thermostat, the first and the second set, and printing the result gives a fixed text of twenty-one labelled lines whose values are the documented bytes of the two answers. The temperature is shown in the unit the thermostat is set to, and the shown number is the correctly rounded number of tenths although it is computed in 32-bit floating point. Two pairs of answers give the same text exactly when they agree in all the values shown. But the byte read as the high half of the temperature is where an answer carries its checksum, so a valid answer of 20.0 degrees Celsius is reported as 5472.8.", "quantifier": "all pairs of data answers, of any bytes", "why_tests_cant": "The tests decode one or two payloads and never look at the text. There are 65536 temperatures, each with two units, and three roundings in each Fahrenheit conversion; a rounding that is off in the shown digit would appear for single values only.", "anchors": ["devices/thermostat.go:136-186", "devices/thermostat.go:188-212"]}
{"id": "C73", "title": "The texts of a modem and of its requests say which modem and which request", "statement": "The text of a modem shows its address. A known address is shown without sending anything; an unknown one is asked for with the information request, at most as often as the modem may retry, and the text shows the address of the acknowledgement, or 00.00.00 when the request fails. The text of a modem's description determines its address, category and version; that of a request to change a link record determines the operation and everything of the record but six flag bits; that of a linking request determines mode and group. The payload shown while snooping lists every byte in two hexadecimal digits, with a comma and a blank between bytes and nowhere else, and determines the payload.", "quantifier": "all modem states, schedules of arriving packets and errors; all descriptions, requests and payloads", "why_tests_cant": "Nothing tests these texts. That two different values never share a text is a statement about all pairs of values.", "anchors": ["plm/plm.go:250-263", "plm/info.go:29-31", "plm/linkdb.go:40-42", "plm/linkdb.go:79-81", "util/snoop.go:118-127"]}
{"id": "C74", "title": "The text on the terminal while snooping tells the messages apart", "statement": "Every line written while messages are snooped ends where the next begins, and two lines have the same text exactly when they say the same: same addresses, hop counts, kind as far as shown, counters and groups, commands of the same name, same decoded data, same raw bytes. Each line has a fixed layout: kind, source, destination or category and firmware, hop counts, command, then user data, with numbers in digits. So two runs that put the same text on the terminal, over any message writers and any sequence of reads and writes, saw messages that agree one by one in everything shown: kind up to refusals, hop counts, presence of user data, addresses, names of commands, groups. An acknowledgement shown tells the name of the command it answers or the two bytes of the answer. But a refusal is shown exactly like a command.", "quantifier": "all lines with fields of their sizes; all pairs of runs of the filter over any message writers with messages of documented sizes; any text of errors that stays on one line", "why_tests_cant": "The tests of the snooping filter check a few outputs. Whether two different messages ever give the same text depends on every pair of command names and whatever may follow a name on the line, e.g. ' ACK' or ' Group'.", "anchors": ["util/snoop.go:24-127"]}
{"id": "C75", "title": "What becomes of a list of links handed to a function", "statement": "WriteLinks, AddLinks and UpdateLinks of a device do to the device and report exactly what they would if the list were a value, wherever the list lies in memory, whatever capacity is to spare and however arrays grow. In memory they change only elements of that list. WriteLinks sets the bit 'more records follow' in every record it sent. AddLinks changes at most that bit and the bit 'in use'. UpdateLinks drops the links the device has, moves the others to the front and fills the rest with copies of the last record, so a list used for a second device no longer holds the same links. fixCrosslinks keeps its argument and returns the list it would on values if the argument has no spare capacity or no free record; otherwise it may change the caller's list and return another result.", "quantifier": "all memories, slices within their array (any offset, length, capacity), growth of arrays, message writers, cached databases, times; all outcomes including errors and panics for the device effect", "why_tests_cant": "The tests hand over fresh literals and never look at the argument again; whether the shared array matters depends on offset, capacity and which links the device already has.", "anchors": ["devices/linkdb.go:206-241", "devices/linkdb.go:269-332", "util/link.go:245-262"]}
{"id": "C76", "title": "The modem's remembered links when goroutines share the modem: nothing is invented, but lists get split, blanked, cut short, lost, or crash", "statement": "Let any number of goroutines call methods of one modem object at the same time, interleaving in any way. Every record that Links returns, or that is remembered, is blank, was in memory before, was given to a WriteLinks, or came from the modem. While nobody writes links, the remembered list is always the first one or one that a Links call received up to a refusal, and what Links returns has the length of one such list and the records of one such list. One Links call among calls that leave the link database alone returns, and leaves remembered, exactly the records it received itself, and an error leaves the old list; one WriteLinks call likewise leaves its own links, or after an error the old list or the first few of its links. But with an ideal modem at the other end: two overlapping Links calls can both succeed, each without a record the other has; Links can return a blank record; one Links can succeed with a list cut short by a refusal meant for another goroutine's command; of two overlapping WriteLinks one can crash, or both succeed and one link is forgotten though the modem holds it.", "quantifier": "all numbers of goroutines, calls they make, interleavings, arrivals of packets, losses of the port, write errors and time-outs; all remembered lists", "why_tests_cant": "The link database is tested with one caller and a scripted modem. The failures need particular interleavings of the walk over the records and of the unprotected accesses to the slice.", "anchors": ["plm/linkdb.go:83-128", "plm/linkdb.go:130-195", "plm/plm.go:148-190"]}
{"id": "C77", "title": "The modem's own address under concurrent calls is one the modem told, and never changes once known", "statement": "However goroutines that share a modem interleave, the modem's address, and whatever an Address call returns, is the one known at first or one that came in a GetInfo acknowledgement. Once the address is known it never changes, every Address call returns it, and none of them sends anything. But two overlapping first calls both ask the modem, and a call that overlaps with another command can return the zero address although the modem answered at once, because each takes the other's acknowledgement and Address reports no error.", "quantifier": "all numbers of goroutines, calls they make, interleavings, arrivals of packets, losses of the port, write errors and time-outs", "why_tests_cant": "Address is tested with one caller. The zero address needs two calls to cross.", "anchors": ["plm/plm.go:207-214", "plm/plm.go:250-259"]}
{"id": "C78", "title": "A line of an edited link database is read as it is meant, or refused", "statement": "When a link database is edited as text, every line of the text is either ignored (nothing but blanks, or a hash sign first), or read as the record a person means by it: flags A or U and C or R, the group in decimal, the six hexadecimal digits of the address with or without dots, and three bytes of data of two hexadecimal digits each, with any blanks around the words; or else the whole text is refused. Lines the tool itself prints are meant as the records they were printed from. The known exception: of a word of data only the leading hexadecimal digits count, so data written 0x1c is silently read as 0.", "quantifier": "every text, every number and kind of lines, every blank character of Unicode, every record", "why_tests_cant": "The texts are written by hand and unbounded in length and form; a test samples a few spellings, and the silent misreading of 0x1c passes every test that writes data the way the tool prints it.", "anchors": ["util/link.go TextToLinks", "link.go LinkRecord.UnmarshalText", "link.go RecordControlFlags.UnmarshalText", "link.go Group.UnmarshalText", "address.go Address.UnmarshalText"]}
{"id": "C79", "title": "The modem object the tool uses, a copy of the one its options made, works like a modem that was never copied", "statement": "The tool makes a modem object with options and then copies it; the copy shares port, channels and reader goroutine with the original, and its link database still writes through the original. Whatever sequence of modem operations the program then performs through the copy (packets, messages, information, address, configuration, reset, reading, writing and walking the link database, linking modes), the results, the bytes on the port, the waits, the packets left in the channels and, if it crashes, where it crashes are those of a modem that was never copied; the original stays as it was. The modem has the last time-out among its options (three seconds if there is none) and three retries, its link database has the same, and every wait is of that length, except twenty seconds during a reset. The write delay among the options changes nothing at all.", "quantifier": "every list of options, every sequence of operations, every behaviour of the reader goroutine and of the modem at the other end, every state at the time of copying", "why_tests_cant": "The tests never copy a modem object; whether the two objects drift apart depends on the whole history of operations, resets and time-outs, which is unbounded.", "anchors": ["plm/plm.go New", "plm/options.go Timeout", "plm/options.go WriteDelay", "cmd/ic/main.go run", "plm/plm.go PLM.Reset", "plm/linkdb.go linkdb"]}
{"id": "C80", "title": "Filters that share message objects do what filters with their own copies would do", "statement": "Filters pass pointers to messages and caches keep them, and the TTL filter changes the hop counts of the caller's message in place, after filters above it have already cached or shown it. Still, for any chain of the filters of the library (TTL, retry, duplicates, snoop) and any sequence of reads and writes, the results, the lines shown and the messages that reach the writer below are those of filters that each have their own copy, crash or not. Two conditions are needed: messages received carry their sender's address, and no snooper stands between a retry filter and a TTL filter below it; the chains of the tools meet the second. A received message never changes later, and of one's own only the hop counts can. Without the first condition a received message can be dropped because the caller's own message was changed; without the second the second attempt is shown with other hop counts.", "quantifier": "every chain of filters, every message writer below, every sequence of reads and writes, every content of the memory at the start", "why_tests_cant": "Whether a shared object is seen changed depends on what is cached where when a later write changes it, over histories and chains of any length; the tests use each filter alone with fresh messages.", "anchors": ["devices/filters.go TTL", "devices/filters.go RetryFilter", "devices/filters.go CacheFilter", "devices/filters.go FilterDuplicates", "util/snoop.go snooper.print", "cmd/ic/main.go open"]}
{"id": "C81", "title": "The generated tables say what the generator's data says", "statement": "The program in internal/ writes devcats.go from devcats.csv, and commands.go and COMMANDS.md from its list of commands. For every file of rows 'domain, category, model, name' (numbers as in Go, any quoting, either kind of line end), the text it hands to the formatter holds exactly one entry for each row, grouped by domain in the order of the domains; for every list of command groups it holds one constant with the right three bytes and one text for each command. A row with something that is no number, an unknown domain or another number of fields stops the program before it touches a file. What the repository has in devcats.go, commands.go and COMMANDS.md is what the program makes of the repository's data. False as stated in these points: names are written as in HTML (html/template), so a name with \" & ' + < > is not kept; when formatting fails the file holds the unformatted text; the result of Write is not looked at, so a run can end well with part of the text; a failure on the second file leaves the first replaced; COMMANDS.md says it lists every command but leaves out those of the convenience groups; a first row of two or three fields makes the program panic.", "quantifier": "every csv text, every list of command groups, every formatter, every behaviour of the file system, every content of the files before", "why_tests_cant": "There are no tests for the generator; quoting, escaping and field counts range over all texts, and failures of the file system over every point of the run.", "anchors": ["internal/main.go", "internal/devcats.go", "internal/commands.go", "internal/devcats.csv", "devcats.go", "commands/commands.go", "COMMANDS.md"]}
{"id": "C82", "title": "Several runs of the tools keep the device file they share", "statement": "The tools ic, iwalk and isnoop all keep what they know about devices in one file, without a lock: each loads it when it starts, refuses to run if it cannot, and writes its whole database whenever a put changed it. However any number of runs are started, put information, save and end (by themselves or killed), the file should load, hold the newest information put under each address, and a tool should always be able to start, also when there is no file yet. This holds when every save ends before anything else touches the file and no run puts anything after another did since it started, in particular for runs one after the other. Otherwise it is false: a run that saves its older copy drops what another put since; two overlapping saves can leave a file that cannot be loaded though both succeeded; a tool started between the opening and the writing refuses to run, and one killed there leaves an empty file that stops every later run for good; writes taken in pieces can leave a mixture; with no file no tool ever runs or makes one. What always holds with writes in one piece: the file is the text of the newest completed save and loads as it, or it cannot be loaded.", "quantifier": "every number of runs, every interleaving of their starts, puts, openings, writes and ends, every information put, every content of the file at first", "why_tests_cant": "It is about interleavings of independent processes and about being killed between two system calls; tests run one process and only ever see complete saves.", "anchors": ["util/database.go", "cmd/ic/main.go", "cmd/iwalk/main.go", "cmd/isnoop/main.go"]}
{"id": "C83", "title": "Loading the device file beside saves of other runs gives a database that was saved", "statement": "A tool loads the device file by reading it until the operating system has no more bytes, in as many reads as that takes; meanwhile other runs may save. However the reads and the saves of any number of runs interleave, the database a run gets should be one that the file held. This holds while nobody opens or writes the file for saving: then loading in reads of any sizes is the same as loading in one step, a missing file is refused, and a run killed while loading leaves no trace. It also holds for a run that has read the whole text before the next save begins: it gets exactly that save or is refused. Otherwise it is false: a single save between two reads can make a run load information about a device that was never put by anybody, and the next put of that run writes it to the file for good; a file emptied between two reads stops the run. What always holds with writes in one piece: every byte read stands at its place in a saved text, and the file itself is the newest save's text or cannot be loaded.", "quantifier": "every number of runs, every interleaving of opening, reads of every size, puts, saves and ends, every information put, every database in the file at first", "why_tests_cant": "Tests load a file nobody else writes; which bytes two processes see depends on sizes and timing the operating system chooses.", "anchors": ["util/database.go", "cmd/ic/main.go", "cmd/iwalk/main.go", "cmd/isnoop/main.go"]}
{"id": "C84", "title": "Switching on the debug log does not change what the tools do", "statement": "The debug log is for watching: with it on, linking and unlinking should put the same frames on the serial line and have the same result as with it off. The log lines of ForceLink and Unlink name the controller or responder, and the text of the modem asks the modem for its address. So this is false while the modem's address is not known: the log asks the modem who it is, one to retries+1 times, before the modem is told to start (or, when the device is unlinked as the controller of the modem, when the device has accepted), and a late answer to the question is taken for the answer to the start, so that linking fails with the log on though the modem answers every frame. What holds: with the log off, the modem not the controller, or its address known, the link command is the same run in every respect; otherwise the questions are the only additional frames, in that one place, whether or not they are answered and even if asking crashes; all that C68 says of the other frames stays true.", "quantifier": "every group, every list of addresses, both roles, every database, every state of the modem, every schedule of arriving packets, errors and time-outs", "why_tests_cant": "The tests run with the log discarded and with devices whose text needs nothing from the line; the effect depends on the log, on whether the address was asked for before, and on when the modem answers.", "anchors": ["util/link.go", "plm/plm.go", "cmd/ic/plm.go", "cmd/ic/main.go", "devices/logging.go"]}
{"id": "C85", "title": "Every command of the tools comes to an end", "statement": "Opening a device, every subcommand for a device, dimmer, switch or thermostat, linking and unlinking, editing links, the modem's own subcommands, walking over the network, listing the modem's links and the library's functions for links between any devices and the modem should end: each single wait is limited, and each ends in a result or a crash. This is false while packets keep coming in, since the loops that wait for an acknowledgement or for the next record have no limit of their own: with one unrelated message after the other on the line a silent dimmer is waited for without end, and a modem that always has one more record is listed without end, also by the library's Link. What holds: if only P packets ever come in, counting those in the queues - in particular if the line falls silent at some moment - every such command ends, whatever the packets are and whenever they come, and none of its loops takes more than P + 2 turns.", "quantifier": "every number of packets, every schedule of packets, errors and time-outs that brings no more of them, every state of the modem, database, file system, subcommand, group of devices with what they remember of their links, list of records, address and answer of the user", "why_tests_cant": "The loops are limited only by the number of packets that come in, which no test can exhaust; that no schedule keeps a loop going without using up packets is a statement about all of them.", "anchors": ["plm/plm.go", "plm/linkdb.go", "devices/connection.go", "devices/linkdb.go", "cmd/ic/main.go", "cmd/ic/device.go", "cmd/iwalk/main.go", "util/link.go"]}
{"id": "C86", "title": "Texts put every value under its own name", "statement": "Every text of the library and the tools has a fixed layout, in which each value stands at its own place beside its own word: the text of a command its name, or the name and its last byte, or its three bytes; of a message its length, kind, hops allowed and left, source, destination (category and firmware for a broadcast), command, group and payload; of a modem packet its name, bytes and outcome; of the modem's settings and description, of a record, of a request, of a listing (each value in its column, in the order of addresses and groups), of the text given to the editor and of a dump each value in its place; and device info, switch config, dimmer config, thermostat status and plm info print each value, flag bit and reading under the label that names it. A layout determines the text letter by letter, so no two values can be exchanged and nothing can be left out or added.", "quantifier": "all commands, messages, packets, records, requests, databases of any length, devices, configurations, flag bytes, readings, and all worlds in which the tools run", "why_tests_cant": "A test compares the text of a few values; that two fields are never exchanged, that no field runs into its neighbour and that no value prints differently from its layout concerns every value of every field.", "anchors": ["commands/command.go", "message.go", "plm/packet.go", "plm/config.go", "plm/info.go", "link.go", "devices/linkdb.go", "util/link.go", "cmd/ic/device.go", "cmd/ic/dimmer.go", "cmd/ic/switch.go", "cmd/ic/thermostat.go", "cmd/ic/plm.go"]}
{"id": "C87", "title": "What a command sends and how often it waits is limited", "statement": "A message is sent at most once and once more for each retry of the modem, so a subcommand for a device, dimmer, switch or thermostat sends at most a fixed number of frames whatever comes in: retries + 1 for each of at most 2 (device), 7 (dimmer, switch) or 11 (thermostat) messages and of the 3 for opening the device, 10 when the user may be asked about linking it; linking sends them for 3 messages per device named and 4 per direction. If P packets come in, counting those in the queues, such a command begins at most P waits more than retries + 2 for each of these messages, each with the modem's time-out, so its duration is limited as well. Listing the modem's links may ask for a record with each packet: at most (P + 2) * (retries + 1) frames and (P + 2) * (retries + 2) waits. For a device object of the library the unit is again one message with its retries: 2 units to read its records or search them for duplicates, one per record and one more to write them, 2 more than that to update them, 4 to make or undo one link; if no device remembers more than M records and M >= P, 2 + M to remove links, 10 + M to link two devices unless linked, 2 + 5M to undo every link. Walking the network takes at most 6P + 2 units. Writing the modem's own records takes, whatever comes in, at most 4 frames and waits for each record remembered and 12 for each new one. No limit holds without counting packets: a silent dimmer is waited for once more with each unrelated message, and a modem that always has one more record is asked for it.", "quantifier": "every number of packets, every schedule of packets, errors and time-outs that brings no more of them, every state and number of retries of the modem, database, file system, subcommand, address, answer of the user, and number of turns the loops are allowed", "why_tests_cant": "The worst case is reached only by particular interleavings of refusals, time-outs and unrelated messages, of which there are unboundedly many.", "anchors": ["plm/plm.go", "plm/port.go", "plm/linkdb.go", "devices/connection.go", "devices/linkdb.go", "devices/device.go", "cmd/ic/main.go", "cmd/ic/plm.go", "util/link.go"]}
{"id": "C88", "title": "Failures are reported, and which ones are kept", "statement": "Every request to a device, and reading, writing and adding to its link records, stops at the first message that cannot be written or read and returns that very error; no error means that nothing failed. Asking for the engine version and opening a device say `not linked' for a refusal that says so. UpdateLinks never hides a failure, but given several links it may say that an index was out of range instead. Any chain of filters passes every failure on, except that a retrying one keeps the time-outs it tries again after; the monitor carries on only after silences. The modem's linking modes keep nothing; reading its records and listing its devices keep refusals, which end the list, and time-outs tried again after; writing its records keeps those and replies with another payload, after which the record is written in another way. Trying again never hides the last failure: what the last try returned is returned. Of the library's link functions, over any two devices, ForceLink and Unlink keep to themselves only failures to leave linking mode; RemoveLinks and AddLinks only failures to write single records; UnlinkAll only those of the linking modes; Link, CrossLink and CrossLinkAll only these kinds and the errors that a link was not found or is there already; everything else that fails is the error returned. Each of the kept kinds does occur with no error returned. Of the tool's commands for devices, dimmers, switches, thermostats and the modem's description, only the configuration of a dimmer keeps a failure, that of its first question; for the others at most one call fails, and its error is the one returned. Its command to link keeps failures to open a device and to leave linking mode, that to unlink keeps the latter and that a device is not linked, and that to edit the records keeps a failure to read them.", "quantifier": "every message writer, packet writer and every pair of devices, whatever each call does and returns; every chain of filters, state, device, list of links, and number of turns the loops are allowed", "why_tests_cant": "Tests make single calls fail; which combinations of failures go unnoticed needs all of them.", "anchors": ["devices/connection.go", "devices/basic.go", "devices/device.go", "devices/linkdb.go", "devices/switch.go", "devices/dimmer.go", "devices/thermostat.go", "util/link.go", "devices/filters.go", "util/snoop.go", "cmd/ic/monitor.go", "plm/linkdb.go", "plm/port.go", "cmd/ic/device.go", "cmd/ic/dimmer.go", "cmd/ic/switch.go", "cmd/ic/thermostat.go", "cmd/ic/plm.go"]}
{"id": "C89", "title": "Doing it again: what changes", "statement": "Reading a device's link records again within an hour of the reading returns the same records with nothing sent or read. Updating them with links that are all known with the same flags sends and changes nothing. Setting the hop counts again leaves only the last setting. After a save without error, saving again does nothing whatever the operating system would answer; after a store without error, storing the same device again does nothing, and after a store whose save failed it saves the whole database. Handing the same message to a device again sends the same bytes if the device wants no checksum; if it wants one, the second time sends the padded message without one and the third is as the first. Completing the links with one address leaves nothing to complete, and removing links again writes records to what they are already. Not the same when done twice: an update with links that are new, while no record is free, appends them to the records each time, since the index does not learn of them; adding a link adds it a second time; and completing the links with two addresses may take two times.", "quantifier": "every message writer and state of it, moment, list of links, answer of the operating system, database, device and message of at most 14 bytes", "why_tests_cant": "Tests call each function once on a fresh state.", "anchors": ["devices/linkdb.go", "devices/basic.go", "devices/filters.go", "util/database.go", "util/link.go"]}
{"id": "C90", "title": "The order of independent things does not matter", "statement": "Two device databases are saved as the same text exactly when they answer every question alike. A file that lists the devices in another order loads as the same database. Storing devices with different addresses in any order gives the same answers and the same text; with the same address the last one counts. The conditions given to Or and And may be given in any order and any number of times. Setting the hop counts and trying again may be applied to a connection in either order, as ic and iwalk do, and of two retrying filters, one inside the other, the number of tries is the product, so their order does not matter. Where the filter of duplicates is put does matter: inside a retrying one it remembers a message once for each try.", "quantifier": "every two databases with three-byte addresses, every list of devices and every rearrangement of it, every list of conditions, every message writer, message and state, every number of tries and hop count", "why_tests_cant": "Tests store devices in one order and use one filter at a time.", "anchors": ["util/database.go:124-157", "devices/matcher.go:80-100", "devices/filters.go:52-63", "devices/filters.go:144-168", "cmd/ic/main.go:103-109", "cmd/iwalk/main.go:80"]}
{"id": "C91", "title": "No two requests to a light, and no two to a thermostat, are the same message", "statement": "Every request that can be made of a switch or a dimmer (on, off, fast, instant, brighten, dim, start, stop, ramps, load sense, backlight) with arguments the protocol has room for is one message, and two requests that are the same message are the same request with the same arguments. The same holds of what a thermostat can be told, except for the zone of a cooling or heating set point, which is not sent. The requests to start linking or unlinking a group and to stop differ from one another and from all of these. So a device that reads the message can tell what was asked.", "quantifier": "every device and firmware, every two requests and all their arguments in range, every connection", "why_tests_cant": "Tests compare each request with the bytes it should have; none compares requests with one another.", "anchors": ["devices/basic.go:192-221", "devices/switch.go:157-177", "devices/dimmer.go:94-143", "devices/thermostat.go:226-293", "devices/thermostat.go:366-371", "commands/commands.go"]}
