# Formal model of `abates/insteon` — design

The code under study is the Go project in `/repo` (module `github.com/abates/insteon`).
Everything here is written from reading the source; nothing of it was compiled or run.

## 1. How the code is modelled

* **Numbers.** Go `int`, `byte`, `uint32` values are Coq `Z`. A byte is a `Z` with `0 <= b < 256`;
  conversions such as `byte(x)` are written `x mod 256` (`GoBase.byte_of`). Go `int` is 64 bit; no modelled
  computation on `int` comes near overflow, so `int` is unbounded `Z` (stated simplification).
* **Byte slices and strings** are `list Z`. A byte slice is the list of its bytes. A string (also one held in a `[]byte` of text) is the
  list of its characters, that is Unicode code points; where the code counts bytes (`len`, slicing) the model says what that means for
  characters beyond ASCII. Bytes that are not valid UTF-8 are outside the model.
* **Errors** are values of the inductive type `GoBase.error`, one constructor per sentinel variable *per package*
  (e.g. `insteon.ErrReadTimeout`, `devices.ErrReadTimeout`, `plm.ErrReadTimeout` are three different values),
  `Wrap e` for `fmt.Errorf("... %w ...", e)`, and `EOther k` for anonymous errors.
  Go `==` on errors is `error_eqb`; `errors.Is` is `errors_is`, which looks through `Wrap`.
* **Panics** (index out of range, nil dereference, nil map write) are the explicit outcome `Panic`.
  Functions which may not terminate are given fuel; running out of fuel is the distinct outcome `NoFuel`, and
  every theorem about such a function says which fuel suffices or that none does; C85 gives a number that suffices for the commands of the tools.
* **Interfaces** (`devices.MessageWriter`, `plm.packetWriter`, `devices.Linkable`, `io.Reader`) are records of
  functions over an arbitrary world type `W`; theorems quantify over every such record, i.e. over every
  implementation, including ones that fail at any point. Go aliasing is modelled only where it is observable
  (stated at each place).
* **Goroutines / channels** (`plm.readLoop` against clients) are a state machine: a *schedule* decides when the
  reader goroutine runs and whether a `select` takes the time-out branch. Theorems quantify over schedules.
* **Time** is not measured: a time-out is a choice of the schedule. Where the code reads the clock, the present time is an input.

Model files contain no proofs. `*_Spec.v` files contain independent specifications (an ideal modem, an ideal device
memory, a list history for the ring buffer, ...). `*_Proofs.v` contain the lemmas. `Props_*.v` contain the
theorem of each property, a concrete example meeting its hypotheses, and `Print Assumptions`.

## 2. Trusted base

* The Coq 8.16.1 kernel (checked again with `coqchk`), including `vm_compute`.
* `Print Assumptions` of every property theorem: *Closed under the global context* (no axioms at all).
* The transcription of the Go text into Gallina (each definition cites file and lines), and the description of Go
  library behaviour it needs: `fmt.Sscanf`/`Sprintf` for the verbs used, `strconv.Atoi/ParseInt/ParseUint`,
  `bytes.Fields`, `strings.Split/TrimSpace/HasPrefix`, `io.ReadAtLeast/ReadFull`, `sort`, buffered channels,
  `encoding/json` (printer and parser transcribed in `GoJson.v`: the part of the syntax and of the decoding rules
  the data needs), `strings.Index/Join`.
* The transcription is checked against the project's own tests: `Tests_Core.v`, `Tests_Devices.v`, `Tests_Plm.v` and `Tests_Util.v` state
  the inputs and expected results of the `_test.go` files (and of `util/testdata`) as cases of the model, and all of them hold. Left out
  are tests of what is not modelled: `error_test.go`, the log writer of `plm/port_test.go`, three format verbs in `plm/packet_test.go`,
  and the text of `dataVar`.
* `vcheck` lists seven library axioms: they are declared in `Coq.ssr.ssrunder`, which the standard library's `ZifyBool`
  loads. No theorem here depends on them (each `Print Assumptions` is closed).

## 3. Modelled and not modelled, exactly

One line for each Go file with functions. "Cited" counts the functions whose lines a comment in a Coq file cites by full path;
"Model files" are the files of rocq/theories (without specifications, proofs and properties) that do. The last column lists the
lines of the functions not cited that way; the reasons follow.

| Go file | Cited | Model files | Not cited: lines |
|---|---|---|---|
| address.go | 7 of 9 | Address, Database, GoBase | 55-57, 60-62 |
| cmd/anonymize/main.go | 1 of 1 | Anonymize | - |
| cmd/ic/device.go | 9 of 10 | IcCmd, IcDev | 96-98 |
| cmd/ic/dimmer.go | 4 of 4 | IcDev | - |
| cmd/ic/main.go | 3 of 4 | DebugLog, IcCmd, IcDev, IcLink, PlmObj, SharedDb, SharedLoad | 121-127 |
| cmd/ic/monitor.go | 1 of 2 | UtilSnoop | 27-33 |
| cmd/ic/plm.go | 6 of 8 | DebugLog, IcCmd, IcDev, IcLink | 30-37, 98-100 |
| cmd/ic/switch.go | 3 of 4 | IcDev | 49-60 |
| cmd/ic/thermostat.go | 1 of 3 | IcDev | 29-45, 47-58 |
| cmd/ic/vars.go | 2 of 3 | IcVars | 40 |
| cmd/isnoop/main.go | 1 of 1 | PlmSnoop, SharedDb, UtilSnoop | - |
| cmd/iwalk/main.go | 1 of 1 | IcDev, IcWalk, SharedDb | - |
| commands/command.go | 8 of 8 | Command, Display | - |
| devices/basic.go | 13 of 17 | BasicDevice, Database, DebugLog, Display, IcLine, IcLink, Parties, UtilLink | 84-86, 97-99, 176-178, 186-190 |
| devices/connection.go | 3 of 3 | MsgWriter, Query | - |
| devices/device.go | 4 of 4 | BasicDevice, Database, IcDev, MemFilters, Query | - |
| devices/dimmer.go | 13 of 15 | Lights | 74-76, 145-147 |
| devices/filters.go | 8 of 10 | Database, Filters, MemFilters | 20-22, 24-26 |
| devices/linkdb.go | 13 of 13 | DevLinkdb, Display, IcLine, MemLinks | - |
| devices/matcher.go | 10 of 11 | Filters, MemFilters, MsgWriter | 34-36 |
| devices/outlet.go | 0 of 1 | - | 7-11 |
| devices/switch.go | 19 of 21 | IcDev, Lights | 105-109, 122-124 |
| devices/thermostat.go | 38 of 38 | Display, F32, Lights, Report, Thermostat | - |
| devices/thermostatmode_string.go | 3 of 6 | Display | 7-20, 32-38, 50-58 |
| devices/util.go | 2 of 2 | BasicDevice | - |
| error.go | 0 of 3 | - | 78-80, 83-85, 88-98 |
| insteon.go | 7 of 9 | Database, Display, SnoopText | 70-72, 76-78 |
| internal/commands.go | 1 of 1 | Autogen | - |
| internal/devcats.go | 5 of 6 | Autogen | 35-37 |
| internal/main.go | 1 of 1 | Autogen | - |
| link.go | 26 of 28 | Display, Link | 139, 146-148 |
| message.go | 20 of 20 | Display, Filters, GoBase, Message | - |
| plm/command.go | 1 of 1 | PlmPacket | - |
| plm/command_string.go | 1 of 1 | Display | - |
| plm/config.go | 17 of 17 | Display, Plm | - |
| plm/info.go | 3 of 4 | Display, Plm | 33-35 |
| plm/linkdb.go | 16 of 17 | Conc, IcDev, IcWalk, PlmLinkdb, Report | 79-81 |
| plm/options.go | 2 of 2 | PlmObj | - |
| plm/packet.go | 6 of 6 | Display, PlmPacket | - |
| plm/plm.go | 13 of 15 | ByteLine, Conc, DebugLog, Display, Filters, GoBase, IcWalk, MemFilters, MsgWriter, Plm, PlmObj, PlmReader, Report | 240-243, 245-248 |
| plm/port.go | 11 of 11 | ByteLine, Conc, Plm, PlmReader, Timing | - |
| plm/snoop.go | 4 of 4 | PlmReader, PlmSnoop | - |
| util.go | 2 of 3 | Timing | 33-39 |
| util/database.go | 16 of 16 | Database, SharedDb, SharedLoad | - |
| util/link.go | 21 of 23 | DebugLog, Display, IcDev, LinkText, MemLinks, UtilLink | 50-54, 443-449 |
| util/snoop.go | 5 of 6 | MemFilters, Report, SnoopText, UtilSnoop | 129-135 |
| util/vars.go | 2 of 3 | IcVars | 23-25 |

Functions of the last column that are modelled under a shortened citation: `devices/basic.go:186-190`, `dimmer.go:145-147` and
`switch.go:122-124` (Display.v); the `init` functions of `cmd/ic/switch.go` and `thermostat.go` (`ic_init` and the subcommand
types in IcDev.v); the two `editCmd` (calls of `editLinks`, `ic_edit` in IcCmd.v).

Not modelled, and why:

* accessors and wrappers of one line that return a field or call one modelled function: `Address.Set/Get`, `Group.Get/String`,
  `Addresses.Get`, `dataVar.String`, `DevCat.Domain/Category`, `BasicDevice.Info/Send/Address`, `NewDimmer`, `NewSwitch`,
  `NewOutlet`, `filter.Read/Write`, `Matches.Matches`, `Snoop`, `PrintLinkDatabase`, `addresses.Set`;
* code that nothing in the programs calls: `error.go:78-98` (trace errors), `util.go:33-39` (commented out),
  `PLM.SetDeviceCategory` and `PLM.RFSleep` (they return ErrNotImplemented), `category.ID` of internal/devcats.go;
* `main` and flag registration, the serial port, log output other than which log is switched on and, in DebugLog.v, the effect of putting a modem into text for it, the editor started by `editLinks`;
* of the generator in `internal/`: `html/template` itself (the templates are modelled as the text they produce), `go/format` (an
  arbitrary partial function); of generated files the compile-time checks `_()`.

Simplifications, beside those noted at each definition:

* the devices and the modem at the other end: no claim but C67 assumes how they behave beyond what its hypotheses say; C67 is about the
  network defined in `NetSpec.v`, which is an idealisation of Insteon devices and is not derived from code;
* slices are values, except the lists of links handed to `WriteLinks`, `AddLinks`, `UpdateLinks` and `fixCrosslinks`, which also have a
  model with their memory (MemLinks.v); the cached links of a device are values there too, no other slice shares their array;
* messages are values, except in the filters of devices/filters.go and util/snoop.go, which also have a model with message objects in
  memory (MemFilters.v); C80 says for which chains the two agree;
* loading the device file is one step beside the writes of other runs in SharedDb.v and single reads in SharedLoad.v; each text is as many bytes as characters (the
  texts a save writes are ASCII);
* float32 temperatures are the rational numbers they stand for, rounded to nearest even after every operation (F32.v); zeros carry no sign and overflow cannot happen at these sizes;
* a read of the port that is interrupted in the middle of a packet is taken up again at the beginning of that packet when more bytes
  are there (`ByteLine.v`); bytes arrive before an operation or while it waits, never during a write;
* goroutines sharing a modem (`Conc.v`): each access to the port, a channel or a field is one step, and all goroutines see the steps in
  one order; reading or assigning a slice (three words) and copying records are one access each; the caller's list of links is not
  changed by another goroutine during `WriteLinks`;
* text is the list of its characters; text that is not valid UTF-8 is not modelled;
* the text of an error value in a snooped line is a parameter;
* `Time.Add` and `Time.Sub` do not overflow; `sort.Sort` gives any sorted permutation;
* the command-line library calls a command's callback, then the subcommand's, and stops at the first error;
* what was printed before a crash is not kept.

## 4. Properties: what is modelled and how it is proved

| id | model | proof plan |
|----|-------|------------|
| C01 | `address.go`, Sscanf subset | induction-free: digit-level lemmas by byte sweep, composition for all a < 2^24; rejection lemma over all texts |
| C02 | `message.go` codec | list case analysis, arithmetic on bytes |
| C03 | flags | exhaustive byte sweep lifted by `forallb_forall` |
| C04 | `Duplicate` | characterisation; the full claim is false (message type ignored): refutation with witness |
| C05 | `link.go` binary, ID | arithmetic; injectivity of the 5-byte id |
| C06 | `link.go` text, `util.LinksToText/TextToLinks` | line-level round trip, induction on list; exact claim false for other flag bits: refuted, normalised round trip proved |
| C07 | `packet.go` | per-command sweep over the length table |
| C08 | packet reader over a list stream | induction on packet list; chunking by a chunked reader refined to a list |
| C09 | packet reader | invariant: bytes written to the buffer never exceed its size |
| C10 | packet reader | false: refuted for a stream ending in a lone start byte; termination proved otherwise |
| C11 | `readLoop` + queues | invariant by induction over schedules |
| C12 | `WritePacket` | case analysis over all replies |
| C13 | `retryWriter` | induction on retry budget over logged environment; PLM time-out never retried: refuted |
| C14 | `PLM.Write` | induction on queue; stale ack: refuted |
| C15 | closed channels | refuted: panic with witness |
| C16 | `plm/linkdb.refresh` | induction over ideal modem database |
| C17 | `plm/linkdb.WriteLinks` | induction over both lists with an arbitrary failing environment; unloaded cache refuted |
| C18 | `plm/linkdb.WriteLinks` | refuted with witness |
| C19 | `IterateDevices` | induction |
| C20 | `CacheFilter` | refinement to list history by induction over pushes |
| C21 | `FilterDuplicates` | refinement to a specification on histories |
| C22 | `RetryFilter` | induction over tries; PLM time-out: refuted |
| C23 | `TTL` | byte sweep |
| C24 | checksum | modular arithmetic over all payloads; full 14-byte payload refuted |
| C25 | `BasicDevice.Write`, `errLookup` | case analysis over all transports |
| C26 | `devices/linkdb.refresh` | induction over stream; foreign traffic refuted |
| C27 | `WriteLink` | simulation relation against device memory |
| C28 | `WriteLinks` | simulation; shrinking refuted |
| C29 | `UpdateLinks` | restricted theorem; wrong index refuted; every update bounded (which records can be lost or cut off) by an invariant of the loop; the single known link exactly |
| C30 | `linkdb.AddLinks` | refuted |
| C31 | `util.AddLinks` | traces over arbitrary devices, induction over the ideal device; lost errors, cut databases and stale memory refuted |
| C32 | `util.RemoveLinks` | induction; swallowed errors refuted |
| C33 | `util` linking | trace reasoning over arbitrary environments |
| C34 | `util.UnlinkAll` | refuted; partial |
| C35 | `util` searches | induction |
| C36 | `Anonymize` | induction with a map invariant; coinciding random addresses refuted |
| C37 | `MissingCrosslinks` | refuted; exact restricted claim proved |
| C38 | `Less` | arithmetic on the rendered text; weak order refuted above 24 bits |
| C39 | `memDB` | induction over histories against a finite-map spec |
| C40 | `memDB` save/load | round trip on JSON text (printer and parser in `GoJson.v`); failed load refuted |
| C41 | `SaveDB` | byte-by-byte crash points; refuted; a cut document never parses |
| C42 | `Open` | case analysis; filters refuted |
| C43 | `Open`, `IDRequest`, `GetEngineVersion`, `ProductData` | case analysis over arbitrary transport; foreign source refuted |
| C44 | `thermostat.go` | one-request specification over arbitrary transport, tables, polling traces; wrapping setpoints, zone, time format, checksum byte refuted |
| C45 | `switch.go`, `dimmer.go` | one-request specification over arbitrary transport, byte sweeps; ranges refuted |
| C46 | `commands` | bit arithmetic |
| C47 | config | byte sweep |
| C48 | `cmdVar` | digit lemmas, exact acceptance; bytes >= 0x80 and signs refuted |
| C49 | `plm/snoop.go`, reader of `cmd/isnoop` | framing of both directions, interleavings of three goroutines over the channel; host side, refused echoes and undecodable frames refuted |
| C50 | `devices.Read`, matchers | induction over message sequence |
| C51 | `LinkRequest` codec | case analysis |
| C52 | `Info`, `Address`, `Reset` | case analysis over replies |
| C53 | `plm/linkdb.go` requests | case analysis; empty manage-record frame refuted |
| C54 | `dataVar`, `util.Addresses`, `Group.Set` | induction over the arguments; trailing garbage refuted |
| C55 | `cmd/ic/plm.go` link, unlink, flags; `open` of `cmd/ic/main.go` | traces over arbitrary openers and devices, byte sweep for the flags; devices after the first, hidden failures, inert unlink refuted |
| C56 | `editLinks` of `cmd/ic/device.go` | composition with the text form (C06) over arbitrary editors; untouched records and failed reads refuted |
| C57 | `util/snoop.go` | induction over the operations with the cache invariant of C16; independent relation for the lines; overheard acknowledgements and empty reads refuted |
| C58 | `cmd/ic/monitor.go` | log of the loop over any writer, invariant of the modem state for unbounded running; mislabelled message and closed port refuted |
| C59 | `cmd/anonymize/main.go` | texts as character lists; independent relation for the lines of a text; reuse of C06 round trip and C36 substitution; crash points as prefixes of the file steps; comment leak, lost comment and lost file refuted |
| C60 | `util.go`, `plm/port.go` | integers in nanoseconds with int64 wrap-around; any clock that is monotone; promoted method modelled as what the interface calls; four refutations |
| C61 | Display.v: texts of command words and messages (commands/command.go, commands/commands.go, message.go) | The text is cut at its separators; each part is injective, the command names by a sweep of the table; the shared ramp names give the refutation |
| C62 | Display.v: texts of packets, settings, equipment states, records, requests, devices, dumps and listings (plm/, link.go, devices/, util/link.go) | Byte sweeps for names and flags; cutting at separators for texts; a listing is any sorted permutation put through the template; witnesses for the refuted parts |
| C63 | IcDev.v: the device, dimmer, switch and thermostat commands (cmd/ic/device.go, dimmer.go, switch.go, thermostat.go) over any opener | Case analysis on the opened kind; the request facts of C44 and C45 give the one request; witnesses by vm_compute for the refuted parts |
| C64 | IcDev.v: print_dev_info, dim_config_text, therm_text, plm_info_cmd, ic_logging, iwalk (cmd/ic/device.go, dimmer.go, thermostat.go, plm.go, main.go; cmd/iwalk/main.go) | Texts are cut line by line (no line contains a newline) and each line's number or name is injective; induction over flags and addresses for the log and the walk |
| C65 | IcLine.v: device_links; IcDev.v, Database.v, BasicDevice.v, Message.v, Plm.v composed (cmd/ic to plm/plm.go) | A program moves the world along a preorder if its reads and writes do (MovesProofs); the preorder is 'only frames to a were added'; the frame of a request from the message layout; a success traced back to the packet it decoded |
| C66 | IcWalk.v: modem_devices, walk_network (cmd/iwalk/main.go:76-95 over plm/linkdb.go, util/database.go, devices/linkdb.go) | Record loop: line and records traced to packets by induction on fuel; devices: C65's preorder for each callback in turn, own addresses kept by every opening; told records: induction on the list along the schedule |
| C67 | UtilLink.v, IcCmd.v as they are; NetSpec.v: the network (util/link.go:124-429, cmd/ic/plm.go:127-157) | Each operation computed on the network; the set of records in use before and after related by what was added or removed; induction on the devices and on the records |
| C68 | IcLink.v: the tool's linking over database, devices and modem (cmd/ic/plm.go:127-157, main.go:103-119, util/link.go:266-282) | Each start and stop as an operation that adds given frames and keeps retries and queues; composed along force_link; induction on the addresses.  Any outcome: the relation "only such frames were added" is a preorder every step respects |
| C69 | ByteLine.v: the reader goroutine between bytes and packets (plm/plm.go:94-120 over plm/port.go:105-218), as a schedule for Plm.v | Unique reading of a stream as noise and frames from the reader's cases (C09, C10); invariant over time that the held bytes are what is left; every packet in a queue since the start is a frame whose last byte came since; case analysis over the ways two packets are spread over three steps; with other traffic, induction over the messages passed over, the queues as functions of what came in (TrafficProofs.v) |
| C70 | Conc.v: the methods of plm/plm.go and of the modem's link database (plm/linkdb.go) as trees of accesses, any number of them interleaved; the records have memory (GoSlice.v) | Both directions between one tree alone and the schedules of Plm.v and PlmLinkdb.v; the queue of C11 as an invariant of every step; a predicate carried along each goroutine's tree for what it sent and received; an injection of successful calls into acknowledgements; witnesses by vm_compute |
| C71 | Conc.v: the field `timeout` of the modem under interleaved calls | Invariant over the values each goroutine's tree may assign; a second one for a single assigning goroutine; witness by vm_compute |
| C72 | F32.v (float32), `ThermostatInfo.UnmarshalBinary` and `String` in `devices/thermostat.go` | Error bound of each rounding, so that the nearest tenth is decided for every temperature at once; independent description of the lines; cutting the text line by line for what it tells; checksum witness |
| C73 | `PLM.String`, `Info.String`, `manageRecordRequest.String`, `allLinkReq.String`, `snoop.payloadStr` | C52 for the question, cutting texts at fixed widths, induction over the loop with its index |
| C74 | `snoop.print`, `snoop.payloadStr` as text | A check of the table of names: no name followed by what may follow one reads as another name; cutting the line field by field; C57 for which lines are written; induction over both displays |
| C75 | `WriteLinks`, `AddLinks`, `UpdateLinks`, `fixCrosslinks` on slices in memory | A relation between the run on values and the run in memory, kept by every step of the loops; the list as three parts of its array |
| C76 | Conc.v: the link database with the memory of its records, under interleaved calls | Rely and guarantee: an invariant of the database, what each goroutine may rely on and what it may do, carried along its tree together with what it received (ConcDbProofs.v); four instances; witnesses by vm_compute against the modem of PlmLinkdbSpec.v |
| C77 | Conc.v: the field `address` of the modem under interleaved calls | The same rely and guarantee argument with the address in the invariant; witnesses by vm_compute |
| C78 | Link.v, LinkText.v; EditLineSpec.v has the grammar of a line: words, flags, group, address, data | Equivalence of the parser and the grammar, word by word; induction over the characters for words and over the lines for the text |
| C79 | PlmObj.v: modem objects, New and its options, copying an object (plm/plm.go:56-97, plm/options.go, cmd/ic/main.go:100) | A relation between the heap with both objects and the plain modem, kept by every method; programs over packet writers run alike when the writers do; the remembered address plays no part in packets |
| C80 | MemFilters.v: the filters with messages as objects in memory, the hop counts changed in place (devices/filters.go, util/snoop.go); Filters.v and UtilSnoop.v beside it | A relation between memory and values kept layer by layer: cached objects agree but for hop counts, and exactly if they have a sender; two properties of a chain, whether it needs the very message and whether it leaves it, say when retries are safe |
| C81 | Autogen.v, AutogenData.v | AutogenSpec.v says how a table is written as csv and how a Go source text is read back as a table of entries, constants or names. The csv reader is shown to read every written table back (induction over rows and fields); each line the templates write is read back as its entry and every other line as none. The repository's own files by computation. |
| C82 | SharedDb.v: runs of the tools over one file (cmd/ic/main.go:94-97, cmd/iwalk/main.go:54-57, cmd/isnoop/main.go:61-65), with the steps of SaveDB (util/database.go:185-198) | An invariant over all events of whole writes: the file is empty or the newest save's text followed by the end of an older one, which JSON refuses (a printed object with more than white space behind it does not parse). For saves that do not overlap, a relation to histories of puts; a file that does not load is never changed again. Counterexamples by computation. |
| C83 | SharedLoad.v: LoadDB with ioutil.ReadAll as single reads (util/database.go:132-138, 203-215) beside the events of SharedDb.v | Invariant: every byte of the file and of what was read is the byte at its place in a saved text, so a load that succeeds begins with a brace, gives a well-formed database, and none of its bytes is white space (a whole text with more behind it is refused). Undisturbed reads by induction on the events with the number of bytes asked for. Counterexamples by computation. |
| C84 | DebugLog.v: the text of a Linkable (plm/plm.go:261-263, devices/basic.go:182-184) in util/link.go:298-326, 390-404 and cmd/ic/plm.go:127-157, cmd/ic/main.go:103-119 | The link command is the text of the modem followed by the command of C68 (the text of a device does nothing); the frames of the text by the lemma on retried writes; opening leaves the address alone, so whether the question is asked is decided by the first state. Unlinking as the linking of C68. Counterexamples by computation. |
| C85 | The loops of plm/plm.go:133-141, devices/connection.go:77-85, devices/linkdb.go:166-187, plm/linkdb.go:101-114 under IcDev.v, IcLine.v, IcLink.v, IcWalk.v, UtilLink.v with the parties of Parties.v | A relation between states counts the packets used up (queued before, plus arrived, minus still queued); a turn of every loop uses up one. A predicate on pairs of programs - the first reports the end of its turns only after N packets, and otherwise the second does the same - is closed under sequencing and proved for every command by following its structure. Counterexamples by induction on the number of turns. |
| C86 | Display.v, LinkText.v, Report.v, IcDev.v | The specification gives each text as a list of pieces (words, bytes in two hexadecimal digits, decimal numbers, addresses, line ends) and a relation between such lists and texts. Each formatting function is shown to meet its list by walking along it; digits are related to numbers by their value, and two texts with one list are shown equal by induction over the list. |
| C87 | As for C85 | A relation between states bounds frames and waits by the packets used up and a number of units (one message with all its retries); it is closed under sequencing by adding units. Every program is followed once with its number of units; each round of a loop is paid for by the packet it uses up. The counterexamples of C85 are counted by induction on the turns. For the functions that list records first, the list is shown to be no longer than what is remembered or the packets used up, and the work per record is added. |
| C88 | `DevLinkdb`, `UtilLink`, `BasicDevice`, `Query`, `Lights`, `Thermostat`, `Filters`, `UtilSnoop`, `MemFilters`, `PlmLinkdb`, `IcDev`, `IcCmd` unchanged, over a message or packet writer that notes failures | A judgement with the failure still to be reported, closed under sequencing; each program is followed once. For UpdateLinks, the position after a failed write is shown to be out of range. |
| C89 | `DevLinkdb`, `BasicDevice`, `Filters`, `Database`, `UtilLink` unchanged | Follow the second call from the state the first one leaves; the checksum of a message that has a valid one is the byte it replaced. |
| C90 | `Database`, `MsgWriter`, `Filters` unchanged | Insertion of members with different keys commutes, so sorting forgets the order; back by loading the text. Nested retries are unrolled into a count of attempts. |
| C91 | `Lights.v`, `Thermostat.v`, `BasicDevice.v` | each request is one message with a known command and data (from `outgoing_is_request`); a connection that keeps what is written shows the message is unique; then compare the codes case by case |
