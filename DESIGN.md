# Formal model of bluetooth-hci in Rocq/Coq 8.16.1

Source: `/repo` (danielgallagher0/bluetooth-hci), read as text, never built or run.
Model: `/verif/rocq/theories/*.v`, logical name `Verif`.

## 1. Files

| file | contents |
|---|---|
| `Base.v` | outcome monad (`Ok`/`Err`/`Panic`), slices, little-endian access, buffer writes, integer helpers |
| `Model_Types.v` | features, vendor interface, `Status`, `Opcode`, addresses (`lib.rs`, `opcode.rs`) |
| `Model_Bitflags.v` | `bitflag_array!`, `ChannelClassification`, `CommandFlags`, bitflags masks |
| `Model_Intervals.v` | `types/connection_interval.rs`, `expected_connection_length.rs`, `advertising_interval.rs`, `scan_window.rs`, `types/advertisement.rs` |
| `Model_EventBase.v` | the vendor interface, `event::Error`, and the helpers the event decoders share |
| `Model_Event.v`, `Model_Command.v` | `event/mod.rs`, `event/command.rs` |
| `Model_Host.v` | `host/mod.rs` (all command methods), `host/uart.rs`, `host/cmd_link.rs`, `host/event_link.rs`; the `Controller` trait as a record of functions on an abstract state |
| `Model_FlagNames.v` | the names of all bitflags constants, and the bitflags operations on them |
| `Model_Debug.v` | the hand-written `Debug` implementations as strings |
| `Model_Log.v` | derived `Debug` of events, return parameters, errors, intervals and parameters; of `Duration` (core) and `bitflags!` types (bitflags 1.2) |
| `Model_Doc.v` | the example in the documentation of `Controller::peek` |
| `Model_Access.v` | getters, defaults and constructors that only copy fields |
| `Model_Equal.v` | derived `PartialEq` of statuses, addresses, handles, opcodes, small enums, scan parameters, keys and errors |
| `Spec_Wire.v` | packet layouts of every event and of all return parameters, as encoders; iteration |
| `Spec_Errors.v` | the checks of each event in order, with their errors |
| `Spec_Interval.v` | legal connection parameters, units, rounding |
| `Spec_Report.v`, `Spec_Vendor.v` | advertising report entries, the packets that panic; what belongs to the vendor |
| `Spec_Flags.v`, `Spec_Adv.v`, `Spec_Host.v`, `Spec_Link.v` | flag arrays as sets; advertising data structures; command frames and documented answers; controller contract and byte streams |
| `Spec_Versions.v` | comparison of feature selections, packets that decode alike |
| `Spec_FlagNames.v`, `Spec_Core.v` | names and bit positions given by the Bluetooth specification; its PHY codes and advertising report entries |
| `Spec_Conform.v` | what a conforming controller may send: fields and ranges of every supported event and reply |
| `Spec_Sent.v` | what a conforming host may send: fields and ranges of every supported command; a connection made as asked |
| `Spec_Accepted.v` | what the crate takes for an event: the formats of `Spec_Conform.v` with what is not checked left open |
| `Spec_Retry.v` | waiting as `nb::block!` does; the new name of a renamed method |
| `Spec_Dialogue.v` | a device that answers commands; a host that asks and waits for the answer |
| `Spec_Repeat.v` | a host that asks for the reported connection parameters again |
| `Spec_Split.v` | sessions and dialogues over a command link and an event link |
| `Spec_Pass.v` | places of handles, addresses, keys in events and commands |
| `Spec_Blame.v` | what each error claims about the packet |
| `Spec_Device.v` | the settings of a controller, changed by the bytes of a command and by a call |
| `Spec_Air.v` | what a controller with given settings sends over the air and whom it connects to, and the same in terms of calls |
| `Spec_Same.v` | the same bytes with and without packet types, and applications that run in turns with their arrival |
| `Spec_Enabled.v` | event masks in the controller and in the calls |
| `Spec_Follow.v` | the connections of a controller, from the packets, and those an application knows of, from the events |
| `Spec_Credit.v` | completed data packets and room for commands, from the packets and from the events |
| `Spec_Watch.v` | controllers that tell all about their connections, and the flags for that |
| `Spec_Loop.v` | applications and devices that answer each other, with ideal channels and with the crate |
| `Spec_Demand.v` | controllers that refuse calls, count calls or have little memory |
| `Model_Release.v` | the functions with `u32`/`u64` arithmetic as the release profile runs them (wrapping) |
| `Spec_Network.v` | a network of devices, the connections between them and what their controllers report (C91) |
| `Spec_Damage.v` | streams of packets in which one byte is changed (C92) |
| `Model_SetOps.v`, `Spec_Sets.v` | the remaining operations of the `bitflags!` types; expressions for sets of flags (C93) |
| `Spec_Known.v` | the flags of the events the crate decodes; what comes from a controller that follows them (C94) |
| `Model_VendorCall.v`, `Spec_VendorCall.v` | the program that sends a vendor command with the public parts of the crate; sessions that mix such commands with calls and reads (C95) |
| `Model_Word.v`, `Spec_Word.v` | the code with arithmetic on `usize` as a machine with limited words runs it; what Rust promises about `usize` and slices (C96) |
| `Spec_Ask.v` | a host that asks for the supported commands and sends only those (C97) |
| `Spec_Numerals.v` | reading the numbers in a text (C55 - C57) |
| `Spec_Lost.v` | lost and extra bytes (C98) |
| `Spec_Faults.v` | a controller that records its errors (C30) |
| `Spec_Facts.v` | what packets tell and hosts note down (C99) |
| `Spec_Reading.v` | the packets in any bytes (C100) |
| `Spec_Log.v` | texts that can be read back, and events that say the same (C101) |
| `Spec_Program.v` | programs that choose calls from results, polling or waiting, and what they do with ideal channels (C102) |
| `Spec_Data.v` | data packets, a receiver that tells packets apart, and programs that take and write data themselves (C103) |
| `Spec_Window.v` | a controller with data buffers, and a host that counts the packets outstanding (C104) |
| `Spec_Turns.v` | room for commands at a controller, and a host that counts answers (C105) |
| `Spec_Own.v` | commands and answers by opcode, and a controller that answers those with the same opcode in order (C106) |
| `Spec_Apart.v` | the host of C105 and C106 over a command link and an event link (C107) |
| `Spec_Keys.v` | requests for keys and their answers, in bytes and in calls (C108) |
| `Spec_Secure.v` | the packets of LE Start Encryption, what goes over the air, and when the keys are the same (C109) |
| `Spec_Live.v` | runs without an end, controllers that are prompt, and devices that go on answering and freeing buffers (C110–C112) |
| `Spec_Names.v` | C113: numerals, times, names of statuses and bits, the fields of each packet with their places, and the texts of errors and parameters |
| `Spec_LiveOwn.v` | C114: a controller that answers all commands with some opcode at some time |
| `Spec_Equal.v` | C115: comparison by what values show |
| `Spec_LiveApart.v` | C116: a controller that goes on over separate links |
| `Spec_Crash.v` | C117: the moments of a call, programs that are stopped and started again |
| `Spec_Threads.v` | C118: a reader and a sender that share a device |
| `Spec_Restart.v` | C119: a device over several programs, commands that earlier ones left without an answer |
| `Spec_Share.v` | C120: threads, and runs in which a schedule says who has the lock |
| `Spec_Scan.v` | C121: whom a scanner hears and asks, and who answers, by settings and by calls |
| `Spec_Update.v` | C122: programs that follow one another, each with its version and vendor |
| `Spec_Meet.v` | C123: an initiator and an advertiser that connect, and what both report |
| `Spec_Refuse.v` | C124: a controller that refuses some commands, and a host that goes by the answers |
| `Spec_Several.v` | C125: a controller that refuses some of several commands under way |
| `Spec_Approved.v` | C126: sessions in which the host goes by the answers |
| `Spec_Learn.v` | C127: the example; its other notions are those of C114, C116 and C125 |
| `Spec_Rest.v` | C128: runs in which the host at some time has sent its last command |
| `Spec_Done.v` | C129: a program that sends a list of commands in turn, and transports that do not fail for ever |
| `Spec_Granted.v` | C130: the commands of a list that a controller accepts, and runs of the program of C129 |
| `Spec_Deliver.v` | C131: a program that sends a list of data packets in turn |
| `Spec_Mixed.v` | C132: a program that sends commands and data, each in its turn |
| `Spec_Made.v`, `Spec_Common.v`, `Spec_Debug.v` | sizes of reports made by a program; the assigned numbers of advertising data types; what it means that formatting ends |
| `Spec_Example.v` | one vendor and three feature selections for the examples |
| `Proofs_*.v` | lemmas |
| `Tests_*.v` | the crate's own tests (all of `tests/*.rs` and the doc test of `bitflag_array!`), run on the model; no properties |
| `Properties_*.v` | the property theorems only, each followed by `Print Assumptions` and a concrete `Example` that meets its hypotheses |

## 2. Modelling decisions

* **Integers and bytes** are `N`; a byte is an `N` below 256. Buffers are `list N`. Theorems about buffers assume `bytes l` (all elements below 256), which is what `&[u8]` says.
* **Panics are values.** `outcome E A = Ok a | Err e | Panic`. Every index, slice, `copy_from_slice`, `assert!`, `unwrap` and overflow-checked arithmetic operation of the source is a checked operation in the model that gives `Panic` when the Rust operation would panic. Nothing is totalised with a default.
* **Arithmetic overflow** is modelled as `Panic` (debug profile). `Model_Release.v` models the same functions with wrapping arithmetic (release profile); C90 shows that the two agree on all values a program can hold.
* **`core::time::Duration`** is its total number of nanoseconds, below 2^64 * 10^9. `as_secs`, `subsec_millis`, `subsec_micros` are div/mod. `from_micros`, `from_millis`, comparison and checked multiplication by `u32` are on the total.
* **Cargo features** are a record of booleans (`version-4-2`, `version-5-0`); `version-4-1` is never tested by the source. All theorems quantify over all four selections. Enum variants that exist only with a feature are constructors with a predicate saying when they exist.
* **Vendor code** (`Vendor` trait and associated types) is a record of arbitrary functions. Theorems quantify over it. Where a theorem needs the vendor not to panic, or its status codes to be bytes, the theorem says so. The `read` methods take their vendor type as a parameter of the trait, not from the controller, so it may be any and may differ from call to call (C122 with programs of one call each).
* **Controller** (trait) is a record of functions on an arbitrary state type. `write`, `read_into` and `peek` return a new state and an `nb::Result`. The documented contract is the predicate `contract` in `Spec_Link.v`. A concrete buffering controller with arbitrary arrivals is shown to meet it.
* **Private fields**: a Rust value of a type with private fields can only be obtained through constructors, so theorems about such values assume the reachability predicate (`ci_reachable` etc.: "some sequence of API calls returned it").
* **Not modelled**: derived `Debug` of types other than those in `Model_Debug.v` and `Model_Log.v` (builders, iterators, packet headers, advertising data, bit arrays other than `ChannelClassification`), formatter errors, `{:#?}`, `Clone`/`Copy`, `From` conversions between error types beyond their effect on the result, `defmt`/serde-like derives, doc text, the macro machinery itself (`bitflag_array!`, `bitflags!`, `opcodes!`) other than the definitions it expands to, `from_bits_unchecked` (unsafe).

## 3. Trusted base

* Coq 8.16.1 kernel (including `vm_compute`).
* The standard library; no axioms are used: every `Print Assumptions` prints "Closed under the global context". `coqchk` lists the parameters of `Coq.ssr.ssrunder.Under_rel`, which the standard library loads with its tactics; no theorem depends on them.
* The hand transcription of the Rust source into the `Model_*.v` files (each definition cites file and lines), of the Bluetooth layouts into `Spec_*.v`, and the reading of core/byteorder/bitflags/nb APIs given in section 2.
* As evidence for the transcription, `Tests_*.v` run every test in the crate's `tests/` directory on the model (187 examples). A test without `cfg` is run with all four feature selections.
* `tools/tables.py` compares the constant tables of the model (flags with names and versions, opcodes, status codes) with the Rust text: `python3 tools/tables.py /repo`. Not part of the build.

## 4. Properties: model and proof plan

| id | model and statement | proof |
|---|---|---|
| C01 | `event_new` on all byte lists; iff for both BadLength forms | case analysis on length |
| C02 | iff on UnknownEvent; each event constructor implies its code | case analysis over the dispatch |
| C03 | `event_never_panics` **refuted** by witnesses; `event_panics_iff` gives the exact set by an independent predicate on bytes | list destruct per decoder; strong induction for the report iterator |
| C04, C05 | `event_new pkt = Ok (EvX fields) <-> pkt = layout_X fields` with `layout_X` an encoder in `Spec_Wire.v` | destruct payload into its bytes; LE arithmetic by lia; interval part via C23 |
| C06 | `event_new` on wrong lengths; error-order spec as list of (check, error) pairs, first failing | as C04 |
| C07 | iterator unfolded to lists; `<->` with `concat` of encoded pairs | induction on the number of pairs |
| C08, C09 | relational iterator steps; `<->` with `flat_map encode_entry` | strong induction on remaining length |
| C10–C12 | `command_complete_new` dispatch table; layouts as C04 | case analysis on the opcode, list destruct |
| C13 | finite domain 256 codes × features, vendor arbitrary | computation + case analysis |
| C14 | equations, plus independence: result does not depend on vendor decoder for other packets | case analysis |
| C15 | bit operations on N | N.bits lemmas / finite check with div/mod |
| C16 | table vs literal (OGF,OCF) in spec; distinctness | case analysis |
| C17–C19 | bit-level statements with `N.testbit`; inductively defined API-reachable flag values | N.bits_inj, induction on operations |
| C20–C23 | builder call sequences; all durations | lia with div/mod |
| C24–C26 | as C20 | lia |
| C27 | TLV layout; reference AD parser; concatenations | induction on the list of structures |
| C28 | one API-call type `command`; spec encoder written with literal opcode bytes | case per command |
| C29, C43 | exact iff for rejection; no `Panic` for reachable arguments | case per command |
| C30 | trace of controller calls of a command is at most one write and the result is a function of it; for reads, a controller that records its errors | shape lemma; case analysis on the calls |
| C31 | generic in header | shape lemma |
| C32 | reference stream parser; induction over sequences | induction |
| C33 | spec table command → documented variant | case per command |
| C34–C37 | contract-based; any controller; any call history | invariant over histories |
| C38 | interleavings of reads and commands | induction on the history |
| C39 | bit-count spec by `N.testbit`; all 2^48 addresses | popcount lemmas per byte (finite), sums |
| C40 | order on features; relation on results | case analysis |
| C41 | **refuted** + exact delivery condition | witness by computation, C05 |
| C42 | prefix/suffix statements for all buffers | list lemmas |
| C44 | from the `<->` layouts (functional encoders) | corollary |
| C45 | composition of C27, C28, C08 | corollary |
| C46, C47, C49, C50 | names of constants as strings next to their bits; tables of the specification; composition with C28 and the event layouts | finite checks lifted by `forallb_forall`, `N.testbit` lemmas |
| C48 | **refuted** + exact set of refused conforming replies | finite check of 512 bits, C12 |
| C51 | **refuted** for all PHY pairs + exact result | C05, C06 |
| C52 | **refuted** + exact condition | C08, C09 |
| C53 | `report_loop` on an arbitrary list; sizes by `list_sum` | induction on the list, C08 |
| C54 | **refuted** + exact set; registry as list of code and name | finite check |
| C55 | texts as strings; formatting loop with fuel, shown to end | induction on the entries; unambiguous texts compose; numerals read back digit by digit |
| C56 | **refuted** + exact condition on bits | as C55, bit lemmas |
| C57 | **refuted** + exact dependence of the text | as C55 |
| C58 | **refuted** + exactly which conforming packets are refused | packet formats (C05–C12) on every layout; refusals from the inverse direction and C41, C48, C51, C52 |
| C59 | **refuted** + exactly which arguments are sent outside the ranges | C28 and the ranges of reachable values (C21, C24–C26) on every format |
| C60 | **refuted** + exact condition on the controller's choice | C21, C28, C05 and C41 composed |
| C61 | **refuted** + exactly which packets are accepted | C05–C12 in both directions on every layout |
| C62 | as stated | arguments that exist or can be built in a version exist in newer ones; C28 and C29 |
| C63 | **refuted** + how many bytes are taken and when it is the event | the contract, step by step |
| C64 | as stated | induction on the attempts over C34, C37, C38; progress on the queue |
| C65 | as stated | induction on the commands, the unrelated events and the chunks over C64, C09, C10 |
| C66 | as stated | C20, C23, C25, C26 through the getters |
| C67 | **refuted** + exact result of any number of rounds | C05, C20, C28 and C22 composed; induction on the rounds |
| C68 | as stated, for two handles to one device | as C32, C38, C64 and C65, with the other header and the other read |
| C69 | as stated | C34 and C37 at the end of C38 and C68 |
| C70 | positions of handles from the specification | layouts of C04, C05, C11 and C28 put together; bytes of a number determine it |
| C71 | positions of addresses | C08, C05 and C28 put together |
| C72 | as stated | C11 and C28 put together; a flag array is obtainable if only defined bits are set |
| C73 | the request the other controller makes from the parameters sent | C28 and C05 put together |
| C74 | the event the other controller makes from the parameters sent | C28 and C04 put together |
| C75 | for each error, a statement about the bytes of the packet | cases on the code; the ordered checks of C06, C08 and C11 |
| C76 | a receiver that changes its settings by the bytes of each command, and what each call asks for | per command on the bytes; then along the session (C35, C68) |
| C77 | entries put on the list and not taken off in the history of calls | C76 and induction over the calls |
| C78 | the report about a controller with given settings, decoded on another device | C76, then the packet lemma for reports with one entry |
| C79 | connections attempted by a controller with given settings | C76 and C77; C78 for addresses that were seen |
| C80 | connections accepted by a controller with given settings | C76 and C77 |
| C81 | one application on two queues that get the same packets in the same pieces | both reads find the same packet (C35, C37); simulation over the turns |
| C82 | event masks as settings of the controller, flags by name | C76 for the masks, the constants of C46 |
| C83 | list of connections from packets and from events | the packets consumed are those read (C34, C68), layouts of the events (C04, C05, C11), conforming packets refused (C58); simulation over the packets |
| C84 | sums of counts by connection | pairs of an event (C07), packets read as in C83; induction over the packets |
| C85 | last number given | layouts of both events, conforming packets refused (C58); induction over the packets |
| C86 | masks of C82 in front of the packets of C83 | flags as bits, packets about connections pass; one packet for each flag shows it is needed |
| C87 | `serve`: application over either transport on the device of C65 or any controller of the contract; `ideal`: the same with lists of messages | refinement by induction on the number of messages, with a bound for the attempts; converse from what one read consumes |
| C88 | wrappers around any controller: `modest` panics at other calls, `counting` counts them | case analysis of the calls of each read and command, induction on the session |
| C89 | `tank_controller`: a buffer of bounded size with back pressure | it keeps the contract of C34; a measure of missing bytes and time to the next one decreases with each call |
| C90 | second model of the functions with arithmetic, with wrapping operations | equal to the first one for all reachable values, because every intermediate value is below the bound |
| C91 | connections with two ends, what happens to them, and the packets that each controller sends about it | the truth projected to a device is what its packets say (invariant: a handle names one connection), then C83 at both ends |
| C92 | one byte of a stream of packets is replaced | the stream is still a stream of packets unless the byte is a length or a packet type; then C35 and C36; witnesses for the others |
| C93 | the operations of bitflags 1.2 on the bits; expressions over the named flags, with their value and the set they denote | bit by bit, by induction on the expression; names and bits of each type are distinct by computation |
| C94 | the masks given last (C82), the named flags, and the packets that a controller with these masks sends | a bit of a mask is the bit of a flag (C93); flags and decoded codes are compared by computation; what the error says of the packet is C75; sessions as in C38 |
| C95 | the documented way to send vendor commands; sessions of calls, reads and vendor commands | induction over the session, for any transport, from the contract of `write` and the steps of C38 and C68; the stream is split by the parsers of C32 and C68 |
| C96 | `usize` arithmetic with a bound, checked or wrapping, in every function that has it | each operation stays below 2^16 or below twice the longest slice; induction over the iterations |
| C97 | the host of C65, which first asks for the supported commands and tests the flag named after each command | flags and bits agree by C47's table and `is_set_spec`; then the dialogue of C65 |
| C98 | **refuted** + exact results after a lost or extra byte | as C92; the broken packet with the next byte is a packet again |
| C99 | what a packet tells, read from its octets; what an application notes from an event; the two lists are equal, hence any bookkeeping on them | as C84, event by event and answer by answer; for what is kept, induction from the end |
| C100 | cutting any bytes into packets; sessions on arbitrary controllers | C38's session theorem + uniqueness of the cutting (`packets_from`) |
| C101 | derived `Debug`, field by field, as strings; vendor types print arbitrary texts that can be read back | every text can be cut off a larger one in one way (`legible`), type by type; names of variants by computation; acceptance facts from C04-C18 |
| C102 | programs as trees that branch on results; the crate's calls and ideal channels run them | induction on the program: a run is a session (C38, C68 apply); each step on the queue as in C87, refusals by C30-C37 |
| C103 | data packets and a program that takes them from the controller when `read` reports their type | what each read takes from the contract (as C34, C36), induction on the history; the receiver by lengths; delivery by induction on the packets |
| C104 | the program of C103; a controller as a history of packets taken and sent, with the data it holds | counts per connection: on the device by induction on its history, at the host from C84 and C99; packets on the way can only make the host's count larger; streams are compared packet by packet |
| C105 | the program of C103; a controller as a history of packets taken and sent, with the commands it allows | what it allows and the commands it has taken together never get less; the last number read and the answers read are a lower bound, by induction on the history of the device |
| C106 | the program of C103; a controller as a history of packets taken and sent | each packet read gives an event that is an answer to the same opcode (from C10 and C58); lists of answers and replies are compared one by one |
| C107 | the sessions over two links of C68; the controllers of C105 and C106 | packets in the two streams are matched one by one, then as for C105 and C106 |
| C108 | the program of C103; requests and answers as packets | each packet read gives the call whose bytes are the answer to it (from C05 and C58), then the lists in the two streams are compared (as for C106) |
| C109 | C108 at the peripheral, a session with calls of le_start_encryption at the central, and a relation between the histories of the two controllers | the packets of the calls (C28) are matched with the requests, these with the answers (C108), field by field |
| C110 | endless runs as functions from call numbers to calls, states and results; the contract with promptness | the packets read so far are a start of those that arrived (C35); a read that went takes one if a whole one is there; induction on the calls since |
| C111 | C105 in an endless run, with a history of the device for each call | commands arrive, are answered, the answers arrive and (C110) are read; either a method is called meanwhile, so it was the host's turn, or nothing is unanswered and the last number read is what the device allows |
| C112 | C104 in an endless run, with a history of the device for each call | as C111; if no data are sent meanwhile, the host's count is, for every connection, at most what the device holds when the buffer is free |
| C113 | the derived `Debug` texts of `Model_Log.v` | the bytes of an accepted packet are known from its event (C04, C15); then a line for each event and return parameter, by lemmas on the text of each kind of field; numerals, times and so whole lines are unique |
| C114 | the endless runs of C110 with the controller of C106 | all commands sent get there, are answered, and the answers arrive and are read (C110); by counts there are as many answers read as commands were sent, and by C106 the k-th answers the k-th |
| C115 | derived `PartialEq` (`Model_Equal.v`) | case analysis on pairs of values; assigned statuses are different; texts by C101 |
| C116 | the sessions of C68 and C107 over endless runs | as C111 and C114, with the two streams of C107 and the reads of C110 |
| C117 | the sessions of C38 and C68 with a transport that notes its state after each use | at every noted state nothing has been taken or the call has done all that it does to the transport; then induction over calls and restarts |
| C118 | reads on a transport on which a sender makes calls before each use; a call that sends uses the transport once (C30) | this transport keeps the contract, so the lemmas on reads apply; the sender's calls are followed through each use |
| C119 | the restarts of C117 followed by a session, with the device of C106 | the streams of all programs together are those of one session; the answers are counted as in C106, less those taken earlier |
| C120 | threads as functions from the results they had to the next call; any schedule; all calls together are a session | induction on the schedule, with one call of C117 in each step; packets and commands are listed with their threads |
| C121 | scanner and advertiser as in C78, with scan filter policies, scan types and white lists on both sides | settings after calls as in C76; cases over policies; reports as in C78 |
| C122 | the restarts of C117, with a version and a vendor for each program | induction on the programs; commands of different programs are compared as opcodes and parameters |
| C123 | the settings of C76 for both controllers, connections and the events that announce them | the settings are functions of the calls (C79, C80); the events with the decoding of C60 |
| C124 | the settings of C76, changed by the commands that the controller accepts; the dialogue of C65 | the status in each answer, variant by variant; induction over the commands |
| C125 | the host and controller of C106, the settings and decisions of C124 | own answers by C106, the status in each event; if all answers are read, all commands were taken; induction over the commands ordered |
| C126 | the sessions of C125, with the settings and calls of C77 to C123 | the settings by C125; a session with a queue that takes all the approved commands has the same; then the theorems for such sessions |
| C127 | the sessions of C125 and the runs of C114 and C116 | the first commands are the first that the controller took, by counting the answers to each opcode; then as C125; that enough answers come is C114 and C116 for each of finitely many commands |
| C128 | the runs of C127, for one or two devices | by C127 all the answers come; then the controller has taken all the commands and later events change nothing; then C126 |
| C129 | the runs of C127 whose calls are those of the program | by induction on the commands left: by C111 and C116 it comes to be the host's turn and stays so until the next command has been sent; then C127 |
| C130 | the runs of C129, for one or two devices | by C129 the controller takes just the list and all the answers come; by C106 each answer is that of its command, and by C125 it tells the decision; then C128 |
| C131 | the runs of C112 whose data are sent by the program | by induction on the packets left: by C112 a buffer comes, and the program knows of it until the next packet has been sent; what is sent gets there |
| C132 | the runs of C111 and C112 whose calls are those of the program | by induction on what is left of both lists: by C111 or C112 there comes to be something to send, and there is until something has been sent; then C127, and C130 for what is approved |

All properties can be expressed in the model. Properties the code violates are kept in full and refuted (theorem suffix `_refuted`), next to theorems with the exact behaviour. `MANIFEST.json` has no status for a refuted claim, so these are listed as `partial` with a note that starts with "Refuted".

## 5. Disagreements between code, docs and the Bluetooth specification found so far

1. `ConnectionInterval::copy_into_slice` drops sub-millisecond parts: wire values not divisible by 4 come back one lower; 7.5 ms is sent as 5 (illegal, minimum 6).
2. `ConnectionIntervalBuilder::build` rejects a supervision timeout equal to the minimum, docs say "less than".
3. `Event::new` panics on some short packets (C03).
4. Trailing bytes of status-only and spontaneous Command Complete, and the report count of LE Advertising Report, are ignored.
5. PHY codes are decoded as 0/1/2; the Bluetooth specification uses 1/2/3.
6. UART `read` never consumes a foreign packet type byte, so it reports the same BadPacketType forever.
7. The documented 100 ms minimum of non-connectable undirected advertising before 5.0 is not enforced.
8. `AdvertisingInterval` with_range accepts high duty cycle directed advertising and sends zeros.
9. LE Connection Complete with error status and zeroed parameters is rejected with BadConnectionInterval; the error status is lost.
10. `event_link::NoCommands` sends an all-zero header.
11. The example in the `Controller::peek` docs peeks offset 3 for a 2-byte header; `uart.rs` peeks offset 2.
12. `Debug` of `CommandFlags` prints octets 0 to 38 only, and `Debug` of `EncryptionKey` prints the key.
13. `BadConnectionLengthRange` (declared in `host::Error`) is never produced.
14. `CommandFlags` has no flags for octet 31 bits 4 and 5 (Set and Delete Reserved LT_ADDR, assigned since 4.1): replies of controllers that support them are refused whole.
15. LE Data Length Change and LE PHY Update Complete decode in all builds, their event mask flags exist only from 4.2 and 5.0.
16. LE Advertising Report entries with identity addresses (types 2 and 3, Bluetooth 4.2) make the whole event fail.
17. `CommonDataType::SecurityManagerTkValue` is 0x11, which is assigned to Security Manager Out of Band Flags; TK Value is 0x10, the same as Device ID.
18. A supervision timeout of exactly 100 ms (legal on the air) makes LE Connection Complete and LE Connection Update Complete fail.
19. Connection handles are not checked (0x0EFF is the largest legal one), neither when sent nor when received. Rounding when a `ConnectionInterval` is sent can make the timeout too short: 50 ms and 100.5 ms are sent as 50 ms and 100 ms.
20. Bytes after status-only replies, after the white list size and after a Command Complete for flow control are ignored; the report count and the data limit of an LE Advertising Report are not checked.
21. The example in the documentation of `Controller::peek` reads the length from byte 3, the first parameter, and counts two header bytes: it blocks for ever or loses synchronisation (`uart.rs` uses byte 2 and three).
22. **Connection intervals shrink when asked for again (C67).** A host that feeds the interval of an event back to LE Connection Update shortens it by 1.25 ms per round until it is a multiple of 5 ms; 7.5 ms becomes 6.25 ms, which is illegal.
23. A connection with a supervision timeout of 100 ms exists for the controller and not for the host, which sees only an error without the handle, so it cannot disconnect it (C83).
24. A host that waits for room for commands may wait forever: the event that gives it is refused if it answers Read Local Supported Commands of a controller with Set or Delete Reserved LT_ADDR (C85).
25. A changed length byte makes the reader swallow the following packet (C92).
26. `HciHeader::new` takes the number of parameters as `usize` and sends it modulo 256: a vendor crate that passes more than 255 bytes makes the stream unreadable (C95).
27. After one lost byte the UART reader reports a wrong event and then fails with `BadPacketType` for ever (C98): nothing is consumed, and the crate has no way to skip a byte.
