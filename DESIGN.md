# mtTorrent – formal model and proofs (Rocq/Coq 8.16.1)

## 1. Approach

Every modelled C++ function becomes a small total Gallina function, with a comment
citing the file and lines it models. Integers and bytes are `Z`; wrap-around is written
explicitly (`u8`, `u16`, `u32`, `u64` = `mod 2^n`) where the C++ type is narrower than
the value can become. Undefined behaviour (out-of-bounds read, unbounded recursion,
division by zero, use of an uninitialised variable) is a separate outcome of the model.
Loops are structural recursions or fuelled recursions whose out-of-fuel value is distinct
and excluded in the statements. External things (file system content, random numbers,
clock, network, scheduling) are explicit arguments or arbitrary event lists.

Files: `XModel.v` (model only), `XSpec.v` (small independent specification, where one is
needed), `XProofs.v` (lemmas), `XProps.v` (the property theorems `Cnn_...`, each followed
by `Print Assumptions`, with `Example`s showing that the hypotheses are met).

Where the code violates the property: a theorem with suffix `_refuted` proves it with a
witness, and a guarded theorem with suffix `_partial` proves what does hold; the note in
MANIFEST.json and section 5 says what is missing. `partial` therefore almost always means
"false of the code outside the guard", not "not yet proved".

State machines (downloader, uploader, caches, DHT lookup, uTP, trackers, peers, torrent
life cycle) are functions `step : event -> state -> state * output`; theorems quantify over
all event lists, so over all interleavings at the granularity of the modelled functions.

## 2. Trusted base

- Coq's kernel (8.16.1), with its VM (`vm_compute` is used for finite sweeps and examples).
- `Print Assumptions` stands under every property theorem and prints "Closed under the
  global context" for every one of them: no axioms, neither own nor of the library.
- The build loads parts of the standard library that declare axioms without any theorem
  using them: `vcheck` reports the seven of `Coq.ssr.ssrunder` (loaded with the
  standard library). They appear in no theorem's assumptions.
- The reading of the C++ by hand: that each definition says what the cited lines do.
- The semantics assumed for the C++: 64-bit Linux, two's complement `int` of 32 and `long`
  and `size_t` of 64 bits, `char` signed, standard containers as lists, `std::sort` as a
  stable sort, integer conversion as `mod 2^n`.

## 3. Simplifications common to the model

- One thread at a time, but for C84 (UDP requests, any interleaving of their critical
  sections) and C85 (deadlocks: LockModel.v and LockCodeModel.v model threads and mutexes and
  nothing else): elsewhere each modelled function is atomic. Where the code takes a mutex for
  the whole function this is what it does; data races are not modelled (a few functions
  that touch shared state without the mutex are named in their comments).
- Memory allocation does not fail; containers have no size limit.
- Log output, alerts, statistics and the GUI are left out.
- Time, random numbers and the answers of the operating system are arguments.
- Simplifications of single definitions stand in the comment of that definition.

## 4. Parts of the code without any model

Logging, Diagnostics (recording only), NetAdaptersList, the `Api` wrappers,
the GUI and the tools (`SdkExample`, `diagnosticsReport`, `countryIpListParser`,
`mtTorrentGui`), unless section 6 names lines of them.

## 5. Per property

| id | title | modelled | how proved | status |
|----|-------|----------|------------|--------|
| C01 | Bencode written is bencode read | BencodeWriter, BencodeParser (flat object table, recursion, strtol) | induction on the value, invariant on the object table, read of each byte checked against the buffer end | partial |
| C02 | Bencode parser is safe on hostile input | same parser on arbitrary bytes | refuted by witnesses (over-read, endless recursion); guarded positive statement by induction | partial |
| C03 | Peer wire messages survive the wire | bt::create*, PeerMessage constructor | case analysis + big-endian lemmas | partial |
| C04 | Stream fragmentation does not change the message sequence | dataReceived loop + read buffer | induction over chunks, parser is prefix-stable; refuted where 16 bit size truncates | partial |
| C05 | Interest state follows the peer | handleMessage state updates | induction over history; interest part refuted | partial |
| C06 | Hex encoding round trip | hex, url, base32 | induction over the input, finite sweeps for single digits | proved |
| C07 | URL encoding round trip | hex, url, base32 | induction over the input, finite sweeps for single digits | proved |
| C08 | Base32 info hashes decode to the hash | hex, url, base32 | induction over the input, finite sweeps for single digits | proved |
| C09 | Magnet links deliver hash, name and trackers | parseMagnetLink/parseTorrentHash | induction over the parameter list | proved |
| C10 | Compact peer addresses round trip and compare soundly | Addr | codec lemma; order/equality laws or counterexamples | partial |
| C11 | RC4 stream cipher inverts and is chunk independent | RC4 | xor involution and state threading, induction over data | proved |
| C12 | Big number arithmetic is exact | BigNumber with 64-bit digits | value function, Knuth D invariant | partial |
| C13 | Diffie-Hellman secrets agree | DiffieHellman on top of C12 | exponent laws mod p | proved |
| C14 | An encrypted handshake reaches the right torrent | findByPe3Hash and its caller | refuted with witness; what it does compute | partial |
| C15 | Encrypted data is delivered as the peer sent it, however fragmented | PeerStream.dataReceived bookkeeping | invariant over deliveries | proved |
| C16 | Torrent file layout covers every byte once | parseTorrentInfo layout, makePieceBlocksInfo | arithmetic; refuted at boundary + guarded | partial |
| C17 | Blocks tile each piece | parseTorrentInfo layout, makePieceBlocksInfo | arithmetic; refuted at boundary + guarded | partial |
| C18 | What is stored is what is loaded | Storage store/load over an abstract file map | refinement to a flat byte array | partial |
| C19 | Progress counters count the pieces | PiecesProgress | invariant over operations; refuted operations isolated | partial |
| C20 | Bitfields round trip | PiecesProgress | invariant over operations; refuted operations isolated | partial |
| C21 | Received bytes are reported exactly | PiecesProgress | invariant over operations; refuted operations isolated | partial |
| C22 | File selection selects exactly the needed pieces | Files.select | refuted + guarded | partial |
| C23 | A piece counts as downloaded only after its hash matched | Downloader / DownloadStorage check pipeline | invariant over histories | partial |
| C24 | The write cache is transparent | WriteCache | refinement to a block map | partial |
| C25 | Uploads never exceed the granted bandwidth | Uploader | accounting invariant over events | partial |
| C26 | Bandwidth limits are enforced | BandwidthChannel, BandwidthManager | accounting invariant | partial |
| C27 | Metadata is complete exactly when every part arrived | MetadataReconstruction, serving | invariant | partial |
| C28 | Torrent state survives a restart | State.cpp, Configuration.cpp, Xml.cpp | round trip | partial |
| C29 | Configuration survives a restart | State.cpp, Configuration.cpp, Xml.cpp | round trip | partial |
| C30 | Node distance is the XOR metric | Dht Node/Table/Responder/Query | bit arithmetic; invariants over histories | partial |
| C31 | The routing table stays well formed | Dht Node/Table/Responder/Query | bit arithmetic; invariants over histories | proved |
| C32 | Closest-node queries return close nodes | Dht Node/Table/Responder/Query | bit arithmetic; invariants over histories | partial |
| C33 | The routing table survives a restart | Dht Node/Table/Responder/Query | bit arithmetic; invariants over histories | partial |
| C34 | Announce tokens authenticate the announcing address | Dht Node/Table/Responder/Query | bit arithmetic; invariants over histories | partial |
| C35 | Announced peers are stored boundedly and expire | Dht Node/Table/Responder/Query | bit arithmetic; invariants over histories | partial |
| C36 | A DHT lookup asks each node at most once and ends | Dht Node/Table/Responder/Query | bit arithmetic; invariants over histories | partial |
| C37 | uTP delivers the stream in order, exactly once | UtpStream sender/receiver | invariants with 16-bit sequence arithmetic | partial |
| C38 | uTP sends every written byte, in order, until acknowledged | UtpStream sender/receiver | invariants with 16-bit sequence arithmetic | proved |
| C39 | uTP packet headers are parsed within the packet | UtpStream sender/receiver | invariants with 16-bit sequence arithmetic | proved |
| C40 | Selective acknowledgements name exactly the packets held | UtpStream sender/receiver | invariants with 16-bit sequence arithmetic | partial |
| C41 | UDP tracker exchange is faithful | UdpTrackerComm | codec + transaction check | partial |
| C42 | Trackers are kept without duplicates and retried with back-off | TrackerManager | invariants | partial |
| C43 | The peer table stays consistent | Peers | index invariant over histories | partial |
| C44 | Peer exchange reports the changes | PexExtension | set reasoning | partial |
| C45 | HTTP tracker responses are read to their end | HttpHeader | refuted (non-termination) + guarded | partial |
| C46 | Each torrent is registered once | Core, Torrent life cycle | invariants | partial |
| C47 | Starting and stopping is remembered | Core, Torrent life cycle | invariants | partial |
| C48 | SHA-1 is SHA-1 | SHA1 | equivalence with a transcription of FIPS 180-4 | proved |
| C49 | Binary packet fields round trip | PacketHelper | induction over the field list | proved |
| C50 | Holepunch messages round trip | Holepunch | codec | partial |
| C51 | Requests to a peer stay within limits and are never duplicated | Downloader requests | invariant | partial |
| C52 | Announced pieces are handled safely | handleMessage Have/Bitfield with PiecesProgress | out-of-range index shown undefined; guarded safety by case analysis | partial |
| C53 | Allocating a file keeps the bytes it has | Storage::preallocate on an abstract file | arithmetic on byte lists | partial |
| C54 | Pending uploads are not forgotten | Uploader events | invariant over all histories | partial |
| C55 | Uploaded data was read for that request | Uploader buffer and block ids | invariant over all histories, refuted for failed reads | partial |
| C56 | Modular arithmetic with multi-digit moduli is exact | BigNumber dbi_div, Mulm, Powm | Knuth D invariant, strong induction on digits | proved |
| C57 | The encrypted handshake completes however it is fragmented | ProtocolEncryption pe3/pe4 reading | induction over fragments | partial |
| C58 | The negotiated kind of stream is the one used | startPeer, dataReceivedPeHandshake | witness against, guarded positive theorem | partial |
| C59 | Encrypted connections are only accepted for torrents this client has | readPe3Handshake, findByPe3Hash | case analysis over arbitrary bytes and fragmentations | proved |
| C60 | The check of a piece hashes the bytes stored last | DownloadStorage, checkPieceFunc, Storage load | refinement of cache plus files to the last stored bytes | partial |
| C61 | An unchoked peer which could give more is asked for more | Downloader evaluateNextRequests | induction on the request loops | proved |
| C62 | Data is stored only for pieces asked from the peer that sent it | Downloader histories | invariant over events | proved |
| C63 | At most 100 requests are outstanding per peer | Downloader histories | invariant over events | proved |
| C64 | Every request is for a block of a piece the peer said it has | Downloader histories | invariant over events | proved |
| C65 | Have is announced only for pieces whose check succeeded | Downloader histories | invariant over events | proved |
| C66 | Any block message is handled safely | addPeerBlockResponse, PieceState::addBlock | witnesses against, guarded case analysis | partial |
| C67 | Metadata is served to peers part by part | FileTransfer metadata replies, MetadataExtension | codec lemmas over bencode | partial |
| C68 | Only metadata with the right hash is used | MetadataDownload, Torrent::downloadMetadata | invariant; refuted where the hash is not checked | partial |
| C69 | Announce replies of HTTP trackers are understood exactly | HttpTrackerComm readAnnounceResponse over HttpHeader and bencode | composition of C45 and C01 | partial |
| C70 | Tracker addresses are split into protocol, host, port and path | Uri parsing | list splitting lemmas | proved |
| C71 | Hole punching requests are relayed | Peers hole punching relay | case analysis; refuted parts isolated | partial |
| C72 | The saved list of torrents loads back | State TorrentsList | bencode round trip | proved |
| C73 | Reading any XML text stays inside the document | Xml reader | invariant on the element table | partial |
| C74 | The info hash is that of the info dictionary | TorrentFileParser info range and hash | byte-position reading of the object table | partial |
| C75 | A torrent file is read as written | TorrentFileParser | lookup specification read off the bencoded value | partial |
| C76 | Files are stored below the download directory | Storage paths, Filesystem | path normalisation; escape by '..' refuted | partial |
| C77 | Deleting removes only the torrent's files | Storage deleteAll | set reasoning over paths | partial |
| C78 | A saved torrent file reads back | TfSaveModel.v: createTorrentFileData over the writer of BencodeModel, importTrackers | The written bytes are shown equal to the bencoding of an explicit dictionary, then the reading theorems of C74/C75 apply; several files without kept info bytes lose their names (refuted). | partial |
| C79 | Peers which send bad data are disconnected | SuspectModel.v: refreshPieceSources with the peers it disconnects, over histories of checks, joins and leaves | The counters equal a count over the history (induction); who is dropped and the groups follow exactly; alternating bad peers and innocent companions are counterexamples for every such history. | partial |
| C80 | Requests to the DHT are well formed | DhtMsgModel.v: the four writers of requests | Equality with the bencoding of a dictionary given in the specification, for all arguments. | partial |
| C81 | Answers of the DHT are read as sent | DhtMsgModel.v: the readers of answers on the parsed buffer, reads behind the message a distinct outcome | From the parser theorem of BencodeProofs each field equals the one of the dictionary; nodes by induction over their wire form. | partial |
| C82 | Requests from the DHT are answered with what is known | DhtMsgModel.v: handlePacket with the table, secrets and stored peers | Equality with an answer function on dictionaries, for every dictionary and state; its facts are then proved by cases. | partial |
| C83 | Two clients understand each other | DhtMsgModel.v: a request of C80 handled by C82 and its answer read by C81 | Composition of the three theorems, with C34 and C35 for the token and the stored peers; an IPv6 node is a computed counterexample. | partial |
| C84 | A UDP request is answered, repeated once or ended, exactly once | UdpCommModel.v: sending, taking answers, closing, timers and removals of UdpAsyncComm as events between which any other may happen | Invariant over all event lists linking what waits, what is handled and the log (UdpCommProofs.v); a second one for timers (UdpTimerProofs.v); four computed counterexamples. | partial |
| C85 | Threads never wait for each other forever | LockModel.v: threads, mutexes of a scope, steps; LockCodeModel.v: for each operation of the client the mutexes it takes, in order and nesting, joins included | A rank for every mutex; programs that lock upwards keep an invariant under which the highest wait can be served (LockProofs.v); each operation shown to lock upwards (LockProps.v); five runs into a deadlock, proved permanent with any other threads beside. | partial |
| C86 | Lookups of peers in the DHT begin, end and report for the torrent that asked | DhtCommModel.v: the list of lookups, the lookups under way, the DHT source of every torrent, the setting, and what switching off does to the UDP socket | Invariants over every history (DhtCommProofs.v): entries have distinct hashes, belong to a running query and to a waiting torrent; each claim by induction over the history, each violation for all continuations. | partial |
| C87 | After asking a node for peers the client announces itself for the torrent | DhtAnnounceModel.v: the announce GetPeers::onResponse sends, on top of the messages of C80-C82 | Composition of C83_get_peers_partial, C83_token and C83_announce; the stored peers of every other hash are shown unchanged. | partial |
| C88 | Nodes of the DHT table are pinged once each and judged by their answers | PingModel.v: PingNodes with its pending pings, the nodes left and the table | An invariant relating the pings sent, the nodes left and the pending ones by induction over the answers. | partial |
| C89 | Timers run as set, and the DHT forgets old tokens and peers | TimerModel.v: ScheduledTimer with asio's waits; DhtRefreshModel.v: start, stop and the refresh of the DHT with the responder's tokens and peers | A potential (waits open plus calls made) that only setting the timer raises; from it one refresh per start, and with C34 the validity of tokens. | partial |
| C90 | Checking the stored files finds exactly the pieces which are there | CheckModel.v: Storage::checkStoredPieces for one worker with the stream, the buffer, whole and temporary files | An invariant over the files: the buffer holds the bytes of the current piece so far; then the pieces added by induction over files and pieces. | partial |
| C91 | Room is made for the data of wanted pieces | RoomModel.v: both forms of SelectedFiles with the marking of pieces and the count of shared bytes, the validation of the path and the allocation of a selection. Free space is the same for the validation and the allocations, which are sparse and do not use it up. | RoomSpec.v says which bytes of a file lie in wanted pieces, by the positions of the bytes alone. Induction over files and pieces shows that the loops count those (C91_demand_partial, C91_one_partial) and over the list of demands what the allocation leaves on the disk (C91_room_partial). Two findings: C91_space_refuted, C91_empty_last_refuted. | partial |
| C92 | A start keeps what is there, drops what is missing and checks what changed | StartModel.v: the scan of file times, the removal of pieces, the start of a check, the allocation with its time, the four workers of a check with their additions in any order. Alerts and the downloader's unfinished pieces are left out. | Induction over files for the scan (C92_start_partial); C90_exact_partial for each of the four workers, combined by residues modulo 4 and Permutation (C92_checked_partial); the times after an allocation by induction over the demands (C92_own_partial). Two findings: C92_shortened_refuted, C92_empty_refuted. | partial |
| C93 | A TCP stream sends what it is given in order, tells its owner of its end once and reads no more than its quota | TcpModel.v: all handlers of a TCP stream as a machine over a record of its members with a log of what it asks the system and tells its owner; the answers of the socket, the resolver and the bandwidth manager are in the events. The bytes of the read buffer are in PeerMsgModel.v. | Invariants over all histories of possible events: of the write queue (C93_in_order_partial), of callbacks, timer and socket (C93_safe_partial, C93_calls_partial, C93_silent_partial), of the quota (C93_quota_partial). Six findings: C93_race_refuted, C93_closed_while_resolving_refuted, C93_next_address_refuted, C93_clock_refuted, C93_quota_lost_refuted, C93_waiting_closed_refuted. | partial |
| C94 | A connected peer is shown with the country whose range holds its address | CountryModel.v: the making of the table from the rows of the list (numbers given to names, repeated countries skipped), toFile and fromFile on bytes (with reads cut by the end of the file), lower_bound of libstdc++ as its halving loop, GetCountry, the address swap of Peers. | C94_found_partial over all sorted lists, with C94_last_refuted and C94_first_byte_refuted for the rest of the addresses and C94_before; C94_file_partial: the file is read back; C94_cut_safe: any prefix of a file is safe; C94_no_file. Further findings: C94_path_refuted, C94_country_EE_refuted, C94_longer_file_refuted, C94_number_refuted. | partial |
| C95 | The stream to a peer tells its owner in order, sends what it is given and keeps to the encryption setting | PeerStreamModel.v: open, fromStream, write, close, connectionOpened, connectionClosed, dataReceived with the encryption handshake's result as input, the retry of the other way, as a machine over events with a log of what is sent and told. | Invariants over all histories: C95_told, C95_sent, C95_tries_partial, C95_refuse, C95_require_partial, C95_closed, C95_other_way; findings C95_again_and_again_refuted (connections without end), C95_plain_text_refuted. | partial |
| C96 | An announce over HTTPS is answered once, with the tracker's response | HttpsModel.v: SslAsyncStream and HttpsTrackerComm as one machine over the ends of the operations it begins; the response parser is a parameter, HttpModel.v's in the example. | Invariants over all histories: C96_calls, C96_state, C96_sent; C96_answer_partial over all splits into full reads and a short last one; findings over all continuations: C96_full_reads_refuted, C96_parts_refuted, C96_never_again_refuted, C96_short_write_refuted, C96_stopped_connects_refuted, C96_port_refuted. | partial |
| C97 | An announce over HTTP is answered once, by its own connection, and can be repeated | HttpCommModel.v: HttpTrackerComm with all the streams it ever made, each with its state, callbacks, posted tasks, queue and buffer; the response parser is a parameter, HttpModel.v's in the example. | Invariants over all histories: C97_calls, C97_state, C97_sent, C97_failure_told; C97_answer_partial over all splits; C97_own_partial and C97_stopped_partial when no response is bad; findings: C97_never_again_refuted over all continuations, C97_first_bytes_refuted, C97_old_end_refuted, C97_old_answer_refuted, C97_stopped_told_refuted. | partial |
| C98 | What is left to download is what the tracker and the user are told | the figures finishedBytes, finishedSelectedBytes, dataLeft, the size map and the progress of the files, over the downloader's state of C51-C64 | an invariant of histories: no piece is counted twice, none that is there is counted, and each size kept is the sum of the lengths of its marked blocks; then sums over pieces and blocks | partial |
| C99 | Routers are asked for exactly the ports that are wanted | UpnpModel.v: the object with its wanted ports, devices, mapped ports and waiting requests; every call, answer and closed stream is a step; the settings callback of the listener | Invariant over all histories: one request of each kind per router, hosts known, numbers distinct; a measure (missing and superfluous ports) that each served request lowers; the wanted list against the last settings by induction | partial |
| C100 | A response of the router search is read safely and leads to one request at the adapter's gateway | DiscoveryModel.v: the reader of locations with exceptions and the port that is never written; the loops over devices and services on the elements of XmlModel.v; queue, streams, start and stop as steps | Locations: by cutting the text at the first separators, for all texts. Description: links lead forward, so the loops end. Histories: invariant on queue, requests and open streams | partial |
| C101 | A peer that connects to us is handed once to the torrent it greets, or its stream is closed | ListenerModel.v: the pending peers, whom each stream calls, accept, readStreamData, startPeer, getPeHandshake, removePeer, start, stop; the encryption handshake as section variables, the owner's answer in the event | an invariant tying pending peers, callbacks and what was handed over, by induction over histories; concrete runs for the violations | partial |
| C102 | Datagrams are passed on whole, in order and with the address they came from | ReceiverModel.v: the receive loop, the buffer, the packets put aside and the calls of the callback; the socket is a list of results | induction over the results with the packets put aside in the invariant; a specification of whom each datagram is credited to | partial |
| C103 | What is written to a UDP writer goes out once, in order, to the address set | WriterModel.v: the state, the kept message, the connects and receives under way and the calls made; socket and resolver are events | invariants over all histories (everything sent was written; no empty callback; nothing after close); counterexamples for what the single kept message and the overwritten address lose | partial |
| C104 | Moving the download directory moves the files of the torrent, whole, and touches nothing else | MoveModel.v: setPath and setLocationPath over a file system of places, with exists, file_size, is_empty, rename and create_directories as far as they are used | a lemma saying what a rename does to every place of a tree, then case analysis of the function | partial |
| C105 | A check of the files ends once, and only one runs at a time | CheckersModel.v: checkFiles, stop and the end of a check with the shared counter, whose increment is a load and a store; any number of checks at once | invariants over all interleavings for the upper bounds; over histories without simultaneous counting for the rest; witnesses for the races | partial |
| C106 | Each alert asked for is handed out once, in order | AlertModel.v: the mask, the queue and the three calls; firstBit and the enumerations as they are computed | induction over histories against a specification by bit numbers | proved |
| C107 | An address typed in is the address connected to | AddrTextModel.v: fromString with the search for the colon and strtoul, set, and the connect of the API; make_address is a parameter of which only the form of what it accepts is assumed | case analysis of the text; counting colons; the port's digits by the lemmas on decimal text; a concrete reader shows the assumption can be met | partial |
| C108 | A check which is stopped is taken up again | StopCheckModel.v: a check rejected after any pieces were added, the time that a save sets, a start or a request of the user followed by a stop; on top of the start and the progress of StartModel.v | composition of the theorems on a start (C92), on removing and adding pieces (C19); for every point of the stop | partial |
| C109 | A silent uTP peer is given up, in time and once | The members refresh, close, connect, connectRemote, packetTimeout and the part of updateState, FIN, reset and write that touches the same members (UtpTimerModel.v). Times are integers in ms; the packets themselves are in UtpModel.v; sendFin and the CLEAN step are left out; a write or packet sets the size not acknowledged to any value. | Invariants over all histories: one for the times and the count while no close is posted, one for what was sent and told. | partial |
| C110 | Each uTP datagram goes to the stream it belongs to | connectStream, onUdpPacket with findStream and what it remembers, refresh and onNewConnection (UtpManagerModel.v), on the bytes of the datagrams. A stream is its number, id and endpoint. The multimap is a list in order of insertion; its find is taken to give the first of equal keys, which the standard does not promise. The locks are C85's. | The loop is shown to follow an independent relation (served) without the remembered stream; the rest by induction on that relation and on histories. | partial |
| C111 | The log has what was logged | All operators <<, StartLogLine, flush and the constructor of LogWriter (LogWriterModel.v). The digits of numbers, the digits of the time and the blanks are left out: the file is a list of tokens. A file that cannot be opened is left out, a folder that is missing is not. CreateLogLineId is only the premise that each place has its own number below 256 and the same literals each time. | Round trip of one item, of a line, of the kept lines, and an invariant over histories for the literals. | partial |
| C112 | Two ends agree on an encrypted connection | The steps of the handshake on both sides, with their buffers (PeSessionModel.v), on top of the keys (DhModel.v) and messages 3 and 4 (PeModel.v). Random bytes are arguments. | Each side's deliveries are run by induction over the pieces: first up to the key, then the runs of C14 and C15; C13 gives the same secret. The second part is an invariant over the steps. | partial |
| C113 | The log of a metadata download tells what happened | What each call of the metadata download (MetadataModel.v) logs, the texts and the polling (MdLogModel.v). Polls and calls are each one step, which the mutex ensures except for the start and getEventsCount, which do not take it. | Induction over the history for each part; the counts of a peer are an invariant of the step. The text is taken apart at the 40 characters of the id; hexadecimal and decimal texts are injective. | partial |
| C114 | The sliding average of round trip times is an average | add_sample and the three getters, in fixed point with C's division and with overflow of int as undefined (SlidingModel.v). The only call, at 758, is commented out in the code. | Invariant of add_sample for the bounds, an error bound that grows with the number of samples for the arithmetic mean, and a decreasing distance for the convergence. | proved |
| C115 | Pieces that were begun are taken up again, once | The class UnfinishedPiecesState as a list with its calls (UnfModel.v, loadUnf of DlModel.v), and which entries are taken when the saved state is read. | Induction over the history: for each piece what was handed out followed by what is there is what was added. | partial |

### Status notes

- **C01** Round trip proved for every value (partial theorem) when the document has fewer than 65536 objects, is below 2 GiB and one byte behind the buffer is readable. Missing because false of the code: a list or dictionary that ends exactly at the end of the buffer is read one byte too far (C01_exact_buffer_refuted, for every such value); larger documents overflow 16/31 bit fields.
- **C02** The statement is false of the code: C02_negative_length_refuted (recursion without end on 'd-4:'), C02_long_text_refuted (over-read accepted) for all continuations. Proved: termination in linearly many steps and bounds (up to one byte) for every 'tame' input below 64 KiB followed by readable zeroes. Missing: inputs in which a negative or >= 2^31 number can be read, where it is false.
- **C03** Proved for every message of at most 65535 bytes. Missing because false: a bitfield message of 65536 bytes or more, whose size wraps to 16 bits (C03_bitfield_65536_refuted).
- **C04** Proved for every list of messages, every fragmentation and every read-ahead, for messages up to 65535 bytes. Missing because false: 65536 byte messages (C04_fragmentation_65536_refuted).
- **C05** Choking half, and the rest of the state, proved for every history. The interest half is false of the code for every history with an interest message: recorded inverted (C05_interest_refuted).
- **C06** Fully proved. Also a finding outside the statement: text shorter than the output makes decodeHexa read past it (C06_hex_short_text_refuted).
- **C07** Fully proved. Also a finding outside the statement: text that is not percent-encoding (a bad first escape) uses an uninitialised variable (C07_url_bad_escape_refuted).
- **C08** Fully proved, including that other characters are rejected.
- **C09** Fully proved. Also a finding outside the statement: a link with a bad escape uses an uninitialised variable (C09_bad_escape_refuted).
- **C10** Compact round trip proved in full. Equality and order laws proved within one address family; across families they are false of the code (C10_addr_eq_refuted, C10_addr_order_refuted). Text form: proved when no byte is x0y with x>0; otherwise the middle zero is dropped (C10_addr_text_refuted).
- **C11** Fully proved for every key, discard length, data and chunking.
- **C12** Proved exactly for all digit counts: comparison, addition, subtraction, shifts, multiplication, squaring; division, modular product and power for divisors of two or more digits or up to 2^63. Missing because false: a one digit divisor above 2^63 overflows (C12_single_digit_refuted), x^0 mod 1 = 1 (C12_power_zero_refuted). C56 states the complete part.
- **C13** Fully proved for the program's prime and generator and all private keys.
- **C14** The statement is false of the code: C14_refuted and C14_other_refuted. C14_lookup_partial states exactly when the lookup works; C14_handshake_partial proves the rest of the handshake once it does, for every fragmentation.
- **C15** Fully proved.
- **C16** Starts, sizes, coverage proved for every list of sizes. End of file: proved unless the file ends on a piece boundary, where it is false (C16_boundary_refuted, for every such layout). Other findings: zero piece length, empty last file.
- **C17** Single file torrents and multi file torrents whose total is not a multiple of the piece size: proved. False otherwise, for every such torrent (C17_multiple_refuted).
- **C18** Store, load and round trip proved for every well laid out torrent and any order of blocks. Missing because false: torrents with a file ending on a piece boundary (C18_boundary_refuted, C18_padding_refuted); not covered: files of which only the ends are allocated.
- **C19** Proved for every sequence of operations without reading a bitfield; the bitfield case is false of the code (C19_bitfield_refuted), as is a second init (C19_init_refuted).
- **C20** Proved for up to 2^24 pieces; false above (float arithmetic, C20_large_refuted).
- **C21** Proved unless the total is a multiple of the piece size and the last piece is received; then the count is off by exactly one piece (C21_multiple_refuted).
- **C22** Proved for every sequence of selections when no three files share a piece and none is empty. False otherwise (C22_three_files_refuted).
- **C23** Proved: received means received before, or being checked, or checked well, for all histories without selection changes. False as stated: a piece counts as received while it is checked (C23_early_refuted) and without any check if deselected in between (C23_deselected_refuted).
- **C24** Transparency, stopping and progress proved for all interleavings of 'calm' histories. Missing because false: conflicting stores of a cached block, stores during a full flush, oversize blocks (five refutations).
- **C25** Budget, at most once, closed peers: proved for all histories. Order: proved for requests of one size; false in general (C25_order_refuted).
- **C26** Limits and amounts proved for all histories. No starvation proved when each tick credits a byte per unit of priority; false otherwise (C26_starved_refuted).
- **C27** Completion and assembly proved for all histories of well-formed messages. Missing because false: overlong or empty parts, a part before the size is known, untyped messages (four refutations).
- **C28** Complete round trip proved for full sizes below 4 GiB and unfinished pieces with bytes. False otherwise (C28_size_refuted for every larger size, C28_unfinished_refuted).
- **C29** Round trip of every saved setting proved, and that changes are applied and saved. False: encryption and uTP preference are not saved (C29_encryption_refuted), ']]>' in the directory, and changing only the preference (C29_prefer_refuted).
- **C30** Bucket number proved in full. Comparison proved for distances of 2 or more; false for the target and its neighbour (C30_nearest_refuted, for all ids).
- **C31** Fully proved as stated. Also a finding outside the statement: the own id can be added (C31_own_id_refuted).
- **C32** Proved except for nodes differing from the own id in the last bit, which are never returned (C32_neighbour_refuted).
- **C33** Proved for tables in whose nodes the delimiter text does not occur; false otherwise (C33_delimiter_refuted). Hostile files: C33_foreign_file_refuted.
- **C34** Acceptance during the lifetime proved in full. Rejection of other addresses proved for different character sums; false for permuted addresses, for all secrets (C34_permuted_refuted).
- **C35** Proved unless an IPv6 address begins with the bytes of an IPv4 one of the same port (C35_family_refuted).
- **C36** At most once for learned nodes and the bound of candidates proved for all replies. End reported once: proved when replies carry their transaction id; false otherwise (C36_end_refuted, C36_outstanding_refuted). Table nodes can be asked twice (C36_table_node_refuted).
- **C37** Prefix property proved for every network behaviour. Delivery of contiguous data proved when packet number 0 never waits; false otherwise (C37_zero_refuted). Buffer exhaustion: C37_hang_refuted.
- **C38** Fully proved.
- **C39** Fully proved for every datagram.
- **C40** Exactness of the mask proved when packet number 0 never waits, false otherwise (C40_zero_refuted); dropping by the sender proved.
- **C41** Requests, acceptance and peers proved. Missing because false: replies without peers, 1 to 7 byte replies (over-read), announce reply taken as connect reply, the connection id is never renewed (four refutations).
- **C42** Back-off proved. Uniqueness proved for lists in which each address names a port and no host has two; false otherwise (C42_duplicate_refuted, C42_https_duplicate_refuted). Safety proved for fixed lists; false for lists changed while running (C42_dangling_refuted, C42_removed_refuted).
- **C43** Consistency proved for all histories of one address family and settings in which attempts open a stream; limit proved. False otherwise (C43_twice_, C43_unwanted_, C43_holepunch_, C43_families_refuted).
- **C44** Read back and exact content of every message proved for IPv4 peers: dropped exactly; added lists all current peers, not only the new ones, so the statement is false (C44_again_refuted and three more).
- **C45** Content length bodies and first chunk proved; termination for complete headers. False: partial headers loop (C45_partial_header_refuted, for all), only the first chunk is read (C45_only_first_chunk_refuted), throw on bad numbers.
- **C46** Uniqueness, merging and list proved for all sequences of calls. False: two threads adding at once (C46_race_refuted), a torrent that could not be loaded stays in the list (C46_stale_refuted), garbage files compare an unset hash (C46_garbage_refuted).
- **C47** Proved for torrents whose metadata is saved and whose files open; every reachable state checked (finite). False otherwise: four refutations.
- **C48** Fully proved for every length below 2^61 bytes.
- **C49** Fully proved.
- **C50** Round trip proved in full; reading of arbitrary bytes exact unless an error message ends before its code (C50_short_error_refuted).
- **C51** Proved for all histories of messages whose blocks begin inside their piece; never twice except to a peer that unchokes again, where it is false (C51_unchoke_refuted).
- **C52** False of the code: index 2^32-1 (C52_have_refuted) and short bitfields (C52_short_bitfield_refuted, for all). Proved: all other indices (C19_add) and bitfields that are long enough or come before the size is known.
- **C53** Proved unless the file holds exactly the ends of its range, where the second half of the statement is false (C53_temporary_refuted).
- **C54** Proved when all grants come later, or all at once. False for mixtures (C54_stall_refuted).
- **C55** Proved when the storage read succeeds; false otherwise (C55_stale_data_refuted).
- **C56** Fully proved.
- **C57** Message 3 proved for every fragmentation (when the lookup of C14 succeeds). Message 4 proved when whole in the delivery that completes 14 bytes; false otherwise (C57_message4_refuted).
- **C58** Initiator proved. Listener: false (C58_listener_refuted).
- **C59** Fully proved.
- **C60** Proved for the histories of C24 ('calm'); false outside as for C24.
- **C61** Fully proved for all histories.
- **C62** Fully proved for all histories.
- **C63** Fully proved for all histories.
- **C64** Fully proved for all histories.
- **C65** Fully proved for all histories.
- **C66** Proved for blocks that begin inside their piece. False otherwise (C66_begin_refuted), for pieces of 65536 blocks (C66_blocks_refuted) and for unaligned blocks (C66_wrong_block_refuted).
- **C67** Proved for part numbers below 2^18; false above (C67_wrap_refuted).
- **C68** False of the code, whatever the wanted hash (C68_unverified_refuted). Proved: the metadata used is complete and stored with its own hash.
- **C69** Proved when a byte behind the body is readable and sizes are below 2 GiB; false for content lengths near 2^32 (C69_length_wraps_refuted).
- **C70** Fully proved. Also a finding outside the statement: bracketed IPv6 hosts are cut at their first colon (C70_ipv6_refuted).
- **C71** Relay proved for addresses of one family and senders that named the extension. False otherwise: null pointer (C71_null_refuted), no answer for peers without support (C71_no_answer_refuted).
- **C72** Fully proved.
- **C73** All texts inside, links forward, search ends: proved for every document. False: the value of an element (C73_value_, C73_attribute_, C73_self_closing_refuted).
- **C74** Proved for every file with piece hashes in which no value before the info key is the text 'info'. False otherwise (C74_comment_refuted, C74_last_refuted).
- **C75** Proved for files with piece hashes in which no value before the info key is the text 'info' (as C74), with the fields having their types. False: a file list holding something else than dictionaries leaves the parsed objects (C75_files_refuted); no piece length divides by zero (C75_piece_length_refuted).
- **C76** Place and distinctness proved for every directory and all plain names (no separator, no zero byte, not empty, '.' or '..'). False otherwise (C76_escape_refuted, C76_zero_refuted).
- **C77** Proved for plain names. False otherwise: a torrent without a name deletes the download directory (C77_no_name_refuted), one named '..' the directory above (C77_parent_refuted).
- **C78** The written bytes are exact for every torrent. Reading back proved for torrents with their info bytes and for single-file ones without, when announce address and creator are not the text 'info'. False: a torrent of several files whose info bytes were not kept loses the names of its files (C78_names_refuted).
- **C79** Who is dropped, cleared and grouped is proved exactly for every history of fewer than 2^32 - 1 events. False: a peer whose bad pieces alternate with good ones is never dropped (C79_alternating_refuted), and an innocent peer is dropped with the one it shared three failed pieces with (C79_innocent_refuted).
- **C80** The bytes of all four requests are proved for every argument. False: an announce names the UDP port where TCP and UDP ports differ (C80_port_refuted), and the keys of get_peers and announce_peer are not sorted (C80_order_refuted).
- **C81** Reading is proved for every well-formed answer (C81_read_partial) and for messages that are no answer. False for others: code of a standard error never read (C81_error_refuted), null pointer on a list in the error (C81_null_refuted), id used without being read (C81_no_id_refuted), memory behind the message read (C81_beyond_refuted, C81_number_refuted).
- **C82** What is answered, and how the table and the stored peers change, is proved exactly for every bencoded message. False: nodes6 is never written, so IPv6 nodes go into nodes (C82_nodes6_refuted); unknown methods are answered like ping (C82_unknown_refuted); port 65536 is stored as 0 (C82_port_refuted).
- **C83** Proved for ping, announce, the token and finding an announced peer without conditions on the table; for find_node and get_peers if the nodes found are IPv4 (partial theorems). With IPv6 nodes the asker reads garbage (C83_find_node_refuted); who merely asked is handed on as a live node (C83_unproven_refuted).
- **C84** At most one repeat, at most one end and nothing afterwards, and no request lost, are proved for every order of events. That a timer is left for each one waiting holds only if no timer expires during answers or for a client with several requests (C84_timer_partial): a timer may find nothing (C84_lost_timer_refuted), act for another request (C84_other_timer_refuted, C84_ends_other_refuted), and removal gives up only the first request of a client (C84_given_up_refuted).
- **C85** Code that locks in one order never blocks (C85_one_order), and all modelled operations but five kinds lock in one order, so any number of threads running them in any order can always go on to the end (C85_no_deadlock_partial). The five are shown to block for good, whatever else runs: stopping the DHT during a lookup (C85_dht_stop_refuted), dropping the sender of a bad piece while the transfer is measured (C85_bad_piece_refuted), stopping a torrent whose thread is to start it (C85_stop_start_refuted), the end of metadata during a stop (C85_metadata_end_refuted), asking connected peers for metadata (C85_metadata_begin_refuted). Only mutexes and joins of the pools of torrents, storage and DHT are modelled; logging, alerts, UPnP and the end of the process are not.
- **C86** That peers go home (C86_home), the interval (C86_interval) and the formula of the count (C86_count) are proved for every history. Waiting, reports, the other requests and the packets are proved while the DHT is not switched off (C86_ends_partial, C86_report_partial also needs that no torrent stops, C86_answered_partial, C86_hears_partial). Refuted: a torrent that waits when the DHT is switched off waits for ever (C86_off_forgets, C86_off_refuted); after it no unexpected packet, uTP included, is handed on (C86_deaf_refuted) and the requests of UDP trackers are dropped (C86_dropped_refuted); a torrent stopped and started again takes the end of the old lookup for that of the new one (C86_stale_refuted); the count adds running totals, so lookups of a torrent with fifty peers end early (C86_count_refuted). Missing: a lookup that reports its end twice (C36).
- **C87** The announce is sent and accepted (C87_accepted_partial), and only after a right answer with a token (C87_only_after_answer). Refuted for every pair of clients: its hash is the id of the node that answered, so the peer is stored there and nobody who asks for the torrent learns of it (C87_announce_refuted). The exchange is proved for tables with IPv4 nodes, as in C83.
- **C88** Order, number, progress and completeness of the pings are proved for every history; judging is proved for right answers and for none (C88_judged_partial). Refuted: any other packet ends the ping without a verdict (C88_unjudged_refuted), and an answer without an id puts a node of id 0 into the table (C88_no_id_refuted).
- **C89** The timer is proved for every history (C89_periodic, C89_once, C89_disabled), but a wait that had ended is not taken back by a new one (C89_reschedule_refuted). The refresh five minutes after the start is proved (C89_refresh_partial); it is the only one: refuted with C89_refresh_refuted, hence tokens are accepted for ever (C89_token_forever_refuted) and announced peers are kept for ever (C89_stored_forever_refuted).
- **C90** Exact for every piece all of whose files hold their bytes, when the last piece is not full (C90_exact_partial; C90_all_partial for all workers and complete files). Refuted: with a full last piece the check reads behind the end of the wanted pieces (C90_full_last_refuted), a missing file lets the zeroes of the buffer count as its bytes (C90_stale_refuted), and a missing empty last file hides the last piece (C90_empty_last_refuted). Not modelled: rejecting the check meanwhile and the data races of the four workers on the progress.
- **C91** C91_demand_partial: the list of files and byte counts is exact for every parsed torrent whose files lie within its pieces. C91_one_partial: one file as a selection. C91_room_partial: when the request succeeds and what is on the disk then. C91_space_refuted: a half-present file is refused although the missing half fits. C91_empty_last_refuted: an empty file behind a full last piece is read out of range. Missing: the temporary files of C53_temporary_refuted.
- **C92** C92_start_partial: dropped and checked pieces are exact. C92_checked_partial: result of the check for every order of the workers' additions, for pieces whose files hold their bytes and torrents whose last piece is not full (see C90). C92_own_partial: the start's own writes begin no check. C92_shortened_refuted: they do when a too long file is cut. C92_empty_refuted: a missing empty file which is not selected drops its piece at every start and is never made.
- **C93** Handlers are taken as whole steps. C93_in_order_partial, C93_calls_partial, C93_silent_partial, C93_quota_partial and C93_safe_partial hold for all histories of possible events. C93_race_refuted: a write between the halves of a finished connect is sent twice. C93_closed_while_resolving_refuted: a stream closed while resolving connects later and uses its timer which is gone. C93_next_address_refuted: only the first address of a host is tried. C93_clock_refuted: division by zero at seconds which are multiples of 2^29. C93_quota_lost_refuted: left quota is lost. C93_waiting_closed_refuted: the connect timer closes a connected stream that waits for bandwidth.
- **C94** C94_found_partial: the country of the range is shown when another country follows under the same first byte. C94_last_refuted: the last country of each first byte is never shown. C94_first_byte_refuted: a range that began under a smaller first byte is not found. C94_path_refuted: toFile and fromFile mean different files for every folder. C94_country_EE_refuted, C94_longer_file_refuted, C94_number_refuted: entries of the file that are written or read out of place. The reading of the text of the list is left out.
- **C95** C95_told, C95_sent, C95_refuse, C95_closed and C95_other_way hold for all histories. C95_tries_partial: the bound holds until a connection was open; C95_again_and_again_refuted: a repetition that does not open is repeated without end and the owner is not told. C95_require_partial: no unencrypted data under Require unless the peer chose plain text; C95_plain_text_refuted: it can. The streams below and the bytes of the handshake are inputs here (TcpModel.v, PeModel.v have them).
- **C96** C96_calls, C96_state and C96_sent hold for all histories. C96_answer_partial: the response is given to the owner when every read but the last is full and the last is not. C96_full_reads_refuted: a length that is a multiple of 512 is lost. C96_parts_refuted: after a short first read nothing more is read and the announce never ends. C96_never_again_refuted: after any failure of a connection no later announce has a result. C96_short_write_refuted, C96_stopped_connects_refuted, C96_port_refuted: the rest of a partly written request is not sent, a stop while resolving does not keep it from connecting, the port is not used. Assumed of the sockets: a connected socket cannot be connected again.
- **C97** C97_calls, C97_state, C97_sent and C97_failure_told hold for all histories. C97_answer_partial: a response in any parts is given to the owner when the reader asks for more at every part. C97_own_partial, C97_stopped_partial: only the stream in use calls the owner, and none after a stop, as long as no response is bad. C97_never_again_refuted: after an answered announce whose connection is closed (the request asks for that) the closed stream is kept, so that no later announce is sent, answered or failed. C97_first_bytes_refuted: fewer than four first bytes are taken for a bad response. C97_old_end_refuted, C97_old_answer_refuted, C97_stopped_told_refuted: after a bad response the connection is forgotten but open, and its end or data fail or answer the next announce, also after a stop.
- **C98** Proved for blocks of the length of their place and saved pieces that agree with their blocks. Missing because the code violates it: over-long blocks (C98_long_block_refuted), sizes that are a multiple of the piece size (exact excess in C98_left_partial; C98_multiple_refuted), saved pieces kept through a check (C98_check_refuted), an empty last file (C98_empty_file_refuted), the figure for the selected files on stop (C98_selected_refuted).
- **C99** C99_sent, C99_pending, C99_gone, C99_again and C99_settings hold for all states and histories. C99_settled_partial and C99_served_partial: with one router, and one that serves; C99_unmap_partial: with one router; C99_once_partial: when no request is answered twice. Refuted: with two routers a wanted port is mapped and unmapped on the second without end (C99_two_routers_refuted), a router that refuses is asked again at once, any number of times (C99_retry_refuted), and one that answers twice is listed twice (C99_twice_refuted). Not modelled: the text of requests, the wait at shutdown, the discovery.
- **C100** C100_location, C100_parts, C100_services, C100_asked_only and C100_told hold for all texts and histories. C100_description_partial: when each text asked for has an element behind it; C100_all_asked_partial: while the program runs; C100_stop_partial: when the stop leaves no stream open. Refuted: exactly the texts with the first ':' or '/' among the last two characters throw (C100_throws_refuted), a location without a port reads a member never written (C100_no_port_refuted), a ':' in the path gives the port (C100_path_port_refuted), an empty name at the end of a description is read behind its elements (C100_empty_refuted), and stopping leaves older streams open whose answers call a function taken away (C100_stop_refuted). Not modelled: the search requests, the text of the request.
- **C101** Proved for every history and every encryption handshake: no stream is handed over twice and none that waits was handed over (C101_once); what is handed over is a whole greeting the stream sent, with the hash in it, or the result of a finished encryption handshake with its ciphers (C101_handed); what each kind of first data leads to (C101_greeting, C101_short, C101_encrypted); TCP turned off (C101_tcp_off). Partial because the code violates the rest: a greeting whose first segment ends between byte 20 and byte 67 makes the code compare an unset member with the hashes (C101_split_refuted); a peer refused after its encryption handshake is neither closed nor kept, and its stream stays open and ignored (C101_fate_refuted, C101_ignored), every other stream waits or was told to close (C101_fate_partial); a port change after stop opens a listener again (C101_stop_refuted), without one nothing is handed over (C101_stop_partial). Not modelled: the encryption setting, which this code does not read, and pointers used again for new streams (streams are numbered).
- **C102** Proved for every sequence of datagrams of at most 2048 bytes: those read are passed on in order, once and unaltered, at least one per read (C102_read), all of them after as many reads as there are datagrams (C102_all); for any datagrams the bytes passed on fit the buffer, which stays between 10 and 50 KiB (C102_bounded); a datagram with nothing in it ends the read (C102_empty); nothing is passed on once stopped (C102_stop). Partial because the code violates the rest: the packets put aside are passed on only after the address was overwritten by the next datagram, so a datagram is credited to the next other sender (C102_sender_refuted, exactly as C102_read says); from one sender only it is right (C102_sender_partial); a datagram above 2048 bytes may be cut (C102_cut_refuted). The socket and asio are the environment.
- **C103** Proved for every history: only what was written is sent (C103_known), no callback that is not set is called (C103_no_throw), the owner is not called after a close (C103_closed); answers are passed on in order (C103_answers) and a failed send is told (C103_failed). Sent once and in order when no write comes before the connect is over (C103_once_partial); to the address set as long as only it answers (C103_target_partial). Partial because the code violates the rest: a second write before the connect is over loses the first and sends the second twice (C103_lost_refuted), writes during a lookup are lost but the last (C103_resolving_refuted), an answer overwrites the address (C103_target_refuted), a write after the close reopens the socket and is sent (C103_again_refuted), an empty datagram blocks all later ones (C103_stuck_refuted) and each failed send adds one more pending receive (C103_loops_refuted).
- **C104** Proved for every file system: a failure changes nothing (C104_failed), no file that is not empty is ever lost (C104_kept), a success sets the path asked for (C104_path); to a directory that is there, the whole root is moved and nothing else changes (C104_moved_partial, C104_files_partial), and this succeeds for torrents of several files (C104_succeeds). Without moving, the files stay and are checked again (C104_stay). Partial because the code violates the rest: a torrent of a single file cannot be moved to a directory without such a file, since file_size of a missing file is 2^64-1 (C104_single_refuted; only over an empty file, C104_single); and when the new directory is not there the files stay behind, are missing at the new place and are not checked again, although Success is answered (C104_left_refuted). Symbolic links, permissions and other volumes are left out, but calls may be refused.
- **C105** Proved for every interleaving: each check is told to begin once and to end at most once, with all its workers done (C105_once), and what a stopped check found never counts (C105_stopped). When no two workers count at the same moment, a check whose workers are done has ended and counts unless stopped (C105_ends_partial); when besides no check begins before the workers of the last one are done, at most one is busy and the state shows it (C105_one_partial). Partial because the code violates the rest: the counter is a plain uint32_t shared by threads, so a check can never end and blocks all later ones (C105_race_refuted; formally undefined behaviour, shown here as a lost update); and a stopped check that ends later takes the next one for ended, which then runs beside a third and cannot be stopped (C105_stale_refuted).
- **C106** C106_bits: each alert has one bit of its own, in its category's mask only. C106_once: over every history what was handed out and what waits is exactly the alerts asked for, once and in order. C106_pop, C106_category. The mask is read without the mutex (AlertsManager.cpp:8, 21, 34); calls are atomic in the model.
- **C107** Proved: with the port given apart the address is the one typed (C107_apart) and what is no address is refused (C107_refused); every text but the empty one is read within its bounds (C107_within); whatever is connected to is the whole typed text read as an address (C107_typed) and Peers::connect sees exactly that (C107_connect); from bytes (C107_bytes). Partial because the code violates the rest: the port is left in the text given to the reader, so no quad with a port can be connected to (C107_port_refuted), nor the text the program itself shows for a peer (C107_shown_refuted); a quad without port gets a port made of its own digits (C107_bare_refuted), an IPv6 address its last group (C107_v6_refuted); the empty text is read past its end (C107_empty_refuted).
- **C108** Proved: what the check had found when it was stopped counts, with what was not to be checked (C108_found), also after the next start (C108_kept_partial). Partial because the code violates the rest: the stop saves the newest file's time as that of the state, so the next start begins no check and everything the check had not come to counts as missing, whatever is stored (C108_lost_refuted); a check the user asks for forgets all pieces first, so stopping it leaves only what it had found (C108_asked_refuted).
- **C109** Proved: no overflow while posted closes are run before the next refresh (C109_no_overflow; C109_no_overflow_refuted shows that this is needed), the waits, the giving up, the two SYNs, what is told. The code breaks the resending: timeoutCount is never set back, so after six timeouts in its life a stream never again resends by timeout and the next such loss ends it (C109_resend_refuted, C109_never_again); before that it does (C109_resend_partial).
- **C110** Proved for all histories but the last sentence, which the code breaks: the stream made by a SYN is kept under the SYN's id plus one, so the same SYN again finds nothing and makes a second stream, also given to the listener (C110_syn_once_refuted, for every SYN), which then never gets a datagram while the first is there (C110_shadowed). C110_syn_once_partial: a SYN with an id that is in use makes none.
- **C111** C111_printed_partial and C111_at_once hold for text without a 0; C111_name: a log given the first part of its name writes nothing until it is given the rest, and then keeps that name. C111_printed_refuted: with a 0 inside a std::string the rest of it is taken for items and the reading runs past the end. C111_value_refuted: 64 bit sizes are logged modulo 2^32, negative ints as large numbers, IPv6 addresses as their first four bytes.
- **C112** C112_agree_partial leaves out streams in which a marker stands by chance, torrents that are not looked up right (C14_refuted) and, for the initiator, message 4 cut beyond the first 13 bytes after the key's piece. C112_padding_refuted: with the tail of the padding of message 2 in a piece of its own the initiator waits for ever. C112_listener and C112_initiator hold for all bytes.
- **C113** Proved for all histories: C113_same_download, C113_requests, C113_told, C113_polled, C113_grows, C113_peers, C113_text. C113_gone_partial covers peers that disconnected as often as they connected; C113_gone_refuted: a peer that sent its extended handshake twice is taken off once and asked for ever. C113_stopped_partial: after the stop only connected and disconnected are logged; C113_stopped_refuted: a handshake behind the stop is logged behind the end. Calls and polls are single steps although the start appends and getEventsCount reads without the mutex (MetadataDownload.cpp:18, 73-76).
- **C114** C114_between, C114_average, C114_two, C114_settles, C114_large. The code is not called at this commit (the call at UtpStream.cpp:758 is commented out), so samples come from nowhere; negative samples are left out.
- **C115** Proved for all histories: C115_once, C115_found, C115_cleared, C115_size, C115_saved. C115_entries_refuted: a load leaves an empty entry behind which is never removed, so the list grows with each stop and start and the saved state has entries without data (they are skipped when it is read). C115_saved is on the entries; their bytes are the subject of C28.

## 6. Source coverage

Line ranges are those cited by the definitions of the model (generated from the comments). "Not modelled" lists the functions of the file none of whose lines is cited; functions that are one-line wrappers, constructors, logging or glue to the operating system are mostly among them. Files not listed have no modelled line: see section 4.

- `Public/Alerts.h` (32 lines): modelled 7, 11-30.
- `Core/AlertsManager.cpp` (68 lines): modelled 6-43, 50-67. Not modelled: Get (45-48).
- `Core/AlertsManager.h` (27 lines): modelled 22-25.
- `utils/Bandwidth.cpp` (256 lines): modelled 13-16, 23-69, 81-101, 110-123, 129-256. Not modelled: BandwidthChannel (9-11), getLimit (18-21), BandwidthRequest (71-79), Get (105-108), BandwidthManager (125-127).
- `utils/Bandwidth.h` (121 lines): modelled 24-93, 96-122.
- `utils/Base32.cpp` (59 lines): modelled 6-60.
- `utils/BencodeParser.cpp` (378 lines): modelled 15-33, 37-201, 208-333, 340-348. Not modelled: getValueOr (9-13), IS_NUM_CHAR (35-35), getRoot (203-206), isLastItem (335-338), isMap (350-353), isList (355-358), isInt (360-363), isText (365-368), getDictItemValue (370-373), isText (375-378).
- `utils/BencodeParser.h` (95 lines): modelled 17-28, 56-70.
- `utils/BencodeWriter.cpp` (144 lines): modelled 9-12, 41-60, 88-98, 106-144. Not modelled: BencodeWriter (4-7), startMapItem (14-18), appendText (20-23), appendText (25-28), appendText (30-33), startRawMapItem (35-39), addItem (62-66), addItem (68-72), addItem (74-78), addItemFromBuffer (80-86), addRawItem (100-104).
- `utils/BigNumber.cpp` (644 lines): modelled 5, 17-28, 58-61, 86-167, 186-589, 621-644. Not modelled: BigNumber (6-9), BigNumber (11-15), GetDataBuffer (30-33), GetData (35-38), GetData (40-43), SetZero (45-51), GetByteSize (53-56), AllocateData (63-66), SetLength (68-74), Length (76-79), SetByteSize (81-84), IsEqual (169-184), MsbPos (596-619).
- `utils/BigNumber.h` (101 lines): modelled 14.
- `utils/ByteSwap.cpp` (7 lines): modelled 4-6.
- `Core/Dht/Communication.cpp` (279 lines): modelled 46-81, 88-188, 226-239. Not modelled: Communication (12-17), ~Communication (19-23), get (25-28), init (30-42), active (83-86), sendMessage (190-193), stopMessage (195-198), sendMessage (200-203), loadDefaultRoots (205-224), save (241-249), load (251-260), announceTokenReceived (262-265), onUdpPacket (267-274), getNodesCount (276-279).
- `Core/Dht/Communication.h` (78 lines): modelled 55-79.
- `Core/Configuration.cpp` (323 lines): modelled 55, 59-72, 84-143, 151-166, 187-243, 246-298. Not modelled: getDefaultDirectory (18-45).
- `Api/Configuration.h` (111 lines): modelled 20, 29-46, 49-67, 104.
- `Core/Configuration.h` (14 lines): modelled .
- `Core/Core.cpp` (342 lines): modelled 77-95, 111-131, 170-305, 315-332. Not modelled: OurCrashHandler (20-55), saveTorrentList (100-109), addFile (150-168), ~GlobalBandwidth (336-342).
- `Core/Core.h` (61 lines): modelled 38.
- `utils/DiffieHellman.cpp` (69 lines): modelled 3-64. Not modelled: KeySize (66-69).
- `Core/DownloadStorage.cpp` (379 lines): modelled 12-19, 29-63, 75-248. Not modelled: DownloadStorage (3-5), start (7-10), checkPiece (21-27), storePieceBlock (65-68), WriteCache (70-73).
- `Core/DownloadStorage.h` (87 lines): modelled 9-42, 74-77.
- `Core/Downloader.cpp` (705 lines): modelled 23-45, 109-691. Not modelled: Downloader (11-16), start (18-21), sortPieces (47-58), getCurrentRequests (60-73), getCurrentRequestsInfo (75-96), popFreshPieces (98-102), handshakeFinished (104-107), received (693-705).
- `Core/Downloader.h` (107 lines): modelled 40-58, 65-81, 91-94.
- `Core/ExtensionProtocol.cpp` (19 lines): modelled 5-19.
- `utils/FastIpToCountry.cpp` (88 lines): modelled 7-25, 28-88.
- `utils/FastIpToCountry.h` (30 lines): modelled 19-27.
- `Core/FileTransfer.cpp` (298 lines): modelled 19-55, 65-83, 98, 120-290. Not modelled: FileTransfer (12-17), refreshSelection (57-63), extendedHandshakeFinished (116-118).
- `Core/Files.cpp` (390 lines): modelled 11-21, 33-138, 145-179, 222-265, 278-291, 337-391. Not modelled: Files (7-9), initialize (23-31), getFilesSelection (140-143), setFilesPriority (198-207), setFilePriority (209-220), getFilesAllocatedSize (267-271), getLocationPath (273-276), validateCurrentPath (293-296), validatePath (298-301), getPiecesCount (303-306), getSelectedPiecesCount (308-311), getReceivedPiecesCount (313-316), getPiecesBitfield (318-325), checkingProgress (327-335).
- `Core/Files.h` (64 lines): modelled 54.
- `utils/HexEncoding.cpp` (54 lines): modelled 5-53.
- `Core/HolepunchExtension.cpp` (66 lines): modelled 9-29, 46-66. Not modelled: sendConnect (31-34), sendRendezvous (36-39), sendError (41-44).
- `Core/HolepunchExtension.h` (45 lines): modelled 13-28.
- `utils/HttpHeader.cpp` (122 lines): modelled 10-49, 56-122. Not modelled: readFromBuffer (51-54).
- `utils/HttpHeader.h` (16 lines): modelled 5-12.
- `Core/HttpTrackerComm.cpp` (210 lines): modelled 24-210. Not modelled: HttpTrackerComm (15-17), ~HttpTrackerComm (19-22).
- `Core/HttpTrackerComm.h` (43 lines): modelled 29-44.
- `Core/HttpsTrackerComm.cpp` (110 lines): modelled 24-108. Not modelled: HttpsTrackerComm (15-17), ~HttpsTrackerComm (19-22).
- `Core/IncomingPeersListener.cpp` (270 lines): modelled 15-34, 39-68, 71-72, 75-97, 104-145, 152-171, 175-268. Not modelled: IncomingPeersListener (11-13), getUpnpReadableInfo (99-102).
- `Core/IncomingPeersListener.h` (56 lines): modelled 28-51.
- `Core/Interface.cpp` (129 lines): modelled 4-124. Not modelled: CurrentTimestamp (126-129).
- `Api/Interface.h` (246 lines): modelled 22-32, 39-74, 111-127.
- `Core/Interface.h` (84 lines): modelled 13, 46-80.
- `Core/Api/InterfaceImpl.cpp` (228 lines): modelled 10-228.
- `Core/Logging.cpp` (253 lines): modelled 36-152, 165-192, 205-206, 213-221. Not modelled: GetLogTimeT (13-18), EnableLog (23-29), LogEnabled (31-34), CreateLogLineId (154-163), assignIndex (208-211), ~LogWriter (223-226), GetGlobalLog (228-243), Create (245-248), Enabled (250-253).
- `Core/Logging.h` (114 lines): modelled 60-71, 75-86, 90-103, 114.
- `Core/MetadataDownload.cpp` (223 lines): modelled 14-76, 86-99, 105-223. Not modelled: MetadataDownload (10-12), handshakeFinished (78-84), messageReceived (101-103).
- `Core/MetadataDownload.h` (64 lines): modelled 26-33.
- `Core/Api/MetadataDownloadImpl.cpp` (25 lines): modelled 9-20. Not modelled: getState (4-7), getDownloadLogSize (22-25).
- `Core/MetadataExtension.cpp` (97 lines): modelled 8, 12-97.
- `Core/MetadataExtension.h` (35 lines): modelled 12.
- `Core/MetadataReconstruction.cpp` (58 lines): modelled 5-53. Not modelled: getRecontructedInfo (55-58).
- `utils/Network.cpp` (199 lines): modelled 29-106, 122-163, 175-199. Not modelled: Addr (4-7), Addr (9-12), Addr (14-17), Addr (19-22), Addr (24-27), toUdpEndpoint (108-113), toTcpEndpoint (115-120), toString (165-168), toUint (170-173).
- `utils/Network.h` (47 lines): modelled 27-29.
- `Core/Dht/Node.cpp` (120 lines): modelled 20-40, 52-60, 67-120. Not modelled: NodeId (6-8), NodeId (10-13), copy (15-18), distance (42-45), length (47-50), setMax (62-65).
- `Core/Dht/Node.h` (37 lines): modelled 29-36.
- `utils/PacketHelper.h` (180 lines): modelled 11-44, 53-64, 80-82, 94-104, 111-116, 123-128, 136-139, 153-157.
- `Core/PeerCommunication.cpp` (492 lines): modelled 15-132, 142-150, 163-247, 262-288, 305-312, 363-492. Not modelled: PeerInfo (136-140), PeerCommunication (152-157), ~PeerCommunication (159-161), getStream (249-252), connectionClosed (254-260), requestPieceBlock (290-298), isEstablished (300-303), sendHave (314-321), sendPieceBlock (323-332), sendBitfield (334-341), resetState (343-347), sendPort (349-356), send (358-361).
- `Core/PeerMessage.cpp` (91 lines): modelled 6-91.
- `Core/PeerMessage.h` (57 lines): modelled 10-55.
- `Core/PeerStream.cpp` (415 lines): modelled 16-108, 189-415. Not modelled: PeerStream (6-10), ~PeerStream (12-14), getAddressName (110-118), getIpString (120-128), wasConnected (130-133), getReceivedDataCount (135-143), setMinBandwidthRequest (145-149), getFlags (151-167), isEncrypted (169-172), isUtp (174-177), usedHolepunch (179-182), enableHolepunch (184-187).
- `Core/PeerStream.h` (98 lines): modelled 49-95.
- `Core/Peers.cpp` (759 lines): modelled 31-262, 301-343, 355-377, 392-458, 468-502, 509-529, 548, 551-597, 607-730, 737-747. Not modelled: Peers (16-29), inspectConnectedPeers (264-275), getSourcesInfo (277-299), connectedCount (345-348), receivedCount (350-353), reloadTorrentInfo (379-390), updateKnownPeers (460-466), stopped (504-507), getKnownPeer (531-537), dhtFindingPeersFinished (599-605), extendedHandshakeFinished (732-735).
- `Core/Peers.h` (147 lines): modelled 44-59, 71-75, 99-122.
- `Core/Api/PeersImpl.cpp` (36 lines): modelled 28-31. Not modelled: getSourcesInfo (3-6), refreshSource (8-11), addTrackers (13-16), connectedCount (18-21), receivedCount (23-26), getConnectedPeersInfo (33-36).
- `Core/PexExtension.cpp` (243 lines): modelled 8, 13-16, 23-128, 142-243. Not modelled: LocalData (18-21), empty (130-134), getPexData (136-140).
- `Core/PiecesProgress.cpp` (255 lines): modelled 7-10, 22-193, 200-255. Not modelled: getPercentage (12-15), getSelectedPercentage (17-20), getReceivedPiecesCount (195-198).
- `Core/PiecesProgress.h` (44 lines): modelled 35-44.
- `Core/ProtocolEncryption.cpp` (404 lines): modelled 20-71, 81-130, 159-303, 307-326, 329-404. Not modelled: encrypt (4-7), decrypt (9-13), decrypt (15-18), initiate (73-79), started (132-135), established (137-140), failed (142-145), getInitialBtMessage (147-150), getTorrentHash (152-155).
- `Core/ProtocolEncryption.h` (92 lines): modelled 46-93.
- `Core/Dht/Query.cpp` (714 lines): modelled 13-66, 92-129, 138-338, 355-536, 543-568, 575-585, 590-714. Not modelled: getShortestDistance (68-81), DhtQuery (83-86), ~DhtQuery (88-90), finished (131-136), startOne (340-353), ~PingNodes (538-541).
- `Core/Dht/Query.h` (151 lines): modelled 10-46, 49-99, 115-146.
- `utils/RC4.cpp` (76 lines): modelled 4-76.
- `utils/RC4.h` (20 lines): modelled 15-19.
- `Core/Dht/Responder.cpp` (279 lines): modelled 9-267, 273-278.
- `Core/Dht/Responder.h` (51 lines): modelled 15-47.
- `utils/SHA.cpp` (309 lines): modelled 10-23, 30-42, 45-48, 51-54, 61-97, 104-204, 207-217, 220-250, 256-298. Not modelled: BufferHash (300-309).
- `utils/ScheduledTimer.cpp` (57 lines): modelled 3-6, 13-57. Not modelled: ~ScheduledTimer (8-11).
- `utils/ServiceThreadpool.cpp` (60 lines): modelled 23-61. Not modelled: ServiceThreadpool (3-5), ServiceThreadpool (7-11), ~ServiceThreadpool (13-16), post (18-21).
- `utils/SslAsyncStream.cpp` (184 lines): modelled 49-183. Not modelled: SslAsyncStream (7-11), ~SslAsyncStream (13-16), init (18-24), write (26-32), stop (34-47).
- `utils/SslAsyncStream.h` (64 lines): modelled 38-65.
- `Core/State.cpp` (202 lines): modelled 13-143, 151-202. Not modelled: TorrentState (8-11), remove (145-149).
- `Core/Storage.cpp` (665 lines): modelled 13-20, 31-90, 97-176, 188-239, 254-270, 278-570, 577-594, 601-655. Not modelled: Storage (22-25), ~Storage (27-29), getPath (92-95), preallocateFile (178-181), preallocateSelection (183-186), getWriteTime (241-252), getLastModifiedTime (272-276), getCurrentRootpath (572-575), getFullpath (596-599), validatePath (657-660), validatePath (662-665).
- `Core/Storage.h` (80 lines): modelled 25-29, 32-36, 70-75.
- `Core/Dht/Table.cpp` (330 lines): modelled 6-177, 192-330. Not modelled: empty (179-190).
- `Core/Dht/Table.h` (63 lines): modelled 39-56, 59.
- `utils/TcpAsyncServer.cpp` (45 lines): modelled 28-45. Not modelled: TcpAsyncServer (6-8), listen (10-13), stop (15-19), startListening (21-26).
- `utils/TcpAsyncStream.cpp` (554 lines): modelled 6-12, 18-549. Not modelled: ~TcpAsyncStream (14-16), reserved (551-554).
- `utils/TcpAsyncStream.h` (127 lines): modelled 57-128.
- `Core/Torrent.cpp` (440 lines): modelled 35-139, 166, 171-179, 207-238, 269-351, 373-376, 383-440. Not modelled: Torrent (13-15), ~Torrent (17-19), saveTorrentFile (141-151), removeMetaFiles (153-158), refreshSelection (184-192), loadSavedTorrentFile (194-205), getState (240-252), isActive (254-257), getStateTimestamp (259-262), initialize (264-268), finished (353-356), selectionFinished (358-361), getTimeAdded (363-366), hash (368-371), name (378-381).
- `utils/TorrentFileParser.cpp` (242 lines): modelled 11-138, 159-242. Not modelled: parseTorrentInfo (140-157).
- `Core/TrackerManager.cpp` (239 lines): modelled 12-67, 77-81, 115-239. Not modelled: TrackerManager (8-10), addTrackers (69-75), getTrackerByAddr (83-94), getTrackers (96-108), getTrackersCount (110-113).
- `Core/TrackerManager.h` (56 lines): modelled 32-43.
- `utils/UdpAsyncComm.cpp` (366 lines): modelled 61-366. Not modelled: UdpAsyncComm (8-11), ~UdpAsyncComm (13-16), Get (18-21), deinit (23-38), setBindPort (40-49).
- `utils/UdpAsyncComm.h` (64 lines): modelled 40-56.
- `utils/UdpAsyncReceiver.cpp` (97 lines): modelled 16-97. Not modelled: UdpAsyncReceiver (6-14).
- `utils/UdpAsyncReceiver.h` (38 lines): modelled 22-36.
- `utils/UdpAsyncWriter.cpp` (351 lines): modelled 14-41, 73-239, 264-294, 306-351. Not modelled: UdpAsyncWriter (5-8), ~UdpAsyncWriter (10-12), setBindAddress (43-46), setBindPort (48-51), setBroadcast (53-56), close (58-61), write (63-66), write (68-71), getName (296-299), getEndpoint (301-304).
- `utils/UdpAsyncWriter.h` (85 lines): modelled 43-83.
- `Core/UdpTrackerComm.cpp` (243 lines): modelled 35-172, 182-243. Not modelled: UdpTrackerComm (13-15), ~UdpTrackerComm (17-20), init (22-28), deinit (30-33), connect (174-180).
- `Core/UdpTrackerComm.h` (75 lines): modelled 47-61.
- `Core/Uploader.cpp` (149 lines): modelled 14-80, 87-144. Not modelled: Uploader (7-12), isActive (82-85), name (146-149).
- `Core/Uploader.h` (50 lines): modelled 41-45.
- `utils/UpnpDiscovery.cpp` (258 lines): modelled 6-103, 107-200, 203-250. Not modelled: active (255-258).
- `utils/UpnpDiscovery.h` (60 lines): modelled 18-26, 34-60.
- `utils/UpnpPortMapping.cpp` (372 lines): modelled 11-89, 97-258, 290-342. Not modelled: getReadableInfo (260-288), getMappingServiceControlUrl (344-353), createUpnpHttpHeader (355-372).
- `utils/UpnpPortMapping.h` (63 lines): modelled 16, 39-64.
- `utils/Uri.cpp` (51 lines): modelled 4-51.
- `utils/Uri.h` (13 lines): modelled 5-11.
- `utils/UrlEncoding.cpp` (53 lines): modelled 4-54.
- `Core/Utp/UtpManager.cpp` (206 lines): modelled 33-37, 69-82, 90-206. Not modelled: Manager (7-10), ~Manager (12-15), get (17-20), init (44-52), stop (54-67), setConnectionCallback (84-88).
- `Core/Utp/UtpManager.h` (57 lines): modelled 41-53.
- `Core/Utp/UtpStream.cpp` (923 lines): modelled 12, 15-67, 79-248, 281-301, 354-358, 361-580, 592-817, 827-838, 872-881, 891-913. Not modelled: Stream (69-73), ~Stream (75-77), getId (250-253), getEndpoint (255-258), getHostname (260-263), getAddress (265-269), getReceivedDataCount (271-274), wasConnected (276-279), sendSyn (303-319), sendState (321-326), sendFin (328-334), handleExtension (582-590), appendReceiveBuffer (848-863), getReceiveWindow (886-889), timestampMicro (915-918), timestampMicro (920-923).
- `Core/Utp/UtpStream.h` (247 lines): modelled 70-104, 107-142, 153-174, 215-232.
- `utils/Xml.cpp` (321 lines): modelled 15-171, 179-191, 198-201, 204-258, 280-321. Not modelled: getRoot (7-10), valueNumber (173-177), attributes (193-196), Element (260-273), createChild (275-278).
- `utils/Xml.h` (85 lines): modelled 10-44.
- `utils/int128.h` (305 lines): modelled 21-34, 70-73.
- `Core/main.cpp` (17 lines): modelled . Not modelled: Main (4-16).

## 7. Findings

Every theorem with suffix `_refuted` is a proved counterexample to a property, with its witness or for all inputs of a class:

- `C01_exact_buffer_refuted`: every list and dictionary which fills its buffer makes the parser read the byte behind it.
- `C02_negative_length_refuted`: "d-4:" keeps the parser busy for ever, whatever follows in memory.
- `C02_long_text_refuted`: a text whose given length is one too large is accepted and read with the byte behind the buffer.
- `C03_bitfield_65536_refuted`: the size of a message is kept in 16 bits. A bitfield message of 65536 bytes (a torrent with 524248 pieces) is read with size 0, and the receive loop never ends.
- `C04_fragmentation_65536_refuted`: a message of 65536 bytes that arrives in more than one chunk is thrown away with everything received, and its remaining bytes are read as messages.
- `C05_interest_refuted`: interest is recorded inverted, after every history with an interest message.
- `C06_hex_short_text_refuted`: ... and every shorter text of hexadecimal digits makes it read outside it (the text overload of [Core::removeTorrent], Core.cpp:305, passes user text unchecked).
- `C07_url_bad_escape_refuted`: text whose first escape is not two hexadecimal digits (here: any pair scanf converts nothing from) makes the decoder use an uninitialised variable.
- `C09_bad_escape_refuted`: a bad escape in the first tracker or the name uses an uninitialised variable.
- `C10_addr_eq_refuted`: across families equality is neither symmetric nor transitive, and calls addresses with different meanings equal ...
- `C10_addr_order_refuted`: ... and the order is not a strict weak order, as sorted containers require.
- `C10_addr_text_refuted`: ... so 10.0.0.105 and 10.0.0.15 have the same text.
- `C12_single_digit_refuted`: A divisor of one digit above 2^63 can overflow the signed 128 bit [k].
- `C12_power_zero_refuted`: x^0 mod 1 comes out as 1.
- `C14_other_refuted`: With two torrents, asking for the second is refused because the first is found.
- `C16_boundary_refuted`: a file of a multi-file torrent which ends on a piece boundary is recorded as ending a whole piece earlier.
- `C16_zero_piece_length_refuted`: a torrent without or with a zero piece length divides by zero when it is parsed.
- `C16_empty_last_refuted`: an empty last file behind a full last piece gets a piece which does not exist.
- `C17_multiple_refuted`: when several files fill their last piece, that piece has size 0 and 262144 blocks.
- `C18_boundary_refuted`: of a file which ends on a piece boundary in a torrent of several files, nothing of its last piece is ever written to it.
- `C18_padding_refuted`: when such a file also begins inside that piece, storing the first block of the piece reads 4 GiB behind the block.
- `C19_bitfield_refuted`: a bitfield sets the count of selected received pieces to 0, whatever it contains.
- `C19_init_refuted`: [init] on a progress with a received piece counts none.
- `C20_large_refuted`: with 16777224 pieces the float computation puts the last piece outside the bitfield.
- `C21_multiple_refuted`: when the total is a multiple of the piece size and the last piece is received, one piece is missing in the count: a finished torrent still has a piece to go.
- `C22_three_files_refuted`: with three files in a piece, deselecting the first while the second is not selected deselects the piece although the third still needs it.
- `C23_early_refuted`: from the last block on, before its hash is compared, a piece counts as received; with a wrong hash it stops to.
- `C23_deselected_refuted`: 
- `C24_conflict_refuted`: a piece which was wrong is downloaded again while its first block is still in a group (being written): reading gives the wrong bytes again, not those stored last.
- `C24_order_refuted`: And the files end up with the wrong bytes if the newer group is written first.
- `C24_lost_refuted`: a block stored while its group is flushed as part of the whole cache is lost.
- `C24_twice_refuted`: a group which becomes full while it is flushed that way is flushed twice; the second flush has no blocks and takes the first of none.
- `C24_oversize_refuted`: the size of a block is not checked; one larger than a group is written behind the buffer, and one larger than the piece is copied behind the buffer of the check.
- `C24_outside_refuted`: 
- `C25_order_refuted`: 
- `C26_starved_refuted`: Without that room a request can wait forever: at one byte per second, six requests on one channel share at most five bytes per tick, every share rounds down to nothing and the saved quota is cut back to three bytes.
- `C27_overlong_refuted`: a last part with more bytes than remain is written behind the end of the buffer, for every size which is not a multiple of 16 KiB.
- `C27_empty_part_refuted`: a part without data counts as received; the download ends with other bytes.
- `C27_asks_nonsense_refuted`: before any size is known, a data message for size 0 makes the program ask for part 4294967295.
- `C27_untyped_refuted`: a message without a type is used nonetheless.
- `C28_size_refuted`: the size of a torrent of 4 GiB or more is never read back as it was.
- `C28_unfinished_refuted`: an unfinished piece saved without bytes is not read back (nothing is lost by it).
- `C29_encryption_refuted`: the encryption setting and the preference for uTP are not in the file: whatever was saved, after a restart they are the defaults.
- `C29_directory_refuted`: a directory with "]]>" in its name is cut there.
- `C29_prefer_refuted`: setting only the preference for uTP changes nothing.
- `C30_nearest_refuted`: the target itself and its nearest neighbour never count as closer than anything.
- `C31_own_id_refuted`: the responder adds whatever id a query claims, even this client's own, which is no node to route to.
- `C32_neighbour_refuted`: the nearest possible neighbour is never returned, not even for itself.
- `C33_delimiter_refuted`: a node whose id contains the text that ends a bucket makes loading the saved table throw, and the table is lost.
- `C33_foreign_file_refuted`: a file that is not one written by [save] can index outside the buckets.
- `C34_permuted_refuted`: the token of an address is good for every address spelled with the same characters.
- `C35_family_refuted`: the announce of an IPv6 peer removes an IPv4 peer whose 4 bytes and port it shares.
- `C36_end_refuted`: A datagram with a wrong transaction id removes the request from the list although its callback stays: the end is reported while a request is outstanding, and a second time when that one times out.
- `C36_outstanding_refuted`: For the same reason the number of requests really outstanding is not bounded by five: eight nodes wait for an answer of a lookup that started with one.
- `C36_table_node_refuted`: The table's own nodes are not noted as used: one of them is asked again when another names it.
- `C37_zero_refuted`: Packet 0 waiting when 65535 comes: it is not delivered, and stays in the way of those behind it even when it is sent again.
- `C37_hang_refuted`: The buffers of duplicates are never freed: 65537 copies of one packet that waits, and the search for a free buffer does not end.
- `C40_zero_refuted`: Packet 0 in the way: packet 1 is stored and the bitmask does not name it.
- `C41_no_peers_refuted`: a correct reply without peers has its interval and its numbers ignored.
- `C41_short_refuted`: an announce reply of one to seven bytes is read past its end.
- `C41_mixed_reply_refuted`: 
- `C41_never_reconnects_refuted`: once connected the connection id is never renewed: after a failure the tracker is "connected" again, and every later message is an announce (trackers forget an id after two minutes).
- `C42_duplicate_refuted`: 
- `C42_https_duplicate_refuted`: An https address without a port is added every time.
- `C42_dangling_refuted`: A tracker is added while another runs (a magnet link's torrent file arrives, a tracker is added by the user): the vector moves and the running tracker's timer keeps the old address.
- `C42_removed_refuted`: The list is cleared between a failure and the function it posted.
- `C42_restart_after_stop_refuted`: A UDP tracker fails, the torrent is stopped, the posted function runs: the tracker is asked although the torrent is stopped.
- `C43_twice_refuted`: A tracker's reply with one address twice: two known peers, and two connections to it.
- `C43_unwanted_refuted`: An unwanted peer that connected itself and comes again is a new known peer: it is contacted after that although its address is marked unwanted.
- `C43_holepunch_refuted`: With uTP switched off a hole-punch connect opens no stream; two such messages give one known peer two connections, and when the first is closed the peer counts as disconnected while the second lives: it is contacted again.
- `C43_families_refuted`: An IPv6 peer whose address begins with the four bytes of a known IPv4 peer of the same port is taken for it and not added.
- `C44_again_refuted`: Peers which were already named are named again as added, in every message.
- `C44_over_50_refuted`: Dropped peers are not limited to 50.
- `C44_ipv6_refuted`: An IPv6 peer is never named as added, but its 18 bytes are written among the dropped ones, where they are read as three other peers.
- `C44_first_refuted`: The offset of an earlier dropped part is kept. After a message with dropped peers and one without, the first message for a new peer has lost its beginning; sending it can write outside the buffer.
- `C45_only_first_chunk_refuted`: 
- `C45_partial_header_refuted`: a header which has not arrived completely is read without end (whenever it stops at least two bytes into a line), growing the list of fields in memory: no number of steps is enough.
- `C45_throw_refuted`: a content length which is not a number throws an exception nobody catches ([std::stoul] in 105; the [try] of HttpTrackerComm.cpp:154 begins after it).
- `C46_race_refuted`: looking for the hash and adding it are two steps. Two threads adding the same file can both look first: the torrent is registered twice.
- `C46_garbage_refuted`: adding a file which is not a torrent compares a hash which was never set.
- `C46_stale_refuted`: after a start at which a torrent could not be loaded, the saved list still names it.
- `C47_magnet_refuted`: a torrent added by a magnet link and started is gone after a restart if its metadata did not arrive before.
- `C47_failed_start_refuted`: a torrent which could not be started at launch (say the drive was missing) and is then stopped by the user is started at the next launch.
- `C47_metadata_refuted`: stopped and started again while its metadata is downloading, a torrent does not run when the metadata arrives, and nothing remembers the start.
- `C47_second_start_refuted`: the second start of a torrent whose .torrent file is missing goes through, without any metadata.
- `C50_short_error_refuted`: an error message which ends before its code is read outside the buffer.
- `C51_unchoke_refuted`: a peer which sends Unchoke again gets all its outstanding requests again.
- `C52_have_refuted`: A peer's 'have' is handled as long as the index is below 2^32 - 1 ([C19_add]). Finding: with the index 2^32 - 1 memory far outside is read, whatever the peer had before (unless all).
- `C52_short_bitfield_refuted`: a bitfield shorter than the torrent's is read past its end.
- `C53_temporary_refuted`: a file of which only the first and last piece are kept (it was not selected) is made too long when it is selected, with its last piece in the wrong place; after that nothing is written to the pieces between.
- `C54_stall_refuted`: Otherwise a pending request can be forgotten: the bytes for the first of two queued requests are granted later, those for the second on the spot inside sendRequests, and then nothing is posted although the bytes are there.
- `C55_stale_data_refuted`: When it fails the peer is sent the bytes of the previous answer, here those read for another peer.
- `C57_message4_refuted`: Cut after 14 bytes of a message 4 of 20 bytes, the first half moves the cipher on, the constant is not found again, and the connection waits for ever.
- `C58_listener_refuted`: The listener agrees to an unencrypted stream and then decrypts it all the same.
- `C60_truncated_refuted`: the buffer of an earlier check is used again and a file which is too short is read without an error. A piece whose check was the last that succeeded succeeds again although its file was cut to nothing since.
- `C66_begin_refuted`: a block of a piece which is being downloaded from the peer, beginning behind the end of the piece, makes addPeerBlockResponse read request.blocks out of range.
- `C66_blocks_refuted`: pieces of 65536 blocks (1 GiB) divide by zero when the first block is asked for.
- `C66_wrong_block_refuted`: a block which begins one byte before a boundary is stored where it begins but counts as the block behind the boundary.
- `C67_wrap_refuted`: the offset is cut to 32 bits, so a part far behind the end is answered with a part from the start.
- `C68_unverified_refuted`: the hash the torrent was added with plays no part. Whatever it is, one peer can have other metadata accepted, here one of two dictionaries.
- `C69_length_wraps_refuted`: header and content length are added in 32 bits, so a content length near 2^32 passes the check, and the parser is told a length far behind the buffer.
- `C70_ipv6_refuted`: the host of an IPv6 address is cut at its first colon: "[::1]:80" has the host "[" and the port ":1]:80".
- `C71_null_refuted`: a peer which did not name the extension in its handshake and sends a rendezvous request for an address not connected makes the program use a null pointer.
- `C71_no_answer_refuted`: a request for a connected peer without uTP or without the extension is not answered at all (BEP 55 has error 3 for it).
- `C73_value_refuted`: the value of an element without content at the document's end is read behind the vector.
- `C73_attribute_refuted`: an element with an attribute has the attribute's value instead of its text.
- `C73_self_closing_refuted`: an element closed in its own tag is left out.
- `C74_comment_refuted`: a value which is the text "info" is taken for the key. With a comment "info" no hash is written at all: the torrent is added with whatever the memory held (C46).
- `C74_last_refuted`: if this value is the last of the file, a null pointer is used.
- `C75_files_refuted`: a file list with a text in it makes the reader leave the parsed objects.
- `C75_piece_length_refuted`: without a piece length the reader divides by zero.
- `C76_escape_refuted`: nothing keeps ".." out: a torrent can write files anywhere. Here "../x" in the directory "/d" of a torrent named "..".
- `C76_zero_refuted`: a zero byte ends a path: files with different names are one file.
- `C77_no_name_refuted`: a torrent of several files without a name: deleting its files removes the whole download directory, with the files of every other torrent.
- `C77_parent_refuted`: with the name ".." it is the directory above.
- `C78_names_refuted`: of a torrent of several files whose bytes were not kept the names of the files are not written: each file reads back under the name of its last directory.
- `C79_alternating_refuted`: a peer which sends bad data in every other piece it helps with is never disconnected, as long as it has company: each good piece clears it.
- `C79_innocent_refuted`: a peer which never sent a wrong byte is disconnected for good with the one it shared three pieces with: who of them sent the wrong data makes no difference.
- `C80_port_refuted`: Finding (BEP 5: the port a peer is reached at): with different ports for TCP and UDP the request names the one of UDP.
- `C80_order_refuted`: the keys of a request for peers, of an announce and of its arguments are not in the order BEP 3 asks for; those of the other two are.
- `C81_error_refuted`: the code of an error as BEP 5 has it ("y" is "e", "e" a list) is never read, nor which request it answers.
- `C81_null_refuted`: a list as the first item of "e" in an answer is read as a number through a null pointer.
- `C81_no_id_refuted`: an answer without an id: the id compared with the one asked for was never written (Query.cpp:236, 389).
- `C81_beyond_refuted`: a node or peer cut short is read on past the end of the message: what is read depends on what lies behind it, and nothing says what happens if nothing does.
- `C81_number_refuted`: a number of one byte is read together with the byte after it.
- `C82_nodes6_refuted`: Finding (BEP 32: IPv6 nodes go into "nodes6"): no answer ever has "nodes6"; the IPv6 nodes are appended to "nodes".
- `C82_unknown_refuted`: Finding (BEP 5: error 204 for an unknown method): a request with any other method is answered like a ping.
- `C82_port_refuted`: the port 65536 (any multiple) is neither taken as missing nor as wrong: the peer is stored with the port 0.
- `C83_find_node_refuted`: a node with an IPv6 address in the table of [other]: the answer is read as if it were an IPv4 node and another one behind the end of the message.
- `C83_unproven_refuted`: who only asked counts as a node that responded, under the id it claims, and is handed on to others.
- `C84_lost_timer_refuted`: the timer looks for its request before it waits for the answers being handled. If it expires just then, it finds nothing, the request goes on waiting, and neither a timer nor a check is left for it.
- `C84_other_timer_refuted`: two requests over one client (a tracker asked again while connecting): the timer of the second looks up the first, which is sent again instead; the second has no timer left and waits on when the first is answered.
- `C84_ends_other_refuted`: the end of the first ends the second too, which was just sent.
- `C84_given_up_refuted`: giving up a client gives up its first request only: the callback of the second, bound to the tracker that was destroyed, is still called.
- `C85_dht_stop_refuted`: Stopping the DHT while peers are looked for: it holds the queries and waits for the callbacks of requests, while the callback of such a request waits for its query. Both wait forever, whatever the other threads do.
- `C85_bad_piece_refuted`: A bad piece whose sender is dropped, checked while the transfer of the same torrent is measured, which happens each second.
- `C85_stop_start_refuted`: Stopping a torrent waits for its threads, one of which is to start it: after its metadata came or its files were checked.
- `C85_metadata_end_refuted`: The end of the metadata while the torrent is stopped, with a peer that metadata came from.
- `C85_metadata_begin_refuted`: Asking for metadata with peers already there that do not offer it: the thread waits for itself.
- `C86_deaf_refuted`: After the DHT was switched off once no unexpected packet is handed on any more, to uTP or to the DHT.
- `C86_dropped_refuted`: Switching the DHT off drops the requests of everyone: none is answered unless asked again.
- `C86_off_refuted`: Switched off while a lookup ran and on again, the DHT never looks for peers of this torrent again; other torrents go on.
- `C86_stale_refuted`: A torrent stopped and started again while its lookup runs: the end of the old lookup is reported as the end of the new one, whose own end is reported to nobody.
- `C86_count_refuted`: Two answers with three and two new peers are reported as eight, and once fifty were found in all, an answer with no new peer counts fifty: Query.cpp:296 asks no further nodes then.
- `C87_announce_refuted`: the peer is stored under the id of the node that answered, not for the torrent: for every hash but this id the stored peers are the old ones, and whoever asks for the torrent is told what it would have been told before.
- `C88_unjudged_refuted`: Any other packet from the node ends the ping and says nothing about the node: wrong number, wrong id, an error, garbage.
- `C88_no_id_refuted`: the ping of an address whose node is not known believes an answer that names no id: a node of id 0 is put into the table.
- `C89_reschedule_refuted`: Setting a timer anew does not take back a wait that just ended: the function is called before the time set last.
- `C89_refresh_refuted`: ... and never again: the function of the timer returns no time. However long the client runs, one refresh follows the one of the start.
- `C89_token_forever_refuted`: Every token the client hands out is accepted from that address for ever, as long as the client runs.
- `C89_stored_forever_refuted`: Once the one refresh of the timer is over no announced peer is dropped any more, however old.
- `C90_full_last_refuted`: when the last piece is full, the check of whole files looks behind the end of the wanted pieces, in the worker whose turn it would be (Storage.cpp:432 after 430).
- `C90_stale_refuted`: what the buffer still holds, zeros at first, stands for a missing file: here the first file is not on the disk, and the piece counts as received since its bytes are zeros.
- `C90_empty_last_refuted`: the last piece is not looked at when an empty last file is not on the disk, as is the case if it is not selected: all its bytes are there and right.
- `C91_space_refuted`: a file which is half there is refused although the free space has room for the other half; the whole size is asked for again. The validation of the path says that there is enough.
- `C91_empty_last_refuted`: with an empty file behind a full last piece the pieces are read behind their end, whatever is selected.
- `C92_shortened_refuted`: a file which is longer than it should be is made shorter by the start; its own change begins a check at the next one.
- `C92_empty_refuted`: an empty file which is not selected is never made, and as long as it is missing its piece is dropped at every start, whatever is stored of it.
- `C93_race_refuted`: a write between the two halves of a finished connect is given to the socket twice, and when both writes end the queue is popped once too often.
- `C93_closed_while_resolving_refuted`: a stream which is closed while its host name is being resolved connects all the same when the answer comes, and then uses the timer which is gone.
- `C93_next_address_refuted`: of several addresses of a host only the first is tried.
- `C93_clock_refuted`: at seconds which are multiples of 2^29 a receive divides by zero; and only then.
- `C93_quota_lost_refuted`: what is left of the quota after a receive is lost, so a slow stream is granted any amount more than it reads.
- `C93_waiting_closed_refuted`: a connected stream which waits for bandwidth is closed when the time allowed for the connect is over.
- `C94_last_refuted`: the last country among the addresses with one first byte is never found.
- `C94_first_byte_refuted`: nothing is found for an address whose range begins under a smaller first byte.
- `C94_path_refuted`: [toFile] and [fromFile] do not mean the same file for any folder.
- `C94_country_EE_refuted`: an entry of the country 17733 ends its bucket when it is read back; with one in the first bucket and one in the last, the last is written out of the table.
- `C94_longer_file_refuted`: bytes after the last bucket of a file are written out of the table.
- `C94_number_refuted`: the number of a country in the file is not compared with the number of names.
- `C95_again_and_again_refuted`: when the second connection does not open, a third is begun, and so on without end; the owner is not told.
- `C95_plain_text_refuted`: under Require the peer may choose plain text in the handshake, and everything after it goes out unencrypted.
- `C96_full_reads_refuted`: a response whose length is a multiple of 512, read in full reads, is lost when the tracker then closes: the owner is told of a failure.
- `C96_parts_refuted`: when the first read brings only a part of the response, fewer than 512 bytes, no more is read, and the owner is never called.
- `C96_never_again_refuted`: once an operation of a connection fails, the socket is not closed, so that no later announce of the object has a result.
- `C96_short_write_refuted`: of a request that is written only in part the rest is not sent.
- `C96_stopped_connects_refuted`: a stop while the name is resolved does not keep the stream from connecting.
- `C96_port_refuted`: the port of the tracker is not used.
- `C97_first_bytes_refuted`: a first part of fewer than four bytes is taken for a bad response: the announce fails, and the connection stays open and is forgotten.
- `C97_never_again_refuted`: after an announce that is answered, and whose connection the tracker then closes as the request asks it to, no announce of the object is sent and none is told of.
- `C97_old_end_refuted`: after a bad response the connection stays open; when it ends, the next announce fails, although its own connection is open.
- `C97_old_answer_refuted`: what the old connection brings answers the next announce, before that is sent.
- `C97_stopped_told_refuted`: the owner is told of a failure after it stopped the tracker.
- `C98_long_block_refuted`: 
- `C98_multiple_refuted`: 
- `C98_empty_file_refuted`: 
- `C98_check_refuted`: 
- `C98_selected_refuted`: the figure for the selected files forgets the pieces under way when the torrent is stopped; the one for all files does not.
- `C99_twice_refuted`: 
- `C99_two_routers_refuted`: with two routers that do all they are asked, a port that is wanted is mapped and unmapped on the second at once. When it did both all is as before, but for the numbers of the streams, and both are asked again.
- `C99_retry_refuted`: a router that refuses is asked the same again, at once, as often as it refuses.
- `C100_throws_refuted`: a text whose first ':' or '/' is among its last two characters throws an exception that nothing catches. Exactly those do.
- `C100_no_port_refuted`: without a port the member is read although it was never written.
- `C100_path_port_refuted`: a number behind a ':' of the path is taken for the port.
- `C100_empty_refuted`: a description whose last element is an empty name is read behind its elements.
- `C100_stop_refuted`: stopping closes only the last stream. An answer on an older one calls the function that was taken away, which throws.
- `C101_split_refuted`: The claim "a peer is handed to the torrent it greets however its greeting is cut into segments" is false: when a first segment ends anywhere behind the name of the protocol and before the end, memory that was never set is compared with the hashes.
- `C101_fate_refuted`: The claim "a stream that is accepted waits, is given to a torrent or is closed" is false: a peer whose encryption handshake is done and whom the owner refuses is none of those; nothing this object does will ever close it unless it sends a plain greeting.
- `C101_stop_refuted`: The claim "when it is stopped no peer is accepted" is false: a change of the port opens a listener again, since the callback of the settings stays.
- `C102_sender_refuted`: The claim "a datagram is passed on with the address it came from" is false: of two that wait from different senders, the first is passed on as if the second sender had sent it. So it is for any two.
- `C102_cut_refuted`: The claim "a datagram is passed on whole" is false: what no longer fits into the buffer is cut off, although nothing was passed on yet and the read could have begun anew.
- `C103_lost_refuted`: Violated: written twice before the connect is over, the first datagram is never sent and the second one twice
- `C103_resolving_refuted`: Violated: while the name is looked up, only the last datagram is kept
- `C103_target_refuted`: Violated: the answer of anyone overwrites the address, and what is broadcast next is sent to that one alone
- `C103_again_refuted`: Violated: a write after the close opens the socket again and is sent
- `C103_stuck_refuted`: Violated: an empty datagram is never taken from the socket, so nothing behind it is ever read, however often the handler runs
- `C103_loops_refuted`: Violated: it then waits for answers once more each time, although the old wait is not over
- `C104_single_refuted`: Violated: a torrent of a single file is not moved to a directory that has no such file: the size of the missing file is taken for 2^64-1 bytes
- `C104_left_refuted`: Violated: when the new directory is not there, it is made and the path is changed, but every file stays where it was and none is at the new place; and as the files were to be moved they are not checked again
- `C105_race_refuted`: Violated: the workers share a plain counter. When two of them count at the same moment one is not counted: the check never ends, and as long as it is not stopped no other check begins, the torrent stays "checking" and does not go on
- `C105_stale_refuted`: Violated: a stopped check whose workers end after the next one began takes that one for ended: it still runs although the torrent is no longer "checking", it cannot be stopped, and another check begins beside it
- `C107_empty_refuted`: ... which is read past its end
- `C107_port_refuted`: a text is tried as an address with its port still in it. So a dotted quad followed by a colon and a port, any quad and any port, is never connected to ...
- `C107_shown_refuted`: ... nor is what the program itself shows as the address of a peer.
- `C107_bare_refuted`: a quad without a port is taken, with a port made of the digits of its first number after the first
- `C107_v6_refuted`: of an IPv6 address the last group is also taken as the port
- `C108_lost_refuted`: Violated: the stop saves the time of the newest file as that of the last state. So the next start begins no check, and whatever is stored of a piece that the stopped check had not come to, it counts as missing
- `C108_asked_refuted`: Violated: a check the user asked for forgets all pieces when it begins; once it is stopped the next start checks nothing, so of a torrent that was complete only what the check had found is left
- `C109_no_overflow_refuted`: Were the closes not run, though, it would overflow.
- `C109_resend_refuted`: So there is a stream with data that is not acknowledged, heard a moment ago, at which a timeout never sends that again.
- `C110_syn_once_refuted`: So the same SYN once more, as every peer sends it when the answer is late, makes a second stream with the same id at the same endpoint.
- `C111_printed_refuted`: With a 0 in a text what follows it is taken for the kinds of items: bytes after the end are read.
- `C111_value_refuted`: A size of 4 GB is logged as 0, the number -1 as 4294967295, and two IPv6 addresses of a network as the same.
- `C112_padding_refuted`: The tail of the padding of message 2 in a piece of its own: it is taken for the beginning of message 4, which moves the cipher on, and the initiator waits for ever although all was sent. In one piece the padding does no harm.
- `C113_gone_refuted`: A peer that sends its extended handshake twice is there twice, is taken off once when it closes, and is asked for parts for as long as the download lasts.
- `C113_stopped_refuted`: A peer whose extended handshake comes after the stop is logged as connected behind the end, and stays among those to ask.
- `C115_entries_refuted`: Nothing is ever taken off the list: it has as many entries as were added, so stopping and starting again makes it longer each time, and what is saved has entries without data.
