{"id": "C01", "title": "Bencode written is bencode read", "statement": "Any value (nested dictionaries, lists, integers, byte strings) serialised with the bencode writer is parsed back by the bencode parser into a document from which the same value can be read, with nothing left over, and while parsing it no byte outside the buffer is read.", "quantifier": "all bencode values of any depth and size, with any bytes in the strings, followed by any trailing bytes", "why_tests_cant": "nesting depth, string contents that look like syntax, and lengths are unbounded", "anchors": ["mtTorrent/utils/BencodeWriter.cpp: BencodeWriter::*", "mtTorrent/utils/BencodeParser.cpp: BencodeParser::parse, internalParse, parseList, parseDictionary, parseString, parseInt"]}
{"id": "C02", "title": "Bencode parser is safe on hostile input", "statement": "For every byte string the bencode parser terminates and never reads outside the buffer it was given.", "quantifier": "all byte strings of all lengths", "why_tests_cant": "a fuzzer samples the input space; the property is about every input", "anchors": ["mtTorrent/utils/BencodeParser.cpp: parse, internalParse, parseDictionary, parseString"]}
{"id": "C03", "title": "Peer wire messages survive the wire", "statement": "Every peer message this client can send (keep-alive, choke/unchoke, interested/not interested, have, bitfield, request, piece, cancel, port, extended, handshake) is decoded by its own message reader to the same message with the same fields, and the reader consumes exactly the bytes of that message.", "quantifier": "all field values and all payload bytes and lengths up to the framing limit, any bytes following", "why_tests_cant": "payload contents and lengths are unbounded and the reader has length arithmetic in 16 bits", "anchors": ["mtTorrent/Core/PeerCommunication.cpp: bt::create*", "mtTorrent/Core/PeerMessage.cpp: PeerMessage::PeerMessage"]}
{"id": "C04", "title": "Stream fragmentation does not change the message sequence", "statement": "However the transport splits the byte stream of a sequence of peer messages into received chunks, the client handles exactly that sequence of messages, in order, once each.", "quantifier": "all message sequences and all ways of cutting their concatenation into chunks", "why_tests_cant": "the number of fragmentations is exponential in the stream length", "anchors": ["mtTorrent/Core/PeerCommunication.cpp: dataReceived, handleMessage", "mtTorrent/utils/TcpAsyncStream.cpp: ReadBuffer"]}
{"id": "C05", "title": "Interest state follows the peer", "statement": "After any sequence of messages, the peer is recorded as interested exactly when its last interest message was 'interested', and as choking us exactly when its last choke message was 'choke'.", "quantifier": "all message histories", "why_tests_cant": "holds for every history, not for the few tried", "anchors": ["mtTorrent/Core/PeerCommunication.cpp: handleMessage, setInterested, setChoke"]}
{"id": "C06", "title": "Hex encoding round trip", "statement": "Encoding any bytes to hex and decoding them gives back the bytes, and decoding rejects any text with a character that is not a hex digit.", "quantifier": "all byte strings", "why_tests_cant": "unbounded input", "anchors": ["mtTorrent/utils/HexEncoding.cpp: hexToString, decodeHexa"]}
{"id": "C07", "title": "URL encoding round trip", "statement": "Percent-encoding any bytes and decoding them gives back the bytes, and the encoded form contains only letters, digits and percent signs.", "quantifier": "all byte strings", "why_tests_cant": "unbounded input", "anchors": ["mtTorrent/utils/UrlEncoding.cpp: UrlEncode, UrlDecode"]}
{"id": "C08", "title": "Base32 info hashes decode to the hash", "statement": "The 32-character base32 text (RFC 4648 alphabet) of a 20 byte hash decodes to that hash.", "quantifier": "all 20-byte hashes (and all inputs of whole 5-byte groups)", "why_tests_cant": "2^160 inputs", "anchors": ["mtTorrent/utils/Base32.cpp: base32decode"]}
{"id": "C09", "title": "Magnet links deliver hash, name and trackers", "statement": "A magnet link made of an info hash (hex or base32), a display name and any number of trackers, in any order, is parsed to exactly that hash, name and tracker list.", "quantifier": "all hashes, names and tracker lists with any bytes, all parameter orders", "why_tests_cant": "unbounded strings and list lengths", "anchors": ["mtTorrent/Core/Api/InterfaceImpl.cpp: parseMagnetLink, parseTorrentHash"]}
{"id": "C10", "title": "Compact peer addresses round trip and compare soundly", "statement": "An IPv4 or IPv6 address with port written to its compact form reads back as the same address; address equality is an equivalence relation and the ordering is a strict order.", "quantifier": "all addresses and ports, IPv4 and IPv6", "why_tests_cant": "2^48 and 2^144 addresses; pairs and triples of them", "anchors": ["mtTorrent/utils/Network.cpp: Addr::*"]}
{"id": "C11", "title": "RC4 stream cipher inverts and is chunk independent", "statement": "Two RC4 states created from the same key and discarded prefix decrypt each other's output, whatever the key and data, and splitting the data into chunks differently gives the same bytes.", "quantifier": "all keys, data and chunkings", "why_tests_cant": "unbounded data and key space", "anchors": ["mtTorrent/utils/RC4.cpp: init, encode, decode, skip"]}
{"id": "C12", "title": "Big number arithmetic is exact", "statement": "Multiplication, squaring, division with remainder, shifts, comparison and modular exponentiation of big numbers agree with integer arithmetic, for every number and every number of digits.", "quantifier": "all operands of all sizes", "why_tests_cant": "Knuth division has correction branches taken with probability about 2/2^64", "anchors": ["mtTorrent/utils/BigNumber.cpp: Mul_h, Square_h, dbi_div, Powm, Mulm"]}
{"id": "C13", "title": "Diffie-Hellman secrets agree", "statement": "Two parties that exchange public keys through the key exchange derive the same shared secret bytes.", "quantifier": "all private exponents", "why_tests_cant": "2^160 exponents each", "anchors": ["mtTorrent/utils/DiffieHellman.cpp"]}
{"id": "C14", "title": "An encrypted handshake reaches the right torrent", "statement": "When a peer opens an encrypted connection for a torrent this client has, the client connects it to that torrent and not to another one, and rejects it when the client does not have the torrent.", "quantifier": "all sets of torrents and all requested hashes", "why_tests_cant": "depends on all hash values", "anchors": ["mtTorrent/Core/ProtocolEncryption.cpp: ProtocolEncryptionListener::findByPe3Hash, readPe3HandshakeAndResponse"]}
{"id": "C15", "title": "Encrypted data is delivered as the peer sent it, however fragmented", "statement": "After encryption is established, the bytes handed to the message reader are exactly the plaintext bytes the remote encrypted, in order, for every fragmentation and every amount of data left unconsumed between deliveries.", "quantifier": "all data, all chunkings, all consumption patterns", "why_tests_cant": "exponentially many schedules", "anchors": ["mtTorrent/Core/PeerStream.cpp: dataReceived", "mtTorrent/Core/ProtocolEncryption.cpp: readPe4Handshake"]}
{"id": "C16", "title": "Torrent file layout covers every byte once", "statement": "For every list of file sizes and piece size, the piece ranges computed for the files are exactly the pieces their bytes occupy: each byte of the torrent belongs to exactly one file position, and consecutive files meet without gap or overlap.", "quantifier": "all file lists and piece sizes", "why_tests_cant": "boundary coincidences between file and piece sizes", "anchors": ["mtTorrent/utils/TorrentFileParser.cpp: parseTorrentInfo, getPieceIndex"]}
{"id": "C17", "title": "Blocks tile each piece", "statement": "The block requests generated for a piece cover every byte of the piece exactly once, and no block is empty or longer than 16 KiB.", "quantifier": "all piece sizes, total sizes and piece indices", "why_tests_cant": "boundary sizes", "anchors": ["mtTorrent/Core/Api/InterfaceImpl.cpp: makePieceBlocksInfo, getPieceBlockInfo, getPieceBlocksCount"]}
{"id": "C18", "title": "What is stored is what is loaded", "statement": "After the bytes of a piece are stored through the storage, loading any blocks of that piece returns those bytes, for every file layout and selection in which the files are present, and storing a piece changes no byte of any other piece.", "quantifier": "all layouts, pieces, block ranges and contents", "why_tests_cant": "unbounded layouts; pieces span many files", "anchors": ["mtTorrent/Core/Storage.cpp: storePieceBlocks, loadPieceBlocks, getFileBlockPosition"]}
{"id": "C19", "title": "Progress counters count the pieces", "statement": "After any sequence of progress operations the number of received pieces, of selected pieces and of selected received pieces equal the counts over the pieces themselves; finished and selection-finished are reported exactly then.", "quantifier": "all operation sequences and piece counts", "why_tests_cant": "histories are unbounded", "anchors": ["mtTorrent/Core/PiecesProgress.cpp"]}
{"id": "C20", "title": "Bitfields round trip", "statement": "The bitfield sent for a set of pieces is read by the receiving side as that same set, and spare bits are zero.", "quantifier": "all piece counts and sets", "why_tests_cant": "2^n sets", "anchors": ["mtTorrent/Core/PiecesProgress.cpp: toBitfieldData, fromBitfieldData", "mtTorrent/Core/Api/InterfaceImpl.cpp: Bitfield"]}
{"id": "C21", "title": "Received bytes are reported exactly", "statement": "The received (and selected received) byte count equals the sum of the sizes of the received (selected) pieces.", "quantifier": "all sizes and piece sets", "why_tests_cant": "boundary: total size a multiple of the piece size", "anchors": ["mtTorrent/Core/PiecesProgress.cpp: getReceivedBytes, getReceivedSelectedBytes"]}
{"id": "C22", "title": "File selection selects exactly the needed pieces", "statement": "After any sequence of file selections a piece is selected for download exactly when it contains bytes of some selected file.", "quantifier": "all layouts and selection sequences", "why_tests_cant": "shared boundary pieces between arbitrarily many files", "anchors": ["mtTorrent/Core/Files.cpp: select", "mtTorrent/Core/PiecesProgress.cpp: select"]}
{"id": "C23", "title": "A piece counts as downloaded only after its hash matched", "statement": "Whatever blocks peers send, in any order, a piece is reported as received only if its assembled data has the expected hash.", "quantifier": "all block arrival histories and contents", "why_tests_cant": "adversarial schedules", "anchors": ["mtTorrent/Core/Downloader.cpp: pieceBlockReceived, pieceChecked", "mtTorrent/Core/DownloadStorage.cpp: checkPieceFunc"]}
{"id": "C24", "title": "The write cache is transparent", "statement": "Reading blocks of a piece returns the bytes most recently stored for it, whether they are still cached or already flushed, for every interleaving of stores, reads and flushes.", "quantifier": "all operation sequences and interleavings of flush with stores", "why_tests_cant": "interleavings", "anchors": ["mtTorrent/Core/DownloadStorage.cpp: WriteCache"]}
{"id": "C25", "title": "Uploads never exceed the granted bandwidth", "statement": "The bytes the uploader sends never exceed the bytes it was granted; each request is answered at most once and in order, and requests of a closed peer are not answered.", "quantifier": "all interleavings of requests, grants, closures", "why_tests_cant": "schedules", "anchors": ["mtTorrent/Core/Uploader.cpp"]}
{"id": "C26", "title": "Bandwidth limits are enforced", "statement": "Over any sequence of ticks and requests the bandwidth handed out never exceeds the limit times the elapsed time plus the burst allowance, no request gets more than it asked for, and no request is starved forever.", "quantifier": "all tick lengths and request histories", "why_tests_cant": "histories", "anchors": ["mtTorrent/utils/Bandwidth.cpp"]}
{"id": "C27", "title": "Metadata is complete exactly when every part arrived", "statement": "Metadata download reports completion exactly when every 16 KiB part was received, asks only for missing parts, and the assembled buffer is the concatenation of the parts, in any arrival order with duplicates.", "quantifier": "all sizes and arrival orders", "why_tests_cant": "orders are factorial", "anchors": ["mtTorrent/Core/MetadataReconstruction.cpp", "mtTorrent/Core/MetadataExtension.cpp", "mtTorrent/Core/FileTransfer.cpp: extendedMessageReceived"]}
{"id": "C28", "title": "Torrent state survives a restart", "statement": "A torrent's saved state (name, sizes, paths, statistics, received pieces, unfinished pieces, selection with priorities, started flag) loads back equal to what was saved.", "quantifier": "all states", "why_tests_cant": "unbounded values and lists", "anchors": ["mtTorrent/Core/State.cpp: TorrentState::save, load; TorrentsList"]}
{"id": "C29", "title": "Configuration survives a restart", "statement": "Settings saved to the configuration file load back equal to what was saved, and a changed setting is applied and saved.", "quantifier": "all settings values", "why_tests_cant": "all combinations of values", "anchors": ["mtTorrent/Core/Configuration.cpp", "mtTorrent/utils/Xml.cpp"]}
{"id": "C30", "title": "Node distance is the XOR metric", "statement": "The comparison of node ids by distance to a target is the comparison of the 160-bit XOR values; bucket number is the position of the top differing bit.", "quantifier": "all 160-bit ids", "why_tests_cant": "2^320 pairs", "anchors": ["mtTorrent/Core/Dht/Node.cpp"]}
{"id": "C31", "title": "The routing table stays well formed", "statement": "After any sequence of responses and failures every bucket has at most 8 live and 8 cached nodes, no node twice, every node in the bucket of its distance, and responding nodes are never displaced while they respond.", "quantifier": "all event histories", "why_tests_cant": "histories", "anchors": ["mtTorrent/Core/Dht/Table.cpp: nodeResponded, nodeNotResponded"]}
{"id": "C32", "title": "Closest-node queries return close nodes", "statement": "A closest-nodes query returns at most 8 IPv4 and 8 IPv6 nodes, all from the table, in order of bucket distance to the target; no closer bucket's active node is left out while a farther one is returned.", "quantifier": "all tables and targets", "why_tests_cant": "all table contents", "anchors": ["mtTorrent/Core/Dht/Table.cpp: getClosestNodes"]}
{"id": "C33", "title": "The routing table survives a restart", "statement": "A saved routing table loads back with the same nodes.", "quantifier": "all tables", "why_tests_cant": "arbitrary bytes in ids and addresses", "anchors": ["mtTorrent/Core/Dht/Table.cpp: save, load"]}
{"id": "C34", "title": "Announce tokens authenticate the announcing address", "statement": "A token handed to an address is accepted from that address until two secret rotations later, and a token handed to one address is not accepted from another.", "quantifier": "all addresses, secrets and rotation schedules", "why_tests_cant": "all address pairs", "anchors": ["mtTorrent/Core/Dht/Responder.cpp: announceTokenHash, isValidToken, refresh"]}
{"id": "C35", "title": "Announced peers are stored boundedly and expire", "statement": "Announced peers are returned for their torrent until they expire, at most the configured number is stored and returned, and duplicates are not stored.", "quantifier": "all announce histories", "why_tests_cant": "histories", "anchors": ["mtTorrent/Core/Dht/Responder.cpp: announcedPeer, refreshStoredValues, writeValues"]}
{"id": "C36", "title": "A DHT lookup asks each node at most once and ends", "statement": "Whatever nodes remote peers return, a lookup queries every learned node at most once, keeps at most 32 candidates, has a bounded number of outstanding requests and reports its end exactly when none is outstanding.", "quantifier": "all response histories", "why_tests_cant": "adversarial responses", "anchors": ["mtTorrent/Core/Dht/Query.cpp: mergeClosestNodes, GetPeers::onResponse"]}
{"id": "C37", "title": "uTP delivers the stream in order, exactly once", "statement": "Whatever the network reorders, duplicates or drops, the bytes a uTP stream delivers are a prefix of what the sender wrote, and data that arrived contiguously is delivered.", "quantifier": "all arrival histories, any initial sequence number including wrap-around", "why_tests_cant": "schedules and 16 bit wrap", "anchors": ["mtTorrent/Core/Utp/UtpStream.cpp: handleDataMessage, flushReceivedData, storeReceivedData"]}
{"id": "C38", "title": "uTP sends every written byte, in order, until acknowledged", "statement": "The packets a uTP stream has sent plus what it holds back are exactly the written bytes in order with consecutive sequence numbers; a packet is forgotten only when acknowledged, and the unacknowledged byte count is the size of what is kept.", "quantifier": "all write and acknowledgement histories", "why_tests_cant": "histories and wrap-around", "anchors": ["mtTorrent/Core/Utp/UtpStream.cpp: write, sendData, flushSendData, ackSentDataBuffer"]}
{"id": "C39", "title": "uTP packet headers are parsed within the packet", "statement": "For every received datagram accepted as uTP, the header and every extension that will be read lie inside the datagram.", "quantifier": "all datagrams", "why_tests_cant": "attacker-chosen bytes", "anchors": ["mtTorrent/Core/Utp/UtpStream.cpp: parseHeaderSize, updateState", "mtTorrent/Core/Utp/UtpManager.cpp: onUdpPacket"]}
{"id": "C40", "title": "Selective acknowledgements name exactly the packets held", "statement": "The selective ack bitmask a stream sends marks exactly the sequence numbers it has stored out of order, and the sender receiving it drops exactly those packets.", "quantifier": "all sets of stored packets", "why_tests_cant": "2^n sets", "anchors": ["mtTorrent/Core/Utp/UtpStream.cpp: getSelectiveAckDataSize, prepareSelectiveAckData, ackSentDataBuffer"]}
{"id": "C41", "title": "UDP tracker exchange is faithful", "statement": "Connect and announce requests carry the values of the torrent at the protocol's offsets; only replies to the last request are accepted; the peers of a reply are exactly those encoded in it.", "quantifier": "all values, all replies", "why_tests_cant": "all field values and reply sizes", "anchors": ["mtTorrent/Core/UdpTrackerComm.cpp"]}
{"id": "C42", "title": "Trackers are kept without duplicates and retried with back-off", "statement": "Adding trackers never yields two entries for one host and port; after each failure the next retry is later than the one before until an announce succeeds.", "quantifier": "all add sequences and failure histories", "why_tests_cant": "histories", "anchors": ["mtTorrent/Core/TrackerManager.cpp"]}
{"id": "C43", "title": "The peer table stays consistent", "statement": "After any sequence of discoveries, connects, disconnects and incoming connections, every live connection belongs to exactly one known peer and every known peer marked connecting or connected has exactly one live connection; automatic connecting never exceeds the connection limit nor contacts a peer marked unwanted.", "quantifier": "all event histories", "why_tests_cant": "histories with index shifting", "anchors": ["mtTorrent/Core/Peers.cpp"]}
{"id": "C44", "title": "Peer exchange reports the changes", "statement": "The peer exchange messages of a session list exactly the peers that appeared or disappeared since the previous message, at most 50 at a time, and are read back as sent.", "quantifier": "all histories of connected peers", "why_tests_cant": "histories", "anchors": ["mtTorrent/Core/PexExtension.cpp"]}
{"id": "C45", "title": "HTTP tracker responses are read to their end", "statement": "Reading an HTTP response terminates for every input, and a response with a content length or chunked body yields exactly its body.", "quantifier": "all byte strings", "why_tests_cant": "arbitrary input", "anchors": ["mtTorrent/utils/HttpHeader.cpp"]}
{"id": "C46", "title": "Each torrent is registered once", "statement": "After any sequence of adding and removing torrents no two registered torrents have the same hash, adding an existing one merges its trackers instead, and the saved list names exactly the registered torrents.", "quantifier": "all add/remove sequences", "why_tests_cant": "histories", "anchors": ["mtTorrent/Core/Core.cpp"]}
{"id": "C47", "title": "Starting and stopping is remembered", "statement": "A torrent running at shutdown is started again after restart and one the user stopped is not.", "quantifier": "all sequences of start, stop, shutdown, restart", "why_tests_cant": "histories", "anchors": ["mtTorrent/Core/Torrent.cpp"]}
{"id": "C48", "title": "SHA-1 is SHA-1", "statement": "The hash computed for any data is the SHA-1 digest of FIPS 180-4.", "quantifier": "all byte strings shorter than 2^61 bytes", "why_tests_cant": "unbounded input", "anchors": ["mtTorrent/utils/SHA.cpp"]}
{"id": "C49", "title": "Binary packet fields round trip", "statement": "Integers of 8, 16, 32 and 64 bits and raw bytes appended to a packet are read back in order with the same values.", "quantifier": "all field sequences and values", "why_tests_cant": "all sequences", "anchors": ["mtTorrent/utils/PacketHelper.h"]}
{"id": "C50", "title": "Holepunch messages round trip", "statement": "Rendezvous, connect and error holepunch messages are read back as sent.", "quantifier": "all addresses and codes", "why_tests_cant": "address space", "anchors": ["mtTorrent/Core/HolepunchExtension.cpp"]}
{"id": "C51", "title": "Requests to a peer stay within limits and are never duplicated", "statement": "The downloader never has more outstanding requests to a peer than its limit, never requests a block outside the piece or of a piece the peer does not have, and never requests the same block twice from one peer.", "quantifier": "all histories of blocks, chokes and disconnects", "why_tests_cant": "schedules", "anchors": ["mtTorrent/Core/Downloader.cpp"]}
{"id": "C52", "title": "Announced pieces are handled safely", "statement": "Any 'have' and any bitfield message a peer sends, with any index and any length, is handled without reading or writing outside the piece table.", "quantifier": "all indices and bitfields, in all states of the piece table", "why_tests_cant": "4 billion indices times all table sizes; only the extreme ones break", "anchors": ["mtTorrent/Core/PeerCommunication.cpp: handleMessage (369, 375)", "mtTorrent/Core/PiecesProgress.cpp: addPiece, fromBitfieldData"]}
{"id": "C53", "title": "Allocating a file keeps the bytes it has", "statement": "When the files of a torrent are allocated, a file is given the size it needs, the bytes it already holds keep their places, and new bytes are zero; a file which so far held only the ends of the pieces it shares with its neighbours has these at the right places afterwards.", "quantifier": "all piece sizes, files, existing contents and requested sizes", "why_tests_cant": "File sizes, positions and previous contents are unbounded; the error needs a file that was first shared and then selected.", "anchors": ["mtTorrent/Core/Storage.cpp:502-565"]}
{"id": "C54", "title": "Pending uploads are not forgotten", "statement": "Whenever the uploader has a pending request, a sendRequests job is posted or an answer of the bandwidth manager is outstanding, so the request will be looked at again.", "quantifier": "all interleavings of requests, grants, runs, closures and stops", "why_tests_cant": "the lost wake-up needs a grant on the spot at one precise moment", "anchors": ["mtTorrent/Core/Uploader.cpp"]}
{"id": "C55", "title": "Uploaded data was read for that request", "statement": "The data of an uploaded block is what the storage read for exactly that block, never bytes left in the buffer from another request.", "quantifier": "all request sequences and storage results", "why_tests_cant": "needs a failing read after a successful one", "anchors": ["mtTorrent/Core/Uploader.cpp"]}
{"id": "C56", "title": "Modular arithmetic with multi-digit moduli is exact", "statement": "For every modulus of at least two 64-bit digits, division with remainder and modular exponentiation return exactly the integer quotient, remainder and power, without undefined behaviour, whatever the operands.", "quantifier": "all operands and all moduli >= 2^64 of all sizes", "why_tests_cant": "the correction and add-back branches of Knuth's algorithm D are taken with probability about 2/2^64", "anchors": ["mtTorrent/utils/BigNumber.cpp: dbi_div, Mulm, Powm"]}
{"id": "C57", "title": "The encrypted handshake completes however it is fragmented", "statement": "Handshake messages 3 and 4 of a correct peer complete the handshake whatever pieces they arrive in.", "quantifier": "all secrets, paddings and cuts into pieces", "why_tests_cant": "exponentially many ways to cut", "anchors": ["mtTorrent/Core/ProtocolEncryption.cpp: readPe3Handshake, readPe4Handshake"]}
{"id": "C58", "title": "The negotiated kind of stream is the one used", "statement": "When the two sides agree to continue unencrypted, the data after the handshake is passed on unchanged.", "quantifier": "all handshakes ending in plain text and all data", "why_tests_cant": "needs the handshakes of both roles", "anchors": ["mtTorrent/Core/IncomingPeersListener.cpp: startPeer", "mtTorrent/Core/PeerStream.cpp: dataReceivedPeHandshake"]}
{"id": "C59", "title": "Encrypted connections are only accepted for torrents this client has", "statement": "Whatever bytes arrive, an encrypted connection is accepted only for a registered torrent, for a message carrying this connection's marker and a verification constant that decrypts under that torrent's key; without torrents none is accepted.", "quantifier": "all secrets, all sets of torrents, all byte sequences and cuts", "why_tests_cant": "depends on all hash values and arrivals", "anchors": ["mtTorrent/Core/ProtocolEncryption.cpp: readPe3Handshake, findByPe3Hash"]}
{"id": "C60", "title": "The check of a piece hashes the bytes stored last", "statement": "Whatever was stored, written or flushed before, and in whatever interleaving, the check of a piece takes the SHA-1 of exactly the bytes most recently stored for that piece - from the cache, and from the files for what is no longer cached - and reports success exactly when this digest equals the one in the torrent file.", "quantifier": "every standard torrent layout, every calm sequence of stores, writes, clears and flushes, every piece", "why_tests_cant": "The mix of cached and written blocks at the moment of the check depends on timing of the writer thread; tests see one schedule.", "anchors": ["mtTorrent/Core/DownloadStorage.cpp:checkPieceFunc", "mtTorrent/Core/DownloadStorage.cpp:readBlocks", "mtTorrent/Core/Storage.cpp:loadPieceBlocks"]}
{"id": "C61", "title": "An unchoked peer which could give more is asked for more", "statement": "After a block, Unchoke, Have or Bitfield of a peer, that peer either has as many outstanding requests as its speed allows, or all missing blocks of its pieces are asked from it and every other selected missing piece it has is being downloaded from peers it is suspected with.", "quantifier": "all histories of messages, checks, selections and disconnects; all peers", "why_tests_cant": "The pieces left over at the end of a download, and which peers are busy with them, depend on the schedule.", "anchors": ["mtTorrent/Core/Downloader.cpp: evaluateNextRequests, getBestNextRequest, sendPieceRequests"]}
{"id": "C62", "title": "Data is stored only for pieces asked from the peer that sent it", "statement": "A block is given to the storage only if a block of its piece was requested from the same peer before.", "quantifier": "all histories of messages, all blocks", "why_tests_cant": "Needs unsolicited blocks at every point of a session.", "anchors": ["mtTorrent/Core/Downloader.cpp: pieceBlockReceived, addPeerBlockResponse"]}
{"id": "C63", "title": "At most 100 requests are outstanding per peer", "statement": "The number of outstanding requests of a peer is never above 100, and it grows only up to the limit its measured speed allows.", "quantifier": "all histories of messages, checks, selections and disconnects; all peers", "why_tests_cant": "Counters drift only in rare interleavings of answers, chokes and disconnects.", "anchors": ["mtTorrent/Core/Downloader.cpp: evaluateNextRequests, unchokePeer, addPeerBlockResponse"]}
{"id": "C64", "title": "Every request is for a block of a piece the peer said it has", "statement": "Every request sent names a block of the block division of an existing piece, goes to a peer which was seen to have that piece, and is sent while the peer is not choking.", "quantifier": "all histories of messages, checks, selections and disconnects", "why_tests_cant": "Each request depends on the whole past of the session.", "anchors": ["mtTorrent/Core/Downloader.cpp: sendPieceRequests, getBestNextRequest, evaluateNextRequests"]}
{"id": "C65", "title": "Have is announced only for pieces whose check succeeded", "statement": "A piece is announced to peers only after a check of it ended well, and a check begins only when every block of the piece was stored.", "quantifier": "all histories of blocks, checks and selections", "why_tests_cant": "Announcements are delayed and mixed with failed checks.", "anchors": ["mtTorrent/Core/Downloader.cpp: pieceBlockReceived, pieceChecked, popFreshPieces", "mtTorrent/Core/FileTransfer.cpp: evalCurrentPeers"]}
{"id": "C66", "title": "Any block message is handled safely", "statement": "Whatever index, begin and length a peer writes into a block message, handling it reads and writes inside of the bookkeeping and counts the right block.", "quantifier": "all block messages, all piece sizes", "why_tests_cant": "Hostile values of begin, very large pieces.", "anchors": ["mtTorrent/Core/Downloader.cpp: addPeerBlockResponse, sendPieceRequests", "mtTorrent/Api/Interface.cpp: PieceState::addBlock"]}
{"id": "C67", "title": "Metadata is served to peers part by part", "statement": "A peer asking for an existing part of the metadata is sent exactly the bytes of that part with its number and the full size, a peer asking for a part behind the end is sent nothing, and the messages are read back as sent.", "quantifier": "all metadata, all part numbers", "why_tests_cant": "2^32 part numbers, all sizes", "anchors": ["mtTorrent/Core/FileTransfer.cpp: extendedMessageReceived", "mtTorrent/Core/MetadataExtension.cpp"]}
{"id": "C68", "title": "Only metadata with the right hash is used", "statement": "Metadata downloaded from peers becomes the torrent's metadata only if its SHA-1 is the info hash the torrent was added with.", "quantifier": "all hashes, all peers and message histories", "why_tests_cant": "needs a hostile peer", "anchors": ["mtTorrent/Core/Torrent.cpp: downloadMetadata", "mtTorrent/Core/MetadataDownload.cpp"]}
{"id": "C69", "title": "Announce replies of HTTP trackers are understood exactly", "statement": "Reading a 200 OK reply with a content length and a bencoded dictionary yields exactly the interval, the numbers of seeds and leeches and the compact peer list encoded in it, uses exactly the bytes up to the end of the body, and a reply which has not arrived completely is waited for.", "quantifier": "all status lines, header fields, dictionaries and following bytes; every content length below 2^32", "why_tests_cant": "lengths near 2^32 wrap in the sum with the header length; arbitrary fields and dictionaries", "anchors": ["mtTorrent/Core/HttpTrackerComm.cpp:84-193", "mtTorrent/utils/HttpHeader.cpp"]}
{"id": "C70", "title": "Tracker addresses are split into protocol, host, port and path", "statement": "For every protocol, host, port and path that contain none of the separators the text protocol://host:port/path (each part but the host optional) is split into exactly these parts, and the parts read from any text, joined by the separators, are that text again.", "quantifier": "all texts", "why_tests_cant": "unbounded texts", "anchors": ["mtTorrent/utils/Uri.cpp", "mtTorrent/utils/Uri.h"]}
{"id": "C71", "title": "Hole punching requests are relayed", "statement": "A rendezvous request for a connected peer that supports hole punching makes both peers receive a connect message with the address of the other, one for an address not connected is answered with an error, and a connect message opens a connection when there is room.", "quantifier": "all connection tables, senders and messages", "why_tests_cant": "Needs two other peers behind NATs and a handshake without the extension; tests with one connection do not relay", "anchors": ["mtTorrent/Core/Peers.cpp:695", "mtTorrent/Core/ExtensionProtocol.cpp:5"]}
{"id": "C72", "title": "The saved list of torrents loads back", "statement": "The list of torrents written at shutdown loads back as exactly the same names in the same order.", "quantifier": "all lists of names (fewer than 21845 torrents, text below 2 GiB)", "why_tests_cant": "Names come from users and contain any byte; tests use a few readable names and never the length or order limits.", "anchors": ["mtTorrent/Core/State.cpp:151-202"]}
{"id": "C73", "title": "Reading any XML text stays inside the document", "statement": "For any text read as XML (the configuration file or a router's answer) every text given out is a part of the document, links lead forward to elements of it, and looking for a child by name ends and stays inside; the value of an element is its text.", "quantifier": "all texts and all elements", "why_tests_cant": "UPnP answers come from the local network and may be anything; tests use the documents of a few routers.", "anchors": ["mtTorrent/utils/Xml.cpp:15-164", "mtTorrent/utils/Xml.cpp:166-237"]}
{"id": "C74", "title": "The info hash is that of the info dictionary", "statement": "For every bencoded torrent file the info hash and the kept metadata are SHA-1 and bytes of exactly the bencoded value of its info key, whatever stands before, behind, or after the piece hashes inside it.", "quantifier": "for all dictionaries with an info dictionary, of any size the parser's types allow", "why_tests_cant": "the end of the dictionary is found by overwriting a byte and parsing the rest; samples cover only the key orders in them", "anchors": ["mtTorrent/utils/TorrentFileParser.cpp:79-138"]}
{"id": "C75", "title": "A torrent file is read as written", "statement": "The trackers, name, piece hashes, privacy and every file's name, path and size read from a bencoded torrent file are those in it.", "quantifier": "for all torrent files with any number of trackers and files", "why_tests_cant": "tests use a few example torrents", "anchors": ["mtTorrent/utils/TorrentFileParser.cpp:11-77", "mtTorrent/utils/TorrentFileParser.cpp:159-242"]}
{"id": "C76", "title": "Files are stored below the download directory", "statement": "Every file of a torrent is stored below the download directory at the path the torrent gives it, and different files at different places.", "quantifier": "for all download directories, names and paths", "why_tests_cant": "hostile names are unbounded in number", "anchors": ["mtTorrent/Core/Storage.cpp:31-38", "mtTorrent/Core/Storage.cpp:577-599"]}
{"id": "C77", "title": "Deleting removes only the torrent's files", "statement": "Deleting a torrent's files removes only its own files and its own directory.", "quantifier": "for all download directories, names and files", "why_tests_cant": "which directory is removed depends on the name in the torrent, which anybody may choose", "anchors": ["mtTorrent/Core/Storage.cpp:225-239", "mtTorrent/Core/Storage.cpp:567-575"]}
{"id": "C78", "title": "A saved torrent file reads back", "statement": "Saving a torrent writes a bencoded dictionary holding its trackers, creator, creation date and the very info bytes it was loaded with, and reading that file gives the same torrent; adding trackers keeps the known ones and the info bytes, adds each new accepted one once and writes a file exactly if one was added; a torrent whose info bytes were not kept is saved with the files, sizes and names it has.", "quantifier": "every torrent description, list of trackers and info dictionary", "why_tests_cant": "A test saves and reloads a few torrents; the claim is over every info dictionary and tracker list, including those where the written file is not what was loaded.", "anchors": ["mtTorrent/Core/Api/InterfaceImpl.cpp:129-206", "mtTorrent/Core/Peers.cpp:312-343", "mtTorrent/utils/BencodeWriter.cpp:1-137"]}
{"id": "C79", "title": "Peers which send bad data are disconnected", "statement": "A peer which keeps sending data that fails the check of its piece is disconnected for good, and one whose data was good is not: the only source of a failed piece at once, one of several at its third failed piece since its last good one; a good piece clears its sources, and the sources of a failed piece are not used together for one piece again.", "quantifier": "every sequence of piece checks with any sets of sources, and of peers joining and leaving", "why_tests_cant": "Whether a peer is dropped depends on the whole history of checks and on who shared which piece; tests see a few histories.", "anchors": ["mtTorrent/Core/Downloader.cpp:226-262", "mtTorrent/Core/Downloader.cpp:191-224", "mtTorrent/Core/Downloader.h:40-81"]}
{"id": "C80", "title": "Requests to the DHT are well formed", "statement": "Every request sent to the DHT (ping, find_node, get_peers, announce_peer) is a bencoded dictionary with the method, the own id, its arguments and the two bytes of its number, as BEP 5 has it: keys sorted, and an announce names the port on which peers are accepted.", "quantifier": "every own id, target, token, pair of ports and number", "why_tests_cant": "Tests send a few requests; the port announced differs from the one listened on only when the two ports differ, and keys out of order are refused only by strict clients.", "anchors": ["mtTorrent/Core/Dht/Query.cpp:320-338", "mtTorrent/Core/Dht/Query.cpp:355-376", "mtTorrent/Core/Dht/Query.cpp:575-585", "mtTorrent/Core/Dht/Query.cpp:686-714"]}
{"id": "C81", "title": "Answers of the DHT are read as sent", "statement": "The answer of another node is read as the number, the id, the token, the peers and each node once that the message holds, and no message makes the client read memory that is not part of the message.", "quantifier": "every message and every kind of request it may answer", "why_tests_cant": "The bytes come from strangers; a test sends well formed answers, the claim is over all bytes.", "anchors": ["mtTorrent/Core/Dht/Query.cpp:138-225", "mtTorrent/Core/Dht/Query.h:10-46", "mtTorrent/utils/BencodeParser.cpp:240-254"]}
{"id": "C82", "title": "Requests from the DHT are answered with what is known", "statement": "A request with a method, a number, arguments and an id of 20 bytes is answered with the same number and the own id: find_node with the closest known nodes, get_peers with them, a token and the stored peers, announce_peer by storing the peer if its token is valid; nothing else is answered or changes the stored peers.", "quantifier": "every request, table, set of stored peers and sender", "why_tests_cant": "Answers depend on the table, the stored peers, the secrets and the wishes in the request together; tests see a few.", "anchors": ["mtTorrent/Core/Dht/Responder.cpp:14-93", "mtTorrent/Core/Dht/Responder.cpp:95-185", "mtTorrent/Core/Dht/Responder.h:15-47"]}
{"id": "C83", "title": "Two clients understand each other", "statement": "If one client asks another, the asker reads exactly what the other knows: its id, the nodes of the answer, the stored peers and a token which the other accepts from the same address with an announce; a peer so announced is then given to those who ask.", "quantifier": "every pair of clients, table, set of stored peers and request", "why_tests_cant": "Writing and reading are in different files and tested apart, if at all; an agreement over all contents needs a proof.", "anchors": ["mtTorrent/Core/Dht/Query.cpp:138-225", "mtTorrent/Core/Dht/Query.cpp:320-376", "mtTorrent/Core/Dht/Responder.cpp:14-185"]}
{"id": "C84", "title": "A UDP request is answered, repeated once or ended, exactly once", "statement": "A request over UDP is sent once and once more if nothing comes; its callback takes one answer or is told once that none came, and nothing is called for it afterwards; none is lost: it is still waiting with a timer running, or it ended, or it was given up.", "quantifier": "every order of requests, answers, timers, closings and removals, and every behaviour of the callbacks", "why_tests_cant": "Timers, answers and removals run on several threads; a test sees one order of them.", "anchors": ["mtTorrent/utils/UdpAsyncComm.cpp:43-160", "mtTorrent/utils/UdpAsyncComm.cpp:162-267", "mtTorrent/utils/UdpAsyncComm.cpp:269-353"]}
{"id": "C85", "title": "Threads never wait for each other forever", "statement": "Whatever the client's threads do, and in whatever order they are run, no group of them ends up waiting for mutexes or threads that only the group itself could release; every operation that was begun can end.", "quantifier": "every number of threads, every sequence of operations on each and every order of their steps", "why_tests_cant": "A deadlock needs one particular interleaving out of unboundedly many; tests see a few of them.", "anchors": ["mtTorrent/utils/UdpAsyncComm.cpp:61-353", "mtTorrent/Core/Dht/Communication.cpp:62-188", "mtTorrent/Core/Dht/Query.cpp:92-318", "mtTorrent/Core/Peers.cpp:57-153", "mtTorrent/Core/Peers.cpp:646-668", "mtTorrent/Core/Downloader.cpp:191-262", "mtTorrent/Core/FileTransfer.cpp:245-290", "mtTorrent/Core/Torrent.cpp:207-351", "mtTorrent/Core/MetadataDownload.cpp:14-177", "mtTorrent/utils/ServiceThreadpool.cpp:47-61"]}
{"id": "C86", "title": "Lookups of peers in the DHT begin, end and report for the torrent that asked", "statement": "Peers found by a lookup go to the torrent for which it was begun; a torrent that waits for a lookup has one under way whose end it is told; between two lookups of its timer the interval passes; what is reported as found is what was found; switching the DHT off and on again leaves lookups, other users of the UDP socket and the receiver of unexpected packets as they were.", "quantifier": "every history of starts, stops, timers, answers, ends, switching the DHT and packets, for any number of torrents", "why_tests_cant": "Which lookup, torrent and list entry meet depends on the order of events of several torrents and of the settings; tests drive one torrent.", "anchors": ["mtTorrent/Core/Dht/Communication.cpp:46-188", "mtTorrent/Core/Peers.cpp:544-604", "mtTorrent/Core/Dht/Query.cpp:92-130", "mtTorrent/Core/Dht/Query.cpp:230-318", "mtTorrent/utils/UdpAsyncComm.cpp:61-72"]}
{"id": "C87", "title": "After asking a node for peers the client announces itself for the torrent", "statement": "A node that answered a request for the peers of a torrent, with its id and number, is sent an announce with the token it gave; it accepts it and from then on names the client to whoever asks for this torrent.", "quantifier": "every pair of clients, torrent hash, routing table, set of stored peers, ports and random numbers", "why_tests_cant": "It takes two clients and a third to see that the stored peer is never found; each message for itself looks right.", "anchors": ["mtTorrent/Core/Dht/Query.cpp:230-268", "mtTorrent/Core/Dht/Communication.cpp:262-265", "mtTorrent/Core/Dht/Query.cpp:686-714", "mtTorrent/Core/Dht/Responder.cpp:14-211"]}
{"id": "C88", "title": "Nodes of the DHT table are pinged once each and judged by their answers", "statement": "Of a list of nodes each is pinged exactly once, at most five at a time, until all had their turn; one that answers with the right number and id counts as having responded, any other as having failed; the ping of an unknown address adds the node by the id it names.", "quantifier": "every list of nodes, table, and every order of answers and timeouts", "why_tests_cant": "The orders of answers of many nodes are unboundedly many and wrong answers come from others.", "anchors": ["mtTorrent/Core/Dht/Query.cpp:538-685", "mtTorrent/Core/Dht/Query.h:115-146"]}
{"id": "C89", "title": "Timers run as set, and the DHT forgets old tokens and peers", "statement": "A function of a timer is called only after the time set last, again after each time it returns, and never after the timer is disabled; the DHT refreshes its table, its tokens and its stored peers again and again, so a token is accepted only for a while and a peer that does not announce itself any more is dropped after half an hour.", "quantifier": "every history of settings, expirations, handlers, announces and clock values, of any length", "why_tests_cant": "Whether something is never forgotten shows only in runs of unbounded length.", "anchors": ["mtTorrent/utils/ScheduledTimer.cpp:3-57", "mtTorrent/Core/Dht/Communication.cpp:46-81", "mtTorrent/Core/Dht/Communication.cpp:226-239", "mtTorrent/Core/Dht/Responder.cpp:213-279"]}
{"id": "C90", "title": "Checking the stored files finds exactly the pieces which are there", "statement": "The check of the files on the disk adds a piece to the progress exactly if it is asked for and the bytes the files hold of it have the piece's hash; the workers together cover every piece.", "quantifier": "every torrent, content of the disk, selection of pieces to check, number of workers and hash function", "why_tests_cant": "The layouts of files over pieces with missing, temporary and empty files are unboundedly many, and the buffer carries bytes from one file to the next.", "anchors": ["mtTorrent/Core/Storage.cpp:383-500", "mtTorrent/Core/Files.cpp:337-396"]}
{"id": "C91", "title": "Room is made for the data of wanted pieces", "statement": "For a selection of files, the files for which room is made are exactly the selected ones with their whole size and those other files which have bytes in a piece that a selected file reaches, with the number of those bytes. The same list comes out for one file as for the selection of only that file. The request succeeds exactly if the missing bytes fit the free space and each file which must grow fits it as a whole; afterwards every file asked for has its size, keeps the bytes it had, and all other files are unchanged.", "quantifier": "all torrents the parser makes, all selections, all numbers of files and pieces, all contents of the disk and all amounts of free space", "why_tests_cant": "A test picks a few layouts; the number of shared bytes depends on how each file lies across piece borders, and the outcome on every combination of present and missing files.", "anchors": ["mtTorrent/Core/Interface.cpp:4-101", "mtTorrent/Core/Storage.cpp:178-223", "mtTorrent/Core/Storage.cpp:502-565", "mtTorrent/Core/Storage.cpp:615-655"]}
{"id": "C92", "title": "A start keeps what is there, drops what is missing and checks what changed", "statement": "Starting a torrent drops from the progress exactly the pieces which a missing file reaches. If a file is newer than the last known time, exactly the pieces which newer files reach are checked; after the four workers are done, in any order of their additions, such a piece is in the progress exactly if its stored bytes have its hash, and all other pieces are as before. Files written by the start itself are no reason for a check at the next start.", "quantifier": "all torrents the parser makes, all progresses, file times, disks, selections, hash functions and orders of the workers' additions", "why_tests_cant": "The outcome depends on which of many files changed and on the order of four threads; tests run one order on one layout.", "anchors": ["mtTorrent/Core/Files.cpp:33-77", "mtTorrent/Core/Files.cpp:337-396", "mtTorrent/Core/Storage.cpp:241-276"]}
{"id": "C93", "title": "A TCP stream sends what it is given in order, tells its owner of its end once and reads no more than its quota", "statement": "However connects, writes, completions, receives, grants of bandwidth, timeouts and closes follow each other, a TCP stream gives the written buffers to the socket in order, each once and one at a time, and has given all of them when it is connected and no write is under way. The owner is told of the connection at most once and of the end at most once, of nothing after the end, and of nothing after it closed the stream with immediate effect. The bytes read never exceed the quota granted, and no receive is under way while the stream waits for bandwidth.", "quantifier": "all sequences of events of any length that can happen to a stream, all data, sizes and answers of the system", "why_tests_cant": "The handlers run on several threads in whatever order the system completes operations; tests see the usual order.", "anchors": ["mtTorrent/utils/TcpAsyncStream.cpp:18-136", "mtTorrent/utils/TcpAsyncStream.cpp:138-344", "mtTorrent/utils/TcpAsyncStream.cpp:346-513", "mtTorrent/utils/TcpAsyncServer.cpp:28-45"]}
{"id": "C94", "title": "A connected peer is shown with the country whose range holds its address", "statement": "From a list of address ranges with their countries, the list tool makes a file and the program reads back the same table. The country shown for a peer is that of the last range which starts at or before its IPv4 address, no country when there is none or the peer has an IPv6 address, and no file, however it is cut short, makes a read or write out of place.", "quantifier": "all sorted lists of ranges with up to 17733 names, all addresses, all tables a file can hold, all lengths to which a file is cut", "why_tests_cant": "The errors sit at the last range of each first byte and in damaged files; a test with a few addresses does not hit them.", "anchors": ["mtTorrent/utils/FastIpToCountry.cpp:5-88", "mtTorrent/utils/FastIpToCountry.h:8-30", "countryIpListParser/main.cpp:124-161", "mtTorrent/Core/Peers.cpp:22-26", "mtTorrent/Core/Peers.cpp:366-367"]}
{"id": "C95", "title": "The stream to a peer tells its owner in order, sends what it is given and keeps to the encryption setting", "statement": "A stream tries TCP and uTP each at most once, and after a handshake without answer sends it once more in the other way, plain or encrypted. Its owner hears of the opening at most once, before any data, and of the end at most once, as the last thing. What is sent is what the owner wrote, in order, with only the first message sent a second time. Under Refuse no byte of an encryption handshake is sent; under Require no data goes out unencrypted. After close no connection is begun.", "quantifier": "all settings at each step, all sequences of openings, ends, data, results of the encryption handshake, writes and closes, of any length", "why_tests_cant": "The defects need a connection that opens, is closed without an answer, and whose repetition fails; a test with a peer that answers never comes there.", "anchors": ["mtTorrent/Core/PeerStream.cpp:16-98", "mtTorrent/Core/PeerStream.cpp:189-312", "mtTorrent/Core/PeerStream.cpp:314-415", "mtTorrent/Core/PeerStream.h:10-98"]}
{"id": "C96", "title": "An announce over HTTPS is answered once, with the tracker's response", "statement": "Every announce to an HTTPS tracker leads to at most one call of its owner; the whole request reaches the tracker's port; when the tracker sends a complete response the owner gets it, however the bytes are split over reads; a failure ends only the announce it belongs to, and later announces can succeed; the state shown for the tracker fits the last call; a stopped tracker makes no connection.", "quantifier": "all sequences of announces, stops and ends of resolve, connect, handshake, write and read operations, all splits of a response, any response parser", "why_tests_cant": "It needs a server that splits its response or closes at an exact multiple of 512 bytes, and a second announce after a closed connection.", "anchors": ["mtTorrent/utils/SslAsyncStream.cpp:7-183", "mtTorrent/Core/HttpsTrackerComm.cpp:15-108"]}
{"id": "C97", "title": "An announce over HTTP is answered once, by its own connection, and can be repeated", "statement": "Every announce to an HTTP tracker leads to at most one call of its owner, and a request is not sent oftener than it was asked for; a response is given to the owner once it is whole, however it is cut into parts; an announce is answered only by what happens on its own connection; a failure or bad response is told; after the answer and the close of the connection the next announce is sent and answered; a stopped tracker calls its owner no more; the state shown fits the last call.", "quantifier": "all sequences of announces, stops, posted tasks, and opens, writes, data and ends of any number of streams, all splits of a response, any response parser", "why_tests_cant": "It needs a tracker that closes after its answer and a second announce an interval later, or a bad response followed by a late close of the same connection.", "anchors": ["mtTorrent/Core/HttpTrackerComm.cpp:24-113", "mtTorrent/Core/HttpTrackerComm.cpp:195-210", "mtTorrent/utils/TcpAsyncStream.cpp:52-75", "mtTorrent/utils/TcpAsyncStream.cpp:194-233"]}
{"id": "C98", "title": "What is left to download is what the tracker and the user are told", "statement": "After any history of a download the number of bytes told to be left is exactly the sum of the lengths of the blocks still missing, it is 0 exactly when every piece is there, and for each file the pieces there and the bytes of the blocks of the others are counted", "quantifier": "every torrent, every saved state, every history of blocks, chokes, haves, checks, selections, closed connections and stops", "why_tests_cant": "the figure is made of four counters kept in three places (flags, requests, given-up pieces, sizes); a test sees one history, and the wrong figures appear only at exact multiples of the piece size, with over-long blocks, or with saved pieces kept through a check", "anchors": ["mtTorrent/Core/Torrent.cpp:427-440", "mtTorrent/Core/Downloader.cpp:129-169", "mtTorrent/Core/DownloadStorage.cpp:209-229", "mtTorrent/Core/Files.cpp:228-265", "mtTorrent/Core/UdpTrackerComm.cpp:125"]}
{"id": "C99", "title": "Routers are asked for exactly the ports that are wanted", "statement": "Each request to a router to map a port is for a port that the settings want and the router does not have, each request to unmap is for a port it has and that is not wanted, at most one of each waits for a router, a router that refuses is not asked again at once, and when nothing waits the ports mapped are those wanted.", "quantifier": "All histories of calls, devices found, answers and closed connections, in any order and of any length; all sequences of settings; any number of routers.", "why_tests_cant": "The order of answers, closed connections and calls decides what is sent; a test has one router that answers well.", "anchors": ["mtTorrent/utils/UpnpPortMapping.cpp:26-258", "mtTorrent/utils/UpnpPortMapping.cpp:290-342", "mtTorrent/Core/IncomingPeersListener.cpp:26-73"]}
{"id": "C100", "title": "A response of the router search is read safely and leads to one request at the adapter's gateway", "statement": "Every location in a response is split into its address, port and path; only locations at the adapter's own gateway with a port are asked, each once; every one of them is asked; what is told of a device are parts of its description; after the search is stopped nothing is asked or told. No response or description ends the program.", "quantifier": "All texts of locations and descriptions; all histories of responses, answers, closed streams, starts and stops.", "why_tests_cant": "A test router sends one well-formed location and a description with all its texts.", "anchors": ["mtTorrent/utils/UpnpDiscovery.cpp:11-57", "mtTorrent/utils/UpnpDiscovery.cpp:59-156", "mtTorrent/utils/UpnpDiscovery.cpp:158-200"]}
{"id": "C101", "title": "A peer that connects to us is handed once to the torrent it greets, or its stream is closed", "statement": "A stream accepted by IncomingPeersListener waits until its first bytes say which torrent it is for. It is handed over at most once, with the hash of its greeting or of its finished encryption handshake; a peer that is refused or fails is closed; stopping closes all that wait and nothing is handed over afterwards.", "quantifier": "all encryption handshakes (as abstract state machines), all answers of the owner, all histories of starts, stops, port changes, accepted TCP and uTP streams, received data of any size and closings", "why_tests_cant": "Which segments a greeting is cut into, which peers are refused after an encrypted handshake and what arrives after a stop are choices of remote peers; tests send whole greetings to known torrents.", "anchors": ["mtTorrent/Core/IncomingPeersListener.cpp:15-34", "mtTorrent/Core/IncomingPeersListener.cpp:75-97", "mtTorrent/Core/IncomingPeersListener.cpp:104-268", "mtTorrent/Core/PeerMessage.cpp:88-91", "mtTorrent/Core/Core.cpp:298-302"]}
{"id": "C102", "title": "Datagrams are passed on whole, in order and with the address they came from", "statement": "UdpAsyncReceiver reads what waits at the socket into one buffer and calls its owner once per run of datagrams of one sender. Every datagram is passed on once, in order and unaltered, together with the address it came from; no more bytes are read than the buffer has, and nothing is passed on once it is stopped.", "quantifier": "all sequences of datagrams, senders, interruptions and errors a socket gives, all values of the available count, all states of the buffer between 10 KiB and 50 KiB", "why_tests_cant": "Two senders must have datagrams waiting at the same moment for the wrong address to be named; tests of one exchange at a time never see it.", "anchors": ["mtTorrent/utils/UdpAsyncReceiver.cpp:16-97", "mtTorrent/utils/UdpAsyncReceiver.h:22-36"]}
{"id": "C103", "title": "What is written to a UDP writer goes out once, in order, to the address set", "statement": "UdpAsyncWriter sends what its owner writes. Each datagram written is sent exactly once, in the order written and to the address that was set or found for the name; answers reach the owner; after a close the owner is not called and nothing more is sent.", "quantifier": "all histories of writes, rewrites, closes, resolved names, connects, failed sends and received datagrams, for broadcasting writers and others", "why_tests_cant": "The losses need a second write before an asynchronous connect or lookup is over, or an answer from another host; a test that waits between its steps sees neither.", "anchors": ["mtTorrent/utils/UdpAsyncWriter.cpp:14-41", "mtTorrent/utils/UdpAsyncWriter.cpp:73-239", "mtTorrent/utils/UdpAsyncWriter.cpp:264-351", "mtTorrent/utils/UdpAsyncWriter.h:40-83"]}
{"id": "C104", "title": "Moving the download directory moves the files of the torrent, whole, and touches nothing else", "statement": "Storage::setPath, called when the user moves a torrent, renames the torrent's root into the new directory. Told as a success, every file of the torrent is at the new path with the bytes it had and every other place of the disk is as it was; told as a failure, neither the disk nor the path changed; no bytes are ever lost.", "quantifier": "all file systems (trees of files and directories), all torrent names, paths, numbers of files and answers of the system", "why_tests_cant": "The outcome depends on what else is on the disk - whether the target directory and a file of that name are there - which a test fixes once.", "anchors": ["mtTorrent/Core/Storage.cpp:40-90", "mtTorrent/Core/Storage.cpp:567-613", "mtTorrent/Core/Files.cpp:278-291"]}
{"id": "C105", "title": "A check of the files ends once, and only one runs at a time", "statement": "A check of a torrent's files runs on four workers. It is told to begin once and to end once; when its workers are done it has ended; what it found counts unless it was stopped; and at most one check runs at a time, which the torrent's state shows.", "quantifier": "all interleavings of the workers' counting, of checks that are asked for and of stops, over any number of checks", "why_tests_cant": "The failures need two workers to finish within nanoseconds, or a stopped check that outlives the next one's start; a test run rarely hits either.", "anchors": ["mtTorrent/Core/Files.cpp:79-90", "mtTorrent/Core/Files.cpp:337-391", "mtTorrent/Core/Torrent.cpp:160-182"]}
{"id": "C106", "title": "Each alert asked for is handed out once, in order", "statement": "The owner of the library registers a mask of alerts and pops what happened. Every alert whose bit is in the mask at the time it happens is handed out exactly once and in order, no other alert is, and the mask of a category stands for exactly the alerts of that category.", "quantifier": "all histories of registrations, alerts and pops, all masks", "why_tests_cant": "Losing or doubling an alert depends on how alerts and pops interleave, in histories of any length.", "anchors": ["mtTorrent/Core/AlertsManager.cpp:6-67", "mtTorrent/Core/AlertsManager.h:12-25", "mtTorrent/Public/Alerts.h:7-30"]}
{"id": "C107", "title": "An address typed in is the address connected to", "statement": "The user gives a peer's address and port as text; the peer connected to has that address and that port, what is no address is refused, and the text is read within its bounds.", "quantifier": "all texts, all IPv4 quads, ports and IPv6 addresses, any reader of address literals", "why_tests_cant": "The port found depends on the digits of the address itself, so a test with one address may pass by luck; the texts are unbounded.", "anchors": ["mtTorrent/utils/Network.cpp:29-32", "mtTorrent/utils/Network.cpp:34-96", "mtTorrent/Core/Api/PeersImpl.cpp:28-31", "mtTorrent/Core/Peers.cpp:179-185"]}
{"id": "C108", "title": "A check which is stopped is taken up again", "statement": "A check of the files, begun by a start or asked for by the user, can be stopped before its end. What it had found counts, and no piece which is stored is forgotten: the next start checks what the stopped check had not come to.", "quantifier": "all torrents, selections, files, times and progresses, all points at which the check is stopped", "why_tests_cant": "It takes a large torrent, a stop in the middle of its check and a look at what is downloaded again afterwards.", "anchors": ["mtTorrent/Core/Files.cpp:33-90", "mtTorrent/Core/Files.cpp:222-226", "mtTorrent/Core/Files.cpp:337-396", "mtTorrent/Core/Torrent.cpp:116-139", "mtTorrent/Core/Torrent.cpp:308-351"]}
{"id": "C109", "title": "A silent uTP peer is given up, in time and once", "statement": "A uTP stream's waits double up to 30 s and are computed without integer overflow however long it lives. An unanswered SYN is sent once more and the stream then closed. A stream that heard nothing for a minute is closed, one that heard something in the last 30 s is not. What was sent and not acknowledged is sent again at each timeout. The owner is told once that it connected and once that it closed, and nothing is sent or told afterwards.", "quantifier": "all histories of refreshes at any times, packets, FINs, resets, writes, closes by the owner and posted closes being run", "why_tests_cant": "It depends on timeouts over the whole life of a stream and on their order with posted closes; a test would need hours and the exact bad moments.", "anchors": ["mtTorrent/Core/Utp/UtpStream.cpp:94-112", "mtTorrent/Core/Utp/UtpStream.cpp:208-248", "mtTorrent/Core/Utp/UtpStream.cpp:281-302", "mtTorrent/Core/Utp/UtpStream.cpp:608-624"]}
{"id": "C110", "title": "Each uTP datagram goes to the stream it belongs to", "statement": "Of a batch of datagrams from one endpoint, those that are not uTP are left for others, in order. Each uTP datagram goes to the eldest stream with its id at that endpoint, in order, although the last stream found is remembered; one with no stream is dropped, unless it is a SYN and incoming uTP is on, when it makes one stream. Each stream that was given something is finished once. A stream never gets a datagram with another id or from another endpoint. A SYN that is sent again makes no second stream.", "quantifier": "all histories of connects, refreshes that remove any streams, and batches of any datagrams from any endpoints", "why_tests_cant": "Which datagram reaches which stream depends on ids and endpoints of all streams, on the remembered stream and on the order in a batch.", "anchors": ["mtTorrent/Core/Utp/UtpManager.cpp:69-82", "mtTorrent/Core/Utp/UtpManager.cpp:90-173", "mtTorrent/Core/Utp/UtpManager.cpp:175-187", "mtTorrent/Core/Utp/UtpManager.cpp:189-206"]}
{"id": "C111", "title": "The log has what was logged", "statement": "Each line that is logged is kept as bytes and later written to the file as it was logged: every text and every value, in order, with the literals of its place in the code, whenever the log gets its name. Nothing outside of the kept bytes or of the list of literals is read. A log with a name has all lines in its file after each line.", "quantifier": "all sequences of lines from any places in the code, with any items, any moments at which the name is given, flushes that fail because the folder is missing", "why_tests_cant": "The bytes are read back without any check of their sizes; it depends on every text that is logged and on which lines were kept when the log was last written.", "anchors": ["mtTorrent/Core/Logging.cpp:36-70", "mtTorrent/Core/Logging.cpp:72-152", "mtTorrent/Core/Logging.cpp:154-203", "mtTorrent/Core/Logging.h:58-117"]}
{"id": "C112", "title": "Two ends agree on an encrypted connection", "statement": "Two ends of this program, with any private keys and paddings, complete the encrypted handshake however their bytes are cut into pieces: both have the bytes of 2^(x*y) modulo the prime, the one that was connected to hands the peer with its message to the right torrent, and each reads with the cipher the other writes with. Whatever bytes come, no step is undefined, nothing is sent before the 96 bytes of the key are there, the key is answered once, and message 4 is sent exactly when the handshake is over.", "quantifier": "all private keys, paddings, info hashes, messages and torrents; all ways to cut the streams; for the second part all bytes whatsoever", "why_tests_cant": "The keys, the paddings and the pieces are chosen by chance and by the network; the failing cut lies within random padding of random size.", "anchors": ["mtTorrent/Core/ProtocolEncryption.cpp:61-130", "mtTorrent/Core/ProtocolEncryption.cpp:159-404", "mtTorrent/Core/PeerStream.cpp:336-364", "mtTorrent/Core/IncomingPeersListener.cpp:175-223", "mtTorrent/utils/DiffieHellman.cpp:3-64"]}
{"id": "C113", "title": "The log of a metadata download tells what happened", "statement": "Logging does not change the download; the requests in the log are those that were made, in order, and each start, each part and rejection while started and each stop of a started download is logged once. A caller that asks for what is new since it last asked gets every entry once and in order, and entries once there stay. No peer is said to have disconnected more often than connected, and until the stop the difference is how often it is among the peers that are asked. A peer that left is not asked again. After the end nothing is logged until the next start. From the text of an entry its kind, the id of the peer and the index can be read.", "quantifier": "all histories of starts, handshakes, messages, timer ticks, closed connections, stops and polls; all peer ids and indices", "why_tests_cant": "The entries come from network callbacks in any order while the user interface polls; repeated extended handshakes and handshakes behind the stop are not in any test.", "anchors": ["mtTorrent/Core/MetadataDownload.cpp:14-99", "mtTorrent/Core/MetadataDownload.cpp:105-223", "mtTorrent/Core/Api/MetadataDownloadImpl.cpp:9-25", "mtTorrent/Core/MetadataDownload.h:26-33"]}
{"id": "C114", "title": "The sliding average of round trip times is an average", "statement": "For samples from 0 to 33554431 no int overflows; the mean lies between the least and the greatest sample and the deviation is at most their difference. For up to 16 samples the mean is the arithmetic mean up to 5/8, and of two samples the deviation is their difference. When the samples stay the same the mean comes to be that sample and the deviation 0, whatever was before. A larger sample overflows.", "quantifier": "all sequences of samples of any length, all values", "why_tests_cant": "Rounding errors add up over thousands of samples, and a test sees a few sequences.", "anchors": ["mtTorrent/Core/Utp/UtpStream.cpp:30-67"]}
{"id": "C115", "title": "Pieces that were begun are taken up again, once", "statement": "Each state of a begun piece that is put aside is handed out at most once, unchanged and in order, when that piece is asked for again; until then it is there, also after the state was saved and read back, and loads of other pieces do not touch it. The size that is reported and the bytes handed out are together the bytes put aside. A clear leaves nothing. What is saved holds only pieces with data.", "quantifier": "all histories of adds, loads and clears, all states of pieces", "why_tests_cant": "Stops and starts at any point of a download, over many sessions.", "anchors": ["mtTorrent/Core/DownloadStorage.cpp:187-248", "mtTorrent/Core/DownloadStorage.h:70-90", "mtTorrent/Core/Downloader.cpp:22-45", "mtTorrent/Core/Downloader.cpp:531-545", "mtTorrent/Core/State.cpp:41-50", "mtTorrent/Core/State.cpp:104-125"]}
