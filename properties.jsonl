{"id": "C01", "title": "Packet encode/decode round trip", "statement": "Encoding any TFTP packet (read/write request, data, ack, error, option ack) and decoding the resulting bytes gives back exactly the same packet, provided its strings are valid UTF-8 without NUL bytes; the single exception is an option ack carrying no option, whose encoding is rejected by the decoder.", "quantifier": "every packet value: every file name, error message, option subset and value, block number and payload", "why_tests_cant": "the space of names, option sets and payloads is unbounded; tests sample a handful of packets", "anchors": ["src/packet.rs: Packet::to_bytes, Packet::from_bytes, OptionalAck, RequestPacket, DataPacket, AckPacket, ErrorPacket"]}
{"id": "C02", "title": "Decoding is total and only produces well-formed packets", "statement": "Decoding an arbitrary datagram never panics; it fails, or returns a packet whose strings are valid UTF-8 without NUL, whose block number fits 16 bits, whose mode is octet and whose options each occur once; and re-encoding then decoding such a packet (other than an option-less option ack) is the identity.", "quantifier": "every byte string received from the network", "why_tests_cant": "an attacker chooses the bytes; all byte strings of all lengths must be covered", "anchors": ["src/packet.rs: Packet::from_bytes and all from_bytes"]}
{"id": "C03", "title": "In-place encoding agrees with the allocating encoder", "statement": "Writing a packet into a caller-supplied buffer succeeds exactly when the encoded form fits; on success the first bytes of the buffer are the encoding, every later byte is unchanged and the returned size is the encoded length.", "quantifier": "every packet and every buffer of every length and content", "why_tests_cant": "needs all packet/buffer size combinations including off-by-one boundaries in each field", "anchors": ["src/packet.rs: to_buffer", "src/buffer.rs: write_bytes"]}
{"id": "C04", "title": "Option parsing semantics", "statement": "A decoded option list contains, for each known option (lower or all upper-case name), the value of its last occurrence among the name/value pairs that are read; unknown names are ignored; pairs are read until the bytes end or eight distinct options have been stored; an unterminated or non-UTF-8 name or value among them rejects the packet.", "quantifier": "every sequence of name/value pairs", "why_tests_cant": "arbitrary orders, duplicates and unknown names cannot be enumerated", "anchors": ["src/packet.rs: OptionalAck::from_bytes, Extension::from_str"]}
{"id": "C05", "title": "Block number wrap-around is resolved to the true block index", "statement": "When each 16-bit block number passed to the mapper stems from a true 64-bit index lying within 10000 of the highest index seen so far, the mapper returns exactly that true index, for transfers of any length; the bound is tight (a distance of 10001 can be misread).", "quantifier": "every history of block numbers of a transfer of any length", "why_tests_cant": "needs histories crossing 65536 any number of times with arbitrary reordering", "anchors": ["src/block_mapper.rs: BlockMapper::index, BlockMapper::block"]}
{"id": "C06", "title": "A stray high block number desynchronises a transfer", "statement": "At the start of a transfer, a single (rejected) data packet with a block number above 55535 makes the writer reject every subsequent genuine block 1..9999 of the file; so robustness of the receiver to rejected packets fails, and holds exactly for rejected block numbers up to 55535.", "quantifier": "every stray block number and every following genuine block", "why_tests_cant": "needs all stray values and all later histories", "anchors": ["src/block_mapper.rs: BlockMapper::index", "src/writers/single_block_writer.rs: write_block"]}
{"id": "C07", "title": "Single block reader serves the file block by block", "statement": "For every sequence of next/ack calls the stop-and-wait reader returns for index k exactly the k-th block of the file (all blocks full except the last, shorter, possibly empty one), never two unacknowledged blocks, re-sends the same bytes on retry, and is finished exactly when the last block has been acknowledged.", "quantifier": "every file, block size, and sequence of next(retry), free_block(block) and failing reads", "why_tests_cant": "operation histories are unbounded", "anchors": ["src/readers/single_block_reader.rs: SingleBlockReader::next, free_block, is_finished"]}
{"id": "C08", "title": "Windowed buffering reader serves the file block by block", "statement": "For every sequence of next/ack calls the multiple block reader returns for index k exactly the k-th block of the file, only indices that are unacknowledged, retries restart at the oldest unacknowledged block, and it is finished exactly when the last block has been acknowledged.", "quantifier": "every file, block size, window, and sequence of next(retry), free_block(block) and failing reads", "why_tests_cant": "operation histories and buffer reuse patterns are unbounded", "anchors": ["src/readers/multiple_block_reader.rs: MultipleBlockReader::next, free_block, is_finished"]}
{"id": "C09", "title": "Seeking reader serves the file block by block", "statement": "For every sequence of next/ack calls the seek reader returns for index k exactly the k-th block of the file, only unacknowledged indices, and is finished exactly when the last block has been acknowledged.", "quantifier": "every file, block size, window, and sequence of next(retry), free_block(block) and failing reads/seeks", "why_tests_cant": "operation histories and seek positions are unbounded", "anchors": ["src/readers/multiple_block_seek_reader.rs: MultipleBlockSeekReader::next, free_block, is_finished"]}
{"id": "C10", "title": "Windowed readers hold at most the configured number of unacknowledged blocks", "statement": "At every moment the number of blocks read from the file but not yet acknowledged never exceeds the configured window (1 for the stop-and-wait reader), and the buffering reader never allocates more than that many block buffers.", "quantifier": "every history of calls", "why_tests_cant": "a bound over all histories", "anchors": ["src/readers/multiple_block_reader.rs", "src/readers/multiple_block_seek_reader.rs", "src/readers/single_block_reader.rs"]}
{"id": "C11", "title": "Acknowledged byte counts add up to the file size", "statement": "The sizes returned by the acknowledge operation of each reader sum, at any time, to the number of file bytes in the acknowledged prefix, hence to the exact file size when the reader is finished.", "quantifier": "every history of calls, including duplicate, stale and too-high acknowledgements", "why_tests_cant": "a conservation law over all histories", "anchors": ["src/readers/mod.rs: free_block"]}
{"id": "C12", "title": "The buffering and the seeking reader are interchangeable", "statement": "Given the same file, block size, window and the same sequence of next/ack calls, the buffering reader and the seeking reader produce the same blocks, the same sizes and the same finished flag.", "quantifier": "every file and every history of calls without I/O failure", "why_tests_cant": "equivalence of two state machines over all histories", "anchors": ["src/readers/multiple_block_reader.rs", "src/readers/multiple_block_seek_reader.rs", "src/server/connection_builder.rs: block_reader"]}
{"id": "C13", "title": "Block writer writes each block exactly once and in order", "statement": "Whatever sequence of data blocks arrives, the output equals the concatenation of the accepted payloads; a block is accepted iff its index is the next expected one; every rejected block leaves the output untouched and reports the last block written.", "quantifier": "every sequence of (block number, payload) pairs", "why_tests_cant": "arrival orders are unbounded", "anchors": ["src/writers/single_block_writer.rs: SingleBlockWriter::write_block"]}
{"id": "C14", "title": "Download over an unreliable network never corrupts the file", "statement": "While a client downloads from the server over a network that loses, duplicates, delays and reorders packets, the bytes written by the client are at every moment a block-aligned prefix of the served file, and when the client reports success they are the whole file; when the server considers the transfer finished the client has the whole file. Delayed packets may be arbitrarily old for files of at most 55535 blocks, and up to 10000 blocks old otherwise.", "quantifier": "every file, block size, window size, reader kind, and every schedule of sends, retries, losses, duplications, reorderings", "why_tests_cant": "schedules are unbounded and interleavings cannot be enumerated", "anchors": ["src/server/helpers/read.rs: send_data_block, handle_read", "src/client/receiver.rs: receive_file", "src/writers/single_block_writer.rs"]}
{"id": "C15", "title": "Upload over an unreliable network never corrupts the file", "statement": "While a client uploads to the server over a network that loses, duplicates, delays and reorders packets, the bytes written by the server are at every moment a block-aligned prefix of the client's file, and when the client reports success they are the whole file. Same packet age assumption as for downloads.", "quantifier": "every file, block size, window size, reader kind, and every schedule", "why_tests_cant": "schedules are unbounded and interleavings cannot be enumerated", "anchors": ["src/client/sender.rs: send_file", "src/server/helpers/write.rs: handle_write"]}
{"id": "C16", "title": "A transfer can always still complete", "statement": "Call a fault-free round: the sender's retry timer fires, it sends, that datagram is delivered, and so is the acknowledgement it causes (if any). In every state of a download or upload in which both ends are alive a round is possible, each round either completes the transfer or leaves both ends alive, and an unfinished transfer of n blocks can contain fewer than 2n rounds, whatever losses, duplicates and delays happen in between; so no reachable state is a deadlock.", "quantifier": "every reachable state of the two-party system", "why_tests_cant": "requires reachability over all schedules", "anchors": ["src/server/helpers/read.rs", "src/client/receiver.rs", "src/server/helpers/write.rs", "src/client/sender.rs"]}
{"id": "C17", "title": "Requested names are confined to relative, dot-free paths", "statement": "The server-side name used to open a file is never empty, never absolute, contains no empty, '.' or '..' component (also after trimming white space), and is obtained from the requested name only by dropping components; names that have no other component are rejected.", "quantifier": "every requested file name", "why_tests_cant": "all strings, including ones built to bypass the filter", "anchors": ["src/server/validation.rs: normalize_remote_name, validate_file_name"]}
{"id": "C18", "title": "Name normalisation is stable", "statement": "Normalising a normalised name changes nothing, and a name that already is a clean relative path is left unchanged.", "quantifier": "every requested file name", "why_tests_cant": "all strings", "anchors": ["src/server/validation.rs: normalize_remote_name"]}
{"id": "C19", "title": "Negotiated options stay within the server's limits", "statement": "Whatever options a client requests, the block size the server uses is 512 or at most the configured maximum, the window is at most the configured maximum (and at least 1), the timeout is between one second and the configured request timeout, and the option ack contains only options the client sent (plus the server's own key material when keys are exchanged).", "quantifier": "every option map a client can send and every server configuration", "why_tests_cant": "client-controlled strings; boundaries of every numeric option", "anchors": ["src/server/extensions.rs: parse_extensions"]}
{"id": "C20", "title": "The client never accepts more than it asked for", "statement": "When the server's option ack is accepted, the block size and window the client uses are at most the requested ones and at least the protocol minimum, options that were not requested cause rejection, and absent options fall back to the defaults (512-byte blocks, window 1).", "quantifier": "every option ack a server (or attacker) can send and every client request", "why_tests_cant": "attacker-controlled strings", "anchors": ["src/client/extensions.rs: validate_extensions, parse_extensions, create_extensions"]}
{"id": "C21", "title": "Client and server agree on the transfer parameters", "statement": "If a request built by the client is processed by the server and the resulting option ack is accepted by the client, both sides use the same block size, window size, and effective encryption level.", "quantifier": "every client option set and every server configuration", "why_tests_cant": "needs the product of both negotiation functions over all values", "anchors": ["src/client/extensions.rs", "src/server/extensions.rs", "src/client/connection.rs: query_server"]}
{"id": "C22", "title": "Only authorised keys obtain a session when an authorised key list is configured", "statement": "If the server has an authorised key list, a request is accepted only if the client presented an authentication key in that list together with a valid signature over its session key.", "quantifier": "every option map and every signature scheme behaviour", "why_tests_cant": "security claim over all inputs", "anchors": ["src/server/extensions.rs: parse_extensions"]}
{"id": "C23", "title": "Server encryption requirement", "statement": "If the server requires full encryption, every request whose initial packet was not encrypted is rejected. The stronger claim that the accepted session is then fully encrypted is false: a client may still lower the level through the enclevel option.", "quantifier": "every option map", "why_tests_cant": "security claim over all inputs; needs a precise boundary", "anchors": ["src/server/extensions.rs: parse_extensions", "src/server/connection_builder.rs"]}
{"id": "C24", "title": "What becomes of a demand for encryption", "statement": "A client that asks for the data or protocol level and accepts an option ack is using the data or protocol level afterwards, under the key agreed with the session key in that ack: an option ack that omits or lowers the level to none is rejected. But a plain ack or data packet as the first answer (old protocol without options) is accepted by a client that does not know the server's key, and then nothing is encrypted in either direction, without any error. A client that knows the server's key and asks for full or protocol keeps sealing everything, and accepts only sealed datagrams, unless an accepted option ack lowers the level to data.", "quantifier": "every option ack", "why_tests_cant": "security claim over all inputs", "anchors": ["src/client/extensions.rs: parse_extensions"]}
{"id": "C25", "title": "Option fallback keeps requested window", "statement": "If the server ignores all options (plain ack or data as first reply) the client proceeds with 512-byte blocks; the window, however, stays at the requested value instead of falling back to 1.", "quantifier": "every request and every first reply", "why_tests_cant": "all first-reply shapes", "anchors": ["src/client/connection.rs: query_server"]}
{"id": "C26", "title": "Transfer size limits", "statement": "A client that downloads stops with an error at the first block with which the received total exceeds its maximum file size, so it stores at most one block more than the limit. A server connection that receives an upload is marked failed and the peer is told disk full at the first such block; a server thread then stops before storing more, so at most one block more than the limit is stored. (The single threaded server goes on handling the datagrams of a failed connection until its next clean up.)", "quantifier": "every sequence of data packets", "why_tests_cant": "all histories", "anchors": ["src/server/helpers/write.rs: handle_write", "src/client/receiver.rs", "src/server/validation.rs: handle_file_size"]}
{"id": "C27", "title": "A reported successful download is complete", "statement": "If the server ignores options and answers with data directly, the client's handling of the first data packet compares the packet length including the 4-byte header with the block size: a full first block is taken for the last one and success is reported after 512 bytes. Otherwise (option ack received) success implies the complete file.", "quantifier": "every file and every schedule", "why_tests_cant": "depends on first-reply shape and sizes", "anchors": ["src/client/receiver.rs: receive_file"]}
{"id": "C28", "title": "Retransmission back-off", "statement": "The retry multiplier of a server connection always stays between 1 and 255, grows by 2 (saturating) on each timeout retry and shrinks by one (not below 1) on progress; as long as retry-timeout times multiplier has not elapsed since the last send, the sender never goes back to an earlier block on its own: it only sends the block following the one sent last.", "quantifier": "every history of timeouts and acknowledgements", "why_tests_cant": "saturating arithmetic over all histories", "anchors": ["src/server/helpers/read.rs: send_data_block, handle_read"]}
{"id": "C29", "title": "Idle connections are dropped, live ones are not", "statement": "A connection is removed only if it failed, finished, or has been silent for longer than the request timeout; a timed out peer is told so.", "quantifier": "every history of packet arrivals and clock readings", "why_tests_cant": "all timings", "anchors": ["src/server/helpers/connection.rs: timeout_client"]}
{"id": "C30", "title": "Connection limit and one connection per peer address", "statement": "The server never has more simultaneously live connections than configured, and never two for the same peer address. A request from an address without connection is looked at exactly if the limit is not reached; one from an address that has a connection, or above the limit, is dropped without answer and changes nothing.", "quantifier": "every sequence of incoming datagrams and connection ends", "why_tests_cant": "all histories", "anchors": ["src/server/multi_thread.rs: server", "src/server/single_thread.rs"]}
{"id": "C31", "title": "Bit padding is reversible and hides the length", "statement": "Padding a non-empty packet to a target length and removing the padding gives the packet back, and the padded length is the target for every packet shorter than it.", "quantifier": "every byte string and target length", "why_tests_cant": "all contents, in particular trailing runs of 0x00 and 0xff", "anchors": ["src/encryption.rs: apply_bit_padding, remove_bit_padding"]}
{"id": "C32", "title": "Encrypted packets round trip and stay within the negotiated datagram size", "statement": "For every packet that fits, encrypt then decrypt (data, protocol, initial packet) with matching keys gives the packet back, the header of a data-level packet stays readable, and the encrypted datagram is no longer than block size plus header.", "quantifier": "every packet, key, nonce", "why_tests_cant": "all contents and sizes", "anchors": ["src/encrypted_packet.rs", "src/encryption.rs: Encryptor"]}
{"id": "C33", "title": "Decrypting attacker bytes", "statement": "Decryption of an arbitrary datagram returns an error or a plaintext except that, at encryption level data, a datagram of 40 to 43 bytes makes the decoder panic; the exact set of panicking lengths is characterised.", "quantifier": "every byte string", "why_tests_cant": "all byte strings; rare length boundary", "anchors": ["src/encryption.rs: Encryptor::decrypt", "src/encrypted_packet.rs: EncryptedDataPacket::decrypt"]}
{"id": "C34", "title": "Client-side file encryption is transparent", "statement": "A file sent through the encrypting stream reader and later received through the decrypting stream writer with the same key and the same block size is byte-for-byte the original (up to 2^32 blocks), also over a lossy network. The writer accepts a whole stream only if it is the encryption of what it has written, and refuses a stream cut at the end of a block. If the download uses larger blocks than the upload, a stream cut down to its first block is accepted without any error. The stored file is the STREAM-BE32 encryption of the file's segments, no nonce is used twice, and whoever changes it (keeping the 21 byte header) and has it accepted has produced a valid tag for a nonce and text that were never sealed.", "quantifier": "every file, key, nonce, block size", "why_tests_cant": "all file sizes relative to block boundaries", "anchors": ["src/readers/encrypted_stream_reader.rs", "src/writers/encrypted_stream_writer.rs"]}
{"id": "C35", "title": "Key store lookups", "statement": "An authorised-keys file yields exactly the keys of its lines that are not blank, not a comment and valid UTF-8, in order, or an error if one of them is no key; files written one key per line with either line ending are read back. Looking up an endpoint in a known-hosts file gives the key of the first such line naming that endpoint, an error if the key text of that line is invalid, and nothing if no line names it. Appending a host makes an unknown endpoint found with that key and leaves what is found for every other endpoint, and for known ones, unchanged.", "quantifier": "every file content (any bytes, line endings, unfinished last lines), endpoint and key", "why_tests_cant": "all file contents", "anchors": ["src/key_management.rs: read_authorized_keys, get_from_known_hosts, append_to_known_hosts"]}
{"id": "C36", "title": "Error message truncation can panic", "statement": "Truncating a reported string to a maximum size returns a prefix of at most that size, except that it panics exactly when the string is longer and the cut falls inside a multi-byte character; hence a request with a long non-ASCII file name can panic the server worker.", "quantifier": "every string and size", "why_tests_cant": "all strings", "anchors": ["src/lib.rs: ensure_size", "src/server/validation.rs: validate_file_name"]}
{"id": "C37", "title": "Bounded array map behaves as a map", "statement": "The fixed-capacity map behaves like a finite map with at most CAP entries: lookups return the last inserted value, keys are unique, removal removes exactly one key, insertion of a new key into a full map fails and changes nothing.", "quantifier": "every sequence of map operations", "why_tests_cant": "operation histories", "anchors": ["src/map.rs"]}
{"id": "C38", "title": "Following a growing file", "statement": "The reader used by directory synchronisation delivers, under every interleaving of writing, closing, reads and seeks, the bytes of the file in order without loss or duplication; it reports a short block or the end only after the finished flag is set; if the flag was set before the call began, the end is the real end; if the flag is never set during a call, every result equals a read of the finished file; and once the flag is set the rest is delivered block by block. But when the last part is written and the file closed between the read of the file and the look at the flag, a premature short block is delivered (and a failing read of the file loses the bytes kept).", "quantifier": "every interleaving of file appends, flag setting, reads (with any legal amounts given by the operating system) and seeks", "why_tests_cant": "thread interleavings", "anchors": ["std-binary/src/blocking_reader.rs: BlockingReader::read", "std-binary/src/sync.rs: start_sync"]}
{"id": "C39", "title": "Directory depth limit", "statement": "A requested path is accepted iff it has at most max_directory_depth separators between components.", "quantifier": "every path", "why_tests_cant": "all strings", "anchors": ["std-binary/src/io.rs: validate_path"]}
{"id": "C40", "title": "Packet buffers are always large enough", "statement": "A packet buffer holds the block size plus the 4-byte header and never less than 516 bytes; block sizes above 1425 panic. For every accepted request the option ack fits its datagram, sealed or not; for every agreed session each packet with at most one agreed block of payload can be sealed, fits the receive buffer and decrypts to the packet sent. A sealed request always takes block size + 4 bytes: it can be sent iff the request plus 73 bytes fits that, and a server whose buffer is smaller receives it cut.", "quantifier": "every negotiated block size and encryption level", "why_tests_cant": "all sizes", "anchors": ["src/buffer.rs: create_max_buffer", "src/config.rs: block_size_with_encryption", "src/server/connection_builder.rs"]}
{"id": "C41", "title": "No client is starved by the single threaded server", "statement": "In the single threaded server, while the set of active downloads stays the same, one that has something to send is sent a block within as many turns as there are active downloads; a client whose datagrams are waiting is heard within one turn more than there are connections; requests of new clients are looked at at least once in as many turns plus one, however busy the others are. Newcomers with lower addresses can delay others beyond the first bound.", "quantifier": "every reachable state, cursor position and sequence of turns", "why_tests_cant": "all histories", "anchors": ["src/server/single_thread.rs: send_data_blocks, server loop"]}
{"id": "C42", "title": "The wait for the first answer", "statement": "The answer a client obeys comes from the IP address of the configured server, and from its port unless port changes are allowed; before it at most one packet of the server was passed over, an error, after which the client asked again without options (level none only). Datagrams of other hosts, if not shorter than the server's answer, have no influence on the outcome. Unanswered requests are repeated with doubled waits, none longer than the time left, so their number is logarithmic in the request timeout; a client to which nobody sends gives up exactly when a wake up finds the timeout exceeded. But datagrams of other hosts postpone the timeout without bound, each makes the client send a request, a short one cuts the server's answer to its own length, and with an encrypted first exchange one that does not decrypt ends it.", "quantifier": "every sequence of arriving datagrams, wake ups and clock readings", "why_tests_cant": "all arrival histories", "anchors": ["src/client/connection.rs: wait_for_initial_packet, query_server"]}
{"id": "C43", "title": "Encryption level names", "statement": "Every encryption level's textual form parses back to the same level and nothing else parses.", "quantifier": "all strings", "why_tests_cant": "all strings", "anchors": ["src/encryption.rs: EncryptionLevel FromStr/Display"]}
{"id": "C44", "title": "Window acknowledgement policy", "statement": "The receiving side acknowledges at the end of each window, on the final short block, and on every out-of-order or repeated block; each acknowledgement carries the number of the last in-order block.", "quantifier": "every sequence of data packets", "why_tests_cant": "all histories", "anchors": ["src/server/helpers/write.rs: handle_write", "src/client/receiver.rs"]}
{"id": "C45", "title": "Wire format is the RFC 1350/2347 layout", "statement": "The encoded bytes of every packet are the standard TFTP layout (opcodes 1-6, big-endian block numbers, NUL-terminated strings, mode octet, option name/value pairs), and every standard encoding of a packet, with options in any order and names in lower or upper case, is decoded to that packet.", "quantifier": "every packet and every standard encoding of it", "why_tests_cant": "all packets, option orders and cases; a round-trip test cannot notice a mistake made on both sides", "anchors": ["src/packet.rs: Packet::to_bytes, Packet::from_bytes"]}
{"id": "C46", "title": "Datagrams of strangers", "statement": "Without encryption a datagram from an address other than the server's never affects a running client transfer. With encryption any datagram that does not decrypt, sent by anybody, makes the client abort the transfer at any moment, because decryption comes before the address check; the server ignores such datagrams.", "quantifier": "all reachable states of a transfer, all datagrams", "why_tests_cant": "must hold for every state and every datagram content", "anchors": ["src/client/encryption_socket.rs recv_from", "src/client/receiver.rs receive loop", "src/client/sender.rs receive loop", "src/server/helpers/read.rs handle_read", "src/server/helpers/write.rs handle_write"]}
{"id": "C47", "title": "Partial writes end a transfer early", "statement": "If the output device takes only part of a full in-order block, the receiving client reports success and the receiving server regards the upload as finished and acknowledges the block, although the file is incomplete.", "quantifier": "all states, blocks and partial write sizes below the block size", "why_tests_cant": "test writers never write partially; the claim is about every state and size", "anchors": ["src/writers/single_block_writer.rs write_block", "src/client/receiver.rs", "src/server/helpers/write.rs handle_write"]}
{"id": "C48", "title": "Fixed-capacity names may lose their last character", "statement": "With fixed-capacity strings (the no-std build) a requested name shorter than the capacity is normalised exactly as with unbounded strings, but a clean name of exactly the capacity silently loses its last character, so another file is opened.", "quantifier": "every requested file name and every capacity", "why_tests_cant": "The boundary depends on every name length, every UTF-8 width of the last character and every separator layout.", "anchors": ["src/server/validation.rs", "src/config.rs", "src/macros.rs"]}
{"id": "C49", "title": "Textual form of keys and signatures", "statement": "Encoding a 32-byte key or a 64-byte signature as text and decoding it gives it back; the exact set of texts accepted as keys is characterised: shorter values are accepted and padded with zero bytes, longer ones are cut.", "quantifier": "every key, signature and text", "why_tests_cant": "Must hold for all 2^256 keys and all texts.", "anchors": ["src/encryption.rs", "src/key_management.rs"]}
{"id": "C50", "title": "A known server key is checked", "statement": "If the client was given the server's public key and asks for full or protocol encryption, the first answer is accepted only if it was sealed under the key that the holder of the server's private key shares with the client for this request, so an answer of somebody else ends the attempt.", "quantifier": "all client configurations, requests, answers (arbitrary bytes)", "why_tests_cant": "ranges over all bytes an attacker may send", "anchors": ["src/client/connection.rs: query_server", "src/client/encryption_socket_builder.rs: create_initial_socket", "src/client/encryption_socket.rs: recv_from"]}
{"id": "C51", "title": "Compatible client and server complete the first exchange", "statement": "If the request fits the datagram, the server's directory operation succeeds, the server authorises the client and their settings are compatible, then the request the client builds is accepted by the server, the option ack it sends is accepted by the client, and both ends then agree on block size, window, level and key.", "quantifier": "all compatible configurations, names, options and keys", "why_tests_cant": "ranges over all combinations of configuration, keys and negotiated options", "anchors": ["src/client/connection.rs: query_server", "src/server/helpers/connection.rs: accept_connection", "src/server/connection_builder.rs", "src/server/extensions.rs: parse_extensions"]}
{"id": "C52", "title": "Trust on first use", "statement": "After a transfer from an endpoint whose key was unknown, the key its server used is found for it, and whatever transfers follow, with whatever endpoints and keys, a key once found for an endpoint is never replaced; so later sessions insist on it. Exceptions: an endpoint containing a space is never found, and a line with an invalid key is never repaired (the client refuses to start).", "quantifier": "every known-hosts content and every history of transfers", "why_tests_cant": "unbounded histories over arbitrary file contents", "anchors": ["std-binary/src/encryption_io.rs: handle_hosts_file", "std-binary/src/config.rs: ClientCliConfig::try_into", "src/key_management.rs"]}
{"id": "C53", "title": "Clients of one server do not disturb each other", "statement": "Whatever other clients do, the connection, stored data and received datagrams of a client at one address change only through what this client sends and the passing of time: in each turn of the single threaded server, and each step of the multi threaded one, a client's state and what is sent to it are those of its own transfer alone.", "quantifier": "every reachable server state with any number of clients, every input and interleaving", "why_tests_cant": "all interleavings of all clients", "anchors": ["src/server/single_thread.rs: server", "src/server/multi_thread.rs: server, spawn_reader, spawn_writer"]}
{"id": "C54", "title": "Waiting and socket identifiers of the single threaded server", "statement": "The server never waits more than half a second before it looks at its sockets again, never waits after a turn in which it sent or received something while it has clients, and never gives a client socket the identifier 0 of the main socket, however long it runs.", "quantifier": "every history of the server", "why_tests_cant": "unbounded histories: counters wrap around", "anchors": ["src/server/wait_control.rs", "src/server/single_thread.rs: socket_id"]}
{"id": "C55", "title": "Files arrive complete through busy, encrypted servers", "statement": "A client negotiates a download or an upload with a server (single or multi threaded) that is in any reachable state and serves any other clients at the same time, encrypted or not; the network may lose, repeat, reorder and delay datagrams (by any amount for files of at most 55535 blocks, by up to 10000 blocks otherwise), and old datagrams of that address may still be under way. At every moment the receiving side has stored a prefix of the file that is a whole number of blocks or the file; if the receiver (or the sending side) reports completion, the stored file is exactly the file, and the number of bytes reported is its length.", "quantifier": "every server configuration and reachable state, every set of other clients, every negotiation, file, schedule of turns, loss, duplication, delay and reordering", "why_tests_cant": "the composition of negotiation, encryption, server loops, connections and network has unboundedly many schedules", "anchors": ["src/server/single_thread.rs: server", "src/server/multi_thread.rs: server, spawn_reader, spawn_writer", "src/client/receiver.rs: receive_file", "src/client/sender.rs: send_file", "src/client/connection.rs: query_server", "src/server/extensions.rs"]}
{"id": "C56", "title": "When a running client transfer ends without success", "statement": "After any history of datagrams and wake-ups, a client download gives up for lack of progress exactly when it wakes up without a datagram and the last block it stored (or the start of the transfer) is longer ago than the request timeout; a client upload exactly when it wakes up without a datagram and the last acknowledgement it received (or the start) is longer ago than that. Otherwise a transfer fails only for a stated reason visible in the datagram or the storage device (a datagram that cannot be decrypted, an error packet, a socket error, a failing storage device, a file over the size limit, an acknowledgement that cannot be sent), and errors, undecryptable datagrams, silence and socket errors do end it; no history of acknowledgements makes the upload panic. Datagrams that make no progress postpone the decision to give up.", "quantifier": "every history of datagrams, wake-ups and times, every timeout, file and negotiated options", "why_tests_cant": "depends on all interleavings of silence and traffic at all times", "anchors": ["src/client/receiver.rs: receive_file", "src/client/sender.rs: send_file", "src/flow_control.rs"]}
{"id": "C57", "title": "Downloads come from inside the served directory", "statement": "Whatever file name is asked for and whatever symbolic links exist, what a server sends is a file (or the listing of a directory) whose real location is the served directory or below it. Conversely every readable file in the directory tree is served under its own name, byte for byte the file that is there, and the listing name in each directory gives one line for each entry with its path and a slash after directories.", "quantifier": "every file system tree with directories, hard and symbolic links, every server configuration and every requested name", "why_tests_cant": "unboundedly many trees, links and names", "anchors": ["std-binary/src/io.rs: create_server_reader, create_server_writer, list_directory", "src/server/connection_builder.rs: build_reader, build_writer", "src/server/validation.rs: validate_request_options"]}
{"id": "C58", "title": "Uploads are stored inside the served directory and harm nothing else", "statement": "For every datagram a server receives: no file or directory is removed or replaced; only directories and empty files are added; the contents of existing files stay, except that a file an upload is accepted for is emptied, and that only when overwriting is allowed. An accepted upload is stored in a file whose real location is inside the served directory, and which is new unless overwriting is allowed. When there are no symbolic links in the served directory nothing at all is created outside of it, and the file has exactly the (cleaned) requested name. An upload to a new name succeeds, missing directories being made, and one to an existing name succeeds exactly when overwriting is allowed and the file may be written. (With a link to the outside, a refused upload leaves empty files and directories behind outside.)", "quantifier": "every file system tree, server configuration and datagram", "why_tests_cant": "unboundedly many trees, links, names and datagrams", "anchors": ["std-binary/src/io.rs: create_server_reader, create_server_writer, list_directory", "src/server/connection_builder.rs: build_reader, build_writer", "src/server/validation.rs: validate_request_options"]}
{"id": "C59", "title": "What refused peers are told", "statement": "A datagram from a peer without a transfer is answered at all only if it carries a read or write request. A refused request is answered by at most one error packet: about the options, about a file that cannot be opened (with at most 100 bytes of the requested name), about a busy server, or about an oversized file or unusable name. The first three kinds are sent only by servers without error_to_authorized_only, and requests that arrived sealed get them sealed under the same key; the last two are sent in clear under every configuration. With error_to_authorized_only and a key list, unauthorised peers get no answer whatsoever.", "quantifier": "every datagram, server configuration and environment", "why_tests_cant": "negative claim over all datagrams", "anchors": ["src/server/connection_builder.rs: reply_with_error, build_reader, build_writer", "src/server/validation.rs: validate_request_options", "src/server/helpers/connection.rs: handle_packet"]}
{"id": "C60", "title": "When uploads send again", "statement": "During an upload in which all round trips the client measures (the handshake, and from the first sending of a block that is timed to its acknowledgement) are at most M long, the retransmission interval is at least the configured one and at most the largest of the configured one, 4M and 144 seconds (256 below block size 512), whatever was lost; if everything is lost the client is never silent longer than the largest of the configured interval, 4M, one second, or 0.4 seconds plus one turn; a client whose request timeout is beyond that never gives up without having sent something after the last acknowledgement. None of the f32 arithmetic or conversions to durations panics; overflow checks of debug builds are the only difference between builds. But after a handshake of s seconds nothing is sent twice for 4s seconds: with a shorter request timeout a single lost first window fails the upload. And what is measured contains the time spent on lost copies: on a network that answers within a millisecond an upload in which each of the first 14 blocks was lost once fails when block 15 is lost once, because the client has become slower than its own request timeout. Nothing is sent again unless the configured interval has passed since the last datagram was sent.", "quantifier": "every upload: options, file, reader, schedule, clock values, acknowledgements and losses", "why_tests_cant": "the interval depends on the whole history of f32 estimates and rates; the bounds must hold for every history", "anchors": ["src/flow_control.rs", "src/client/sender.rs: send_file"]}
{"id": "C61", "title": "Private keys on the command line", "statement": "A private key argument is used as the key if its text is a valid key text, and only otherwise as the name of a file whose first line, without trailing white space, is a key text; nothing else is accepted, every key of 32 bytes can be given both ways, and the program does not start if neither works. (A file name that reads as base64 is therefore taken as a key without a look at the file, and an empty argument or empty first line is the key of 32 zeros.)", "quantifier": "every argument text, every file content, every key", "why_tests_cant": "texts that are valid both as keys and as file names must be covered as well as every possible file content", "anchors": ["std-binary/src/encryption_io.rs: read_private_value_or_file", "src/encryption.rs: decode_signing_key"]}
{"id": "C62", "title": "Server start-up", "statement": "A server that starts listens at the address given, serves the directory given and uses exactly the limits of the command line, which are inside the documented ranges; with a list of authorised keys it requires full handshake encryption and tells errors to authorised peers only unless told otherwise, and a list that cannot be read entirely prevents the start. With the defaults only peers holding a listed private key get any answer; with a list but without a private key nobody does.", "quantifier": "every command line, every surroundings (files, names), every datagram", "why_tests_cant": "the claim is about every combination of arguments and file contents and about every datagram that may arrive afterwards", "anchors": ["std-binary/src/cli.rs: ServerCliConfig", "std-binary/src/config.rs: try_from", "std-binary/src/main.rs: main"]}
{"id": "C63", "title": "Client start-up", "statement": "A client that starts uses the endpoint, limits and encryption level of the command line, expects the server's key that was given or else the one the known-hosts file holds for the endpoint, and does not start if a key is given that cannot be read. A client and a server started with the default limits and fitting keys complete the handshake (composition with C51); with the default encryption level the client is never answered by a server with a key list and default settings; an endpoint without a port is refused unless a local address is given.", "quantifier": "every pair of command lines, every surroundings, every request", "why_tests_cant": "ranges over all pairs of configurations and all files", "anchors": ["std-binary/src/cli.rs: ClientCliConfig", "std-binary/src/config.rs", "std-binary/src/sender.rs: start_send", "std-binary/src/receiver.rs: start_receive", "std-binary/src/socket.rs"]}
{"id": "C64", "title": "Names that are not given", "statement": "If the other name is not given, an upload is asked for under the last name of the local path, and a download is stored under the last name of the remote path in the current directory; a path without a last name (empty, root, ending in ..) is refused before anything is sent. Names that are given are used unchanged. The remote name chosen is one the server keeps as it is.", "quantifier": "every path", "why_tests_cant": "ranges over all byte strings used as paths", "anchors": ["std-binary/src/sender.rs: start_send", "std-binary/src/receiver.rs: start_receive"]}
{"id": "C65", "title": "Directory synchronisation", "statement": "While a directory is synchronised, every file closed after writing (or, with start-on-create, every file created) anywhere below it is sent exactly once per event, in the order of the events, under its path relative to the directory; files outside, also in directories whose name merely begins like it, are never sent, and different files never get the same remote name. With start-on-create the upload of a file may finish once the file was closed, and only then: if the file is created again before it is closed the earlier upload never regards the file as complete; a file that is only changed is never sent. The server stores the file under the same relative path unless a component consists of white space and dots.", "quantifier": "every sequence of events of the watcher, every directory and file names", "why_tests_cant": "ranges over all event histories; the outcome depends on the order of events of the same name", "anchors": ["std-binary/src/sync.rs: start_sync, get_paths"]}
{"id": "C66", "title": "Pooled readers of the build without alloc", "statement": "In the build without allocation, where at most 64 + 8 + 64 block readers live in fixed pools and clients hold handles, every client is served as if it owned its reader: whatever other clients do, connect or leave, a handle never reaches the reader or the file of another client and never a missing one, nothing panics or underflows because of the pools, a reader's place is free again as soon as its connection is removed (the pools are empty when no client is left), and the pools and the table of 128 clients are never exceeded. A read request is refused for want of a reader only if the second and third pools are full (and for a window of one the first as well), hence never with a limit of at most 72 connections. With a limit above 128 (the command line does not allow it) requests are answered as accepted although the connection is dropped. The reader with sixteen fixed buffers does the same as the allocating one for windows up to 16 (beyond, it loses blocks).", "quantifier": "every sequence of turns of the server, every number and order of clients coming and going, every datagram, all operations on a reader", "why_tests_cant": "aliasing of handles shows only for particular interleavings of clients leaving and arriving; tests use one reader", "anchors": ["src/readers/pool_reader.rs: PoolReader", "src/server/readers_available.rs: ReadersAvailable::from_used", "src/server/single_thread.rs: server (cfg not alloc)", "src/server/connection_builder.rs: block_reader", "src/readers/multiple_block_reader.rs: Buffers"]}
{"id": "C67", "title": "Files shared by transfers", "statement": "On a server whose transfers share one disk, with either server loop and whatever other clients and the network do: a download yields the contents the file had when the request opened it, complete whenever either side reports success, provided nobody changes that file while it is open for this transfer (downloads never change anything); an upload's file on disk is what the client has got through so far, complete whenever either side reports success, provided nobody else changes that file. Without leave to overwrite no two connections ever write the same file, so no request of another client can spoil an upload. With leave to overwrite, contents change only by requests (which may empty files) and by datagrams of clients storing into that file (written where the client's own data continue); simultaneous uploads into one file leave a bytewise mixture, and are all right if they carry the same contents and the one started last completes.", "quantifier": "every interleaving of any number of transfers, requests and interventions by other programs on the disk, every network behaviour, both servers", "why_tests_cant": "interference depends on the interleaving of transfers with openings, truncations and writes by other connections; tests run one transfer at a time", "anchors": ["std-binary/src/io.rs: create_server_reader, create_server_writer", "src/server/single_thread.rs: server", "src/server/multi_thread.rs: server", "src/writers/single_block_writer.rs: write_block"]}
{"id": "C68", "title": "No lost wake-ups", "statement": "In the single threaded server a connection whose socket has a datagram waiting is always either known to be readable or on the operating system's ready list, whatever the order of arrivals, readings, joins and removals; every other connection's socket is watched; no two connections (nor a connection and the main socket) share a socket id. When the server goes to sleep with connections open, every connection with a datagram waiting is on the ready list, so it wakes at once. While no connection is removed and n connections exist, a waiting datagram is read within 3n + 3 turns, even with room for fewer events than ready sockets and with clients joining. Holds until the 32 bit socket ids have been used up.", "quantifier": "every order of arrivals (also while the server waits), turns, accepted and removed connections, for every limit of connections", "why_tests_cant": "a wake-up is lost only for particular orders of arrival, notification, re-arming and overflow of the event list; a test sees the order the machine happens to produce", "anchors": ["std-binary/src/socket.rs: UdpUnboundSocket, recv_from, add_interest, modify_interest, notified, create_socket", "src/server/single_thread.rs: server", "src/server/wait_control.rs: WaitControl"]}
{"id": "C69", "title": "Progress of transfers on a busy server", "statement": "On a server busy with any other clients, a transfer of n blocks needs at most 2n - 1 exchanges. An exchange is: the receiving side is handed a copy of the oldest block the sender does not know to be confirmed, and the sender gets the answer to it, if one was given. Whatever happens in between (any turns of the server, any loss, repetition or reordering of the client's own datagrams, delays), after 2n - 1 exchanges the transfer is complete with the whole file at the receiver, unless the client gave up in between (a timeout, a local error); an exchange itself never makes the client fail. The server does its part of an exchange: when the retry interval has passed, the next sending for an unfinished download sends exactly that oldest unconfirmed block, and with L downloads active a connection that is due is passed over in fewer than L turns of the single threaded server, in none of the multi threaded one.", "quantifier": "every number of other clients, their traffic, every file and negotiated options, every order, loss, repetition of datagrams, every interleaving of turns", "why_tests_cant": "it bounds the number of exchanges over every schedule of the server loop and of the network; a test runs a few schedules", "anchors": ["src/server/single_thread.rs: server, send_data_blocks", "src/server/multi_thread.rs: multi_thread server", "src/server/connection.rs: Connection", "src/readers/block_reader.rs: BlockReader", "src/client/receiver.rs: receive_file", "src/client/sender.rs: send_file", "src/flow_control.rs"]}
{"id": "C70", "title": "What one client stored another one gets back", "statement": "If an upload is reported successful to its client, then any later download of the same path (however it is spelled) that is reported successful delivers exactly the uploaded bytes and reports the same size; until then it has delivered a prefix of them. In between anything may happen: transfers of other files, refused or accepted requests, losses and repetitions of datagrams, stops and restarts of the server at any time. The condition is that meanwhile nobody changes the stored file or what its path leads to. On a server that does not allow overwriting the server itself satisfies this condition as soon as it has dropped the connection of the upload (or has been restarted), whatever requests and datagrams it receives: only other programs can break it.", "quantifier": "every file, file system, negotiated options of both clients, every behaviour of other clients and of the network, every number and time of restarts, both servers", "why_tests_cant": "it ranges over all histories between the two transfers, including restarts and concurrent requests for the same name", "anchors": ["std-binary/src/io.rs: create_server_writer, create_server_reader", "src/server/single_thread.rs", "src/server/multi_thread.rs", "src/client/sender.rs", "src/client/receiver.rs"]}
{"id": "C71", "title": "What the commands do to the machine they run on, and whom they talk to", "statement": "Whatever datagrams arrive and whatever fails: `receive` changes no file but the one its local path leads to (which it creates if the path leads nowhere, creating no directory and no other name), changes nothing at all before an answer from the host it was given has arrived, and sends packets to that host only. `send` changes no file, sends packets to the host it was given only, and sends none if its local file cannot be opened. Once the server's answer is accepted, a `receive` without file encryption never lets the local file grow past the size limit while it goes on, and a successful one reports the size the local file has. The file that was at the local path is emptied as soon as an answer is accepted, even if the command then fails because the announced size is above the limit.", "quantifier": "every sequence of datagrams from anyone, every failure of socket and disk, every local file system and path, all options", "why_tests_cant": "it ranges over everything an attacker may send and every failure, at every point of the run", "anchors": ["src/client/receiver.rs: receive_file", "src/client/sender.rs: send_file", "src/client/connection.rs: query_server", "std-binary/src/io.rs: create_writer, create_reader"]}
{"id": "C72", "title": "The commands move files from disk to disk", "statement": "`send` followed, at any later time, by `receive` of the same remote path (however spelled) on another machine: when both report success, the file at the receiver's local path equals the file at the sender's local path, and both report its size. While `receive` is under way its local file is a prefix of the server's file made of whole blocks (before an answer: untouched); when it fails, one of the two; when it succeeds, the whole file. While `send` is under way the file on the server is a prefix of the local file; when it succeeds, all of it. Losses, repetitions and reorderings of datagrams, other clients, restarts of the server in between and other programs on all machines may do anything but change the files concerned.", "quantifier": "every pair of files and paths, every negotiated option, network behaviour and interleaving, every behaviour of other clients and programs, both servers", "why_tests_cant": "it ranges over all schedules and losses of two transfers on three machines and everything in between", "anchors": ["src/client/receiver.rs: receive_file", "src/client/sender.rs: send_file", "src/server/single_thread.rs", "src/server/multi_thread.rs", "std-binary/src/io.rs"]}
{"id": "C73", "title": "Files encrypted before sending come back decrypted", "statement": "With `--encryption-key` the server is sent, and stores, the encryption of the sender's file only (what that looks like is C34); a later `receive` with the same key and the same effective block size that reports success has the original file at its local path, before that a prefix of it. Both report the size of the encrypted file.", "quantifier": "every file, key, random nonce, negotiated option, network behaviour, schedule and restart in between, both servers", "why_tests_cant": "it ranges over all contents, keys and schedules of two transfers", "anchors": ["std-binary/src/encryption_io.rs: create_encrypted_writer, create_encrypted_reader", "src/readers/encrypted_stream_reader.rs", "src/writers/encrypted_stream_writer.rs", "src/client/receiver.rs: receive_file", "src/client/sender.rs: send_file"]}
{"id": "C74", "title": "How long a command can last", "statement": "A `receive` whose socket regularly reports that nothing has arrived (at least every P milliseconds) is over, with or without success, after (3 + size limit / 471) times (request timeout + P), whatever anyone sends to it, however slowly; `send` and `receive` are over when nothing has come from the host they were given for longer than the request timeout + P, and get no further than waiting for the first answer for at most twice that. `send` has no total bound: a server that keeps acknowledging 'block 0' keeps it running for ever, at any options and any retransmission times.", "quantifier": "every sequence of datagrams from anyone at any times, every failure of socket and disk, every file system, all options", "why_tests_cant": "it bounds every execution of unbounded length, and exhibits executions without bound", "anchors": ["src/client/receiver.rs: receive_file", "src/client/sender.rs: send_file", "src/client/connection.rs: query_server, wait_for_initial_packet"]}
{"id": "C75", "title": "Encrypted transfers under attack", "statement": "When client and server have agreed on level 'protocol' or 'full', someone who sits on the line and hands either side anything under the other's address (bytes it made up, cut or changed packets, packets of either side again and in any order, a side's own packets back to it) cannot make a client report success with a wrong file or a server keep a wrong file: what is stored is always a prefix of the file in whole blocks or all of it, success on either side means all of it. This rests on the cipher (bytes that open hold a text sealed under that key in that session) and on replays being no more than 10000 blocks old in files of more than 55535 blocks: a datagram kept until its 16-bit block number comes round again is stored as the later block. Level 'data' gives no such protection: anyone can renumber data packets without the key, and acknowledgements are taken unauthenticated, so a client can report success with blocks exchanged and a sender report success when nothing was stored.", "quantifier": "every schedule of the server with its other clients, every sequence of attacker's datagrams, both servers, downloads and uploads, all options and keys", "why_tests_cant": "it is about every attack on every schedule", "anchors": ["src/client/encryption_socket.rs: recv_from, send_to", "src/server/connection.rs: send_bytes, recv", "src/encrypted_packet.rs", "src/client/receiver.rs: receive_file", "src/client/sender.rs: send_file"]}
{"id": "C76", "title": "Key files in the builds without the standard library", "statement": "With an allocator, key files are read exactly as with the standard library. Without one, a line of more than 140 bytes (newline included) is skipped, whatever it holds: nobody is let in whose key is not on a shorter line, the first 128 listed keys are let in and later ones are not, an over-long line that keeps the standard build from starting is passed over silently; and a server is remembered exactly if the endpoint text has at most 94 bytes: with a longer one the client never insists on a key, however often it has seen the server.", "quantifier": "every file content, every endpoint text, every key, every history of transfers", "why_tests_cant": "it ranges over all texts of a file and all histories", "anchors": ["src/std_compat.rs: Lines::next", "std-binary/src/std_compat.rs: BufReader::read_line", "src/key_management.rs: read_authorized_keys, get_from_known_hosts, append_to_known_hosts, AuthorizedKeys", "std-binary/src/encryption_io.rs: handle_hosts_file"]}
{"id": "C77", "title": "When nothing goes wrong the commands succeed", "statement": "If the server has granted the request, no datagram is lost, damaged, repeated or overtaken, both machines work and both programs get to run before a time limit passes, then neither side can fail: in whatever order their turns come, `receive` ends with the whole file at its local path and `send` ends with the whole file stored by the server, after at most 4 rounds per block plus 6, and 2 for each request that was repeated early (a round: the server and the command both get to run), and until then either side can always take its next turn. Whether the server answers from a port of its own or from the port the command was given, where repeated requests may reach the connection. For every agreed block size, window, encryption level and kind of reader; with the single threaded server while it serves this client alone, with the multi threaded one whatever other clients do.", "quantifier": "every file, every outcome of the negotiation, every order of turns of server and command, every behaviour of other clients (multi threaded server)", "why_tests_cant": "it ranges over all files, all negotiated options and all interleavings, and bounds the number of rounds", "anchors": ["src/server/single_thread.rs: server main loop", "src/server/multi_thread.rs: server, handle_client", "src/client/receiver.rs: receive_file", "src/client/sender.rs: send_file", "src/server/helpers/read.rs", "src/server/helpers/write.rs"]}
{"id": "C78", "title": "From two fitting command lines to the file", "statement": "If the command lines of server and client are accepted, their keys and levels fit together, the requested file can be opened by the server below its directory (receive) or the target can be created there (send) within the size limits, the server has a free place, then the request is granted, the client accepts the answer, and on an undisturbed network the command ends with the whole file at its destination, after at most 4 rounds per block plus 6 (2 more for every repeated request). Nothing is assumed about the outcome of the negotiation: block size, window, encryption are whatever the two command lines lead to. With no keys on either side (the default) the keys always fit.", "quantifier": "every pair of accepted command lines with fitting keys, every file system of either machine, every state of the server, every order of turns", "why_tests_cant": "the number of combinations of command line values, file systems and interleavings is unbounded", "anchors": ["std-binary/src/cli.rs", "std-binary/src/main.rs: main", "std-binary/src/receiver.rs", "std-binary/src/sender.rs", "std-binary/src/io.rs", "src/server/connection.rs", "src/server/extensions.rs", "src/client/connection.rs"]}
{"id": "C79", "title": "From two fitting command lines to the disks", "statement": "With fitting command lines (as in C78) and an undisturbed network: a receive command ends with exactly the contents that the requested file has on the server's disk in the local file; when a send command ends, the path it was given leads, on the server's disk below the served directory, to a file with exactly the contents of the local one. Meanwhile other programs may use both disks and (multi threaded server) other clients may be served and may create, overwrite and read other files; nobody else may change the one file (or, for send, move its name away).", "quantifier": "every pair of accepted command lines with fitting keys, every disk of either machine, every state of the server, every order of turns, every activity of other clients and programs that spares the file", "why_tests_cant": "the number of combinations of command line values, file systems, other clients and interleavings is unbounded", "anchors": ["std-binary/src/cli.rs", "std-binary/src/main.rs: main", "std-binary/src/receiver.rs", "std-binary/src/sender.rs", "std-binary/src/io.rs", "src/server/single_thread.rs", "src/server/multi_thread.rs", "src/writers/single_block_writer.rs"]}
{"id": "C80", "title": "What is stored with send can be fetched with receive", "statement": "With fitting command lines of the server and of two users and an undisturbed network: a file that one user sends can be fetched by anybody under the same path from the moment the send command has ended: the request of the receive command is granted, the command ends within a bounded number of rounds, with success, and its local file has exactly the contents of the file that was sent. In between the server may serve anybody, may be stopped and started again, and other programs may use the disk, as long as nobody changes that file or moves its name away.", "quantifier": "every triple of accepted command lines with fitting keys, every disk of the three machines, every state of the server, every order of turns, every history between the two commands that spares the file", "why_tests_cant": "the number of combinations of command line values, file systems, histories and interleavings is unbounded", "anchors": ["std-binary/src/cli.rs", "std-binary/src/main.rs: main", "std-binary/src/receiver.rs: start_receive", "std-binary/src/sender.rs: start_send", "std-binary/src/io.rs", "src/server/single_thread.rs", "src/server/multi_thread.rs"]}
{"id": "C81", "title": "A file sent with an encryption key is fetched back with it, and only sealed without it", "statement": "With fitting command lines and an undisturbed network: the send command given a file encryption key ends with success within a bounded number of rounds, and the file then on the server's disk is the local file sealed with that key in blocks of the agreed size (21 bytes of parameters, then 16 bytes more per block). Whoever fetches it with the receive command and the same key, and agrees on the same block size, gets exactly the original file; whoever fetches it without the key gets the sealed file. In between the server may be restarted and serve others, as long as nobody changes the file.", "quantifier": "every key, nonce, file, block size and pair of accepted command lines, every disk and server state, every order of turns, every history in between that spares the file", "why_tests_cant": "the number of combinations of files, keys, block sizes, command lines, histories and interleavings is unbounded", "anchors": ["src/readers/encrypted_stream_reader.rs: StreamReader", "src/writers/encrypted_stream_writer.rs: StreamWriter", "std-binary/src/encryption_io.rs", "std-binary/src/sender.rs: start_send", "std-binary/src/receiver.rs: start_receive", "src/encryption.rs", "src/server/single_thread.rs", "src/server/multi_thread.rs"]}
{"id": "C82", "title": "A file closed in a synchronised directory arrives on the server under its name", "statement": "While `sync` watches a directory (without start-on-create), every file closed after writing gets an upload of its own, whatever was reported before and after. With fitting command lines, an undisturbed network and a working disk this upload ends with success within a bounded number of rounds, the server then has, under the path of the file below the watched directory, exactly the contents of the local file, and from then on anybody with a fitting command line fetches exactly these contents under this path, even after restarts and other work of the server, as long as nobody changes the file.", "quantifier": "every watched directory, every sequence of reported events, every file and path below the directory without dotted components, every pair of accepted command lines, every disk and server state, every order of turns, every later history that spares the file", "why_tests_cant": "the number of event sequences, names, files, command lines, histories and interleavings is unbounded", "anchors": ["std-binary/src/sync.rs: start_sync, get_paths", "std-binary/src/sender.rs: start_send", "std-binary/src/receiver.rs: start_receive", "src/server/single_thread.rs", "src/server/multi_thread.rs", "std-binary/src/server.rs: create_reader, create_writer"]}
{"id": "C83", "title": "Directory listings reach the client, and what they name can be fetched", "statement": "When the server was started with a name for directory listings, `receive` with the path of that entry in a directory below the served one ends (with fitting command lines and an undisturbed network) with success within a bounded number of rounds, and the local file then contains the listing of that directory as it was when the request was taken, one line per entry, directories marked - even if files are created, removed or changed meanwhile. A readable file in the directory has a line in the listing with its path below the served directory, and whoever fetches that path gets exactly that file.", "quantifier": "every directory tree without restriction on size, every listing name and directory below the served one, every pair of accepted command lines, every server state, every order of turns and every change of the files during the transfer", "why_tests_cant": "the number of trees, names, command lines, server states, interleavings and concurrent changes is unbounded", "anchors": ["std-binary/src/io.rs: create_server_reader, list_directory", "std-binary/src/cli.rs: ServerCliConfig", "std-binary/src/receiver.rs: start_receive", "src/server/single_thread.rs", "src/server/multi_thread.rs"]}
{"id": "C84", "title": "Clients that speak only RFC 1350 are served", "statement": "A client written by somebody else that knows nothing but RFC 1350 - octet mode, no options, blocks of 512 bytes, one at a time - can use the server. A server that demands neither keys nor encryption takes its request if the file can be opened and answers a read request with the first block and a write request with the acknowledgement of block 0, in clear. During a download what the client has stored is always the first blocks of the file, and when the short block has come it is the whole file; during an upload what the server has stored is always the first blocks of the client's file, and when the client has the acknowledgement of the last block it is the whole file. The server regards either transfer as finished only when the file is complete on the other side.", "quantifier": "every file of any size, every file name of at most 500 bytes, every reachable server state and what other clients do, both servers, and every loss, repetition, delay and reordering of datagrams (a datagram is not delayed by more than about 55000 blocks) including clients that acknowledge or send again at any time", "why_tests_cant": "the number of files, server states, interleavings and network behaviours is unbounded", "anchors": ["src/server/helpers/connection.rs: accept_connection", "src/server/single_thread.rs", "src/server/multi_thread.rs", "src/readers/single_block_reader.rs", "src/writers/single_block_writer.rs", "src/packet.rs"]}
{"id": "C85", "title": "Clients that speak only RFC 1350 complete their transfers while nothing goes wrong", "statement": "A client that knows nothing but RFC 1350 - octet mode, no options, blocks of 512 bytes, one at a time, and no timer - whose request the server has granted completes its transfer if no datagram is lost, damaged, repeated or overtaken, the server's machine works and the server gets to run before one of its time limits passes: a client that fetches a file ends up with the whole file, a client that stores a file within the server's limit has all of it acknowledged, and the server then holds exactly that file. That takes at most four rounds of turns per block plus one more, whatever the order of the turns, and neither side gets stuck on the way. The server keeps its own side of the protocol: it needs no acknowledgement, retransmission or option that RFC 1350 does not promise.", "quantifier": "every file of any size (also empty and also an exact number of blocks), every file name of at most 500 bytes, every order of the turns of the client and the server, every time at which turns are taken within the limits; the single threaded server without other clients, the multi threaded server in every reachable state and whatever other clients do", "why_tests_cant": "the number of files, turn orders, server states and clock readings is unbounded", "anchors": ["src/server/helpers/connection.rs: accept_connection", "src/server/single_thread.rs", "src/server/multi_thread.rs", "src/readers/single_block_reader.rs", "src/writers/single_block_writer.rs", "src/server/connection.rs", "src/packet.rs"]}
{"id": "C86", "title": "Clients that speak only RFC 1350 fetch from and store on the server's disk", "statement": "A server started without a key list and without required encryption takes the requests of a client that knows nothing but RFC 1350: for a file below its directory that it may read it sends no option acknowledgement but begins with the first block, and for a name it may create it acknowledges block 0. While no datagram is lost, damaged, repeated or overtaken and the server gets to run in time, the client that fetches ends with exactly the bytes that are in the file the name leads to below the served directory, and when the client that stores a file within the size limit has seen its last acknowledgement, the requested name leads on the server's disk to a file with exactly these bytes. That takes at most four rounds of turns per block plus one more, whatever else happens to other files of the server's machine in between.", "quantifier": "every accepted command line of the server without a key list and without required encryption, every state of the server's disk, every file (any size for fetching, up to the size limit for storing) and name of at most 500 bytes, every order of turns and every other activity on the machine that leaves this file (and, for storing, where its name leads) alone; single threaded server without other clients, multi threaded server in every reachable state with free room", "why_tests_cant": "disks, files, server states, turn orders and activities of other programs and clients are unbounded", "anchors": ["std-binary/src/io.rs: create_server_reader, create_server_writer", "std-binary/src/config.rs: ServerCliConfig::try_into", "src/server/connection_builder.rs", "src/server/single_thread.rs", "src/server/multi_thread.rs", "src/server/helpers/connection.rs: accept_connection"]}
{"id": "C87", "title": "What a lost datagram costs clients that speak only RFC 1350", "statement": "A client that knows nothing but RFC 1350 and fetches a file never gets stuck through a loss: in every situation the connection, until it is over, retransmits whenever its interval is over one block, which is either the one the client waits for, so that the client that gets it stores it and goes on, or the last one the client has stored, and then the client's acknowledgement of it, once it arrives, makes the server go on to the next block or finish. The single threaded server leaves such a retransmission out for at most as many turns as it has connections sending. A client that stores a file within the size limit does not get stuck after the first block either: whenever the block it is sending arrives, for the first time or again, the server has stored the file up to the end of that block and answers with the acknowledgement on which the client goes on; the last block finishes the transfer. But the acknowledgement of the request itself is sent only once: if it is lost, the client's repeated requests are neither answered nor change anything while the server has the connection, so the client has to wait until the server's time limit has passed.", "quantifier": "every reachable state of either server, every file, every sequence of losses, repetitions, delays and reorderings (within half of the block numbers), every activity of other clients", "why_tests_cant": "the situations in which a datagram can be lost are unbounded: every block of every file, after every earlier history of losses and repetitions", "anchors": ["src/server/helpers/read.rs", "src/server/helpers/write.rs", "src/server/single_thread.rs", "src/server/multi_thread.rs", "src/server/helpers/connection.rs: accept_connection, timeout_client"]}
