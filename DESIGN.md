# Formal model of songokas/tftp in Rocq (Coq 8.16.1)

The code under /repo is only read, never run. Everything is modelled by hand,
function by function, as total computable Gallina functions; every definition
cites the file and lines it models, and simplifications are recorded in the comment.

## Layout of rocq/theories

| file group | what |
|---|---|
| `Base.v`, `BaseProofs.v` | bytes, slices, big-endian, decimal, UTF-8 |
| `*Model.v` | executable model of the code, no proofs |
| `*Spec.v`  | small independent specifications used in statements |
| `*Proofs.v`, `*Lemmas.v` | lemmas |
| `Prop*.v`  | the property theorems, concrete cases (`Example`) that meet their hypotheses, `Print Assumptions` |
| `*Cases.v` | concrete runs used as non-vacuity examples |

| model | code |
|---|---|
| `PacketModel.v` | src/packet.rs, the copying of src/buffer.rs, `prepend_data_header` |
| `MapperModel.v` | src/block_mapper.rs |
| `ReaderModel.v` | src/readers/{single_block_reader,multiple_block_reader,multiple_block_seek_reader}.rs, src/writers/single_block_writer.rs |
| `StreamModel.v` | src/readers/encrypted_stream_reader.rs, src/writers/encrypted_stream_writer.rs, stream part of src/encryption.rs |
| `ConfigModel.v` | src/config.rs, levels of src/encryption.rs |
| `Base64Model.v` | text form of keys and signatures in src/encryption.rs |
| `CryptoModel.v` | src/encryption.rs (padding, Encryptor), src/encrypted_packet.rs, sealing in src/client/encryption_socket.rs and src/server/connection.rs |
| `ExtModel.v` | src/server/extensions.rs, src/client/extensions.rs |
| `HandshakeModel.v` | src/server/connection_builder.rs, src/server/helpers/connection.rs, accept bodies of both servers, src/client/encryption_socket_builder.rs, src/client/connection.rs |
| `ClientWaitModel.v` | the waiting loop of src/client/connection.rs |
| `PathModel.v` | src/server/validation.rs, `ensure_size` of src/lib.rs, `validate_path` of std-binary/src/io.rs |
| `ConnModel.v` | src/server/connection.rs, src/server/helpers/{read,write,connection}.rs |
| `ClientModel.v` | the loops of src/client/{receiver,sender}.rs |
| `FlowModel.v` | src/flow_control.rs and its use in src/client/sender.rs |
| `CliModel.v` | std-binary/src/cli.rs, config.rs, the start of sender.rs and receiver.rs, encryption_io.rs 57-80 |
| `SyncModel.v` | std-binary/src/sync.rs |
| `StackModel.v` | src/readers/pool_reader.rs, src/server/readers_available.rs 21-33, the single threaded server without the feature alloc, src/readers/multiple_block_reader.rs with fixed buffers |
| `DiskModel.v` | both servers on one file system: openings, reads and writes of all connections, other programs |
| `PollModel.v` | the single threaded server with the poller of its sockets (epoll, one-shot) |
| `StoreSpec.v` | where paths lead, upload and later download on one disk, restarts (specification only) |
| `RunModel.v` | `receive_file` and `send_file` as a whole (start, wait for the answer, transfer) on the client's file system and with addresses; `create_writer`, `create_reader`, `create_encrypted_*` | 
| `SmoothModel.v` (spec: `SmoothSpec.v`) | the turns of either server and of the commands with an undisturbed network between them (no code of its own) |
| (spec: `WholeSpec.v`) | from the command lines to the file (no code of its own) |
| `ArriveModel.v` (spec: `ArriveSpec.v`) | the turns of `SmoothModel.v` on the disk of `DiskModel.v` (composition, no code of its own except the thread's turn) |
| (spec: `FetchSpec.v`) | C80, no new code |
| (spec: `SealSpec.v`, `SealedSpec.v`) | C81, no new code |
| `MirrorModel.v` | std-binary/src/sync.rs 114-126: what a synchronised file's upload is started with (C82) |
| (spec: `RfcSpec.v`) | C84, no new code: third-party clients, described from RFC 1350 |
| (spec: `RfcSmoothSpec.v`) | C85, no new code: those clients taking turns with the server of `SmoothModel.v` |
| (spec: `RfcDiskSpec.v`) | C86, no new code: those clients with the disk of `DiskModel.v` and `ArriveModel.v` |
| (spec: `RfcLossSpec.v`) | C87, no new code: those clients when datagrams are lost |
| `RunSpec.v` | worlds of whole client runs (specification only) |
| `ProgressModel.v` | the worlds of WorldModel with exchanges counted |
| `SystemModel.v`, `LiveModel.v` | one client, one connection, an unreliable network; fault-free rounds |
| `ServerModel.v` | src/server/{single_thread,multi_thread,wait_control,readers_available}.rs |
| `WorldModel.v` | one client, a whole server with other clients, the network and the encryption between them (src/server/{single_thread,multi_thread}.rs, src/client/{receiver,sender}.rs) |
| `AttackModel.v` | the worlds of WorldModel with an attacker that hands either side any bytes |
| `MapModel.v` | src/map.rs |
| `KeyFileModel.v` | src/key_management.rs, its use in std-binary/src/{config,encryption_io}.rs |
| `StackKeyModel.v` | src/std_compat.rs Lines, std-binary/src/std_compat.rs read_line, the bounded containers of src/key_management.rs |
| `BlockingModel.v` | std-binary/src/blocking_reader.rs with the writer and the flag of std-binary/src/sync.rs |
| `FsModel.v`, `FsServerModel.v` | `create_server_reader`, `create_server_writer`, `list_directory` of std-binary/src/io.rs on a POSIX-like file system; the first datagram of a client with its effect on the files |

## Modelling conventions

* u8/u16/u64/usize are `N`; wrap-around, saturation and overflow panics are written
  explicitly where the code can reach them. Lengths used with lists are `nat`.
* `&mut` becomes returning the new value; `Result`/`Option` stay data; panics
  are an explicit constructor (`Panic`, `SPanic`, ...).
* Byte strings are `list N`; "every byte" is the predicate `Forall (< 256)`.
* `BTreeMap<Extension,_>` is a sorted association list; `BTreeMap<SocketAddr,_>` a list
  sorted by address, addresses being numbers.
* Cryptographic primitives (X25519, Ed25519, XChaCha20-Poly1305) are the fields of the record
  `crypto`, an explicit argument; the laws needed (decryption inverts encryption, the shared
  secret is symmetric, tag length, ...) are the predicate `crypto_ok`, an explicit hypothesis
  of the theorems that need it. A concrete toy instance in the examples satisfies it.
* Randomness (nonces, ephemeral keys) is an explicit argument, universally quantified.
* Time is an input of each step; sockets and devices are inputs as well: each call may fail.
* The network is an adversary that may deliver any datagram ever sent, at any time, any number of
  times. A delivered datagram carries a ghost mark (the true block index) that the programs never
  see; it is only used to say how old a delivered datagram may be, because 16 bit block numbers
  cannot be told apart beyond that age (C05 shows that the bound is tight).

## Per property: what is modelled and how it is proved

* **C01 Packet encode/decode round trip** (PropPacket.v): encoder and decoder as functions on byte lists; induction over the option list and strings. Round trip for every transportable packet; the option-less option ack is the one exception, and its encoding is shown to be rejected.
* **C02 Decoding is total and only produces well-formed packets** (PropPacket.v, PropUtf8.v): decoder as a function with an explicit panic value; UTF-8 validity characterised by the encoding of Unicode scalar values.
* **C03 In-place encoding agrees with the allocating encoder** (PropPacket.v): buffer writes as list updates; equality with the allocating encoder for every buffer content and size.
* **C04 Option parsing semantics** (PropPacket.v): option area as name/value pairs; iff between the bytes and the decoded map by induction. Exact characterisation (iff) of what the option area decodes to.
* **C05 Block number wrap-around is resolved to the true block index** (PropMapper.v): mapper with ghost true indices, invariant over histories; witness for tightness.
* **C06 A stray high block number desynchronises a transfer** (PropMapper.v): explicit history, general in the file and the stray number.
* **C07 Single block reader serves the file block by block** (PropReader.v): simulation between the reader and ReaderSpec (file split into blocks, confirmed prefix). Refinement of the sliding window specification (ReaderSpec.v) over all call histories.
* **C08 Windowed buffering reader serves the file block by block** (PropReader.v): same specification, simulation relation over the buffer deque.
* **C09 Seeking reader serves the file block by block** (PropReader.v): same specification, simulation relation over seek positions. Holds while no ack is handed in after finishing; a counterexample shows the condition is needed.
* **C10 Windowed readers hold at most the configured number of unacknowledged blocks** (PropReader.v): invariant of the simulation; buffers counted as allocated.
* **C11 Acknowledged byte counts add up to the file size** (PropReader.v): sum of returned sizes over call histories, from the simulation.
* **C12 The buffering and the seeking reader are interchangeable** (PropReader.v): both refine the same specification, so runs agree.
* **C13 Block writer writes each block exactly once and in order** (PropWriter.v): invariant over all arrival sequences against a specification that only counts accepted blocks.
* **C14 Download over an unreliable network never corrupts the file** (PropTransfer.v): product of server connection, client loop and adversarial network; inductive invariant (Core) over all interleavings. All interleavings of the two programs over a network that loses, duplicates, delays, reorders; file or socket failures at any call.
* **C15 Upload over an unreliable network never corrupts the file** (PropTransfer.v): the same product with the roles exchanged. Also: when the server regards the upload as finished it has the whole file.
* **C16 A transfer can always still complete** (PropProgress.v, PropTransfer.v): from each invariant state a fault-free round is constructed; a measure decreases. The example upload_final_ack_lost shows the known limit: once the server has finished, a lost last ack makes the client fail.
* **C17 Requested names are confined to relative, dot-free paths** (PropPath.v): name validation on strings; components by an independent split; induction.
* **C18 Name normalisation is stable** (PropPath.v): as C17.
* **C19 Negotiated options stay within the server's limits** (PropExt.v): negotiation functions on option maps; case analysis over all options.
* **C20 The client never accepts more than it asked for** (PropHandshake.v): client side of the negotiation; case analysis.
* **C21 Client and server agree on the transfer parameters** (PropAgree.v): composition of client request, server accept, reply, client accept with explicit crypto laws. Session keys are part of the agreement; hypotheses say what 'built by the client' and 'received whole' mean.
* **C22 Only authorised keys obtain a session when an authorised key list is configured** (PropHandshake.v, PropRefusal.v): server accept function; accepted implies key and signature; refusal leaves no effect.
* **C23 Server encryption requirement** (PropHandshake.v): server accept function. full_lowered_case shows that the accepted session may still be lowered.
* **C24 What becomes of a demand for encryption** (PropHandshake.v): client accept functions at each level. Describes a defect as well: the old protocol's answers remove all encryption.
* **C25 Option fallback keeps requested window** (PropHandshake.v): client accept functions.
* **C26 Transfer size limits** (PropConn.v): history invariants of the receiving loops. size_overrun shows that the overrun by one block really happens; upload_above_limit_completes that the single threaded server may store more.
* **C27 A reported successful download is complete** (PropConn.v, PropTransfer.v): model of the start of the receiver; refutation and guarded theorem. The property describes a defect: success is reported after the first full block if the server answers with data directly; the option-ack path is C14.
* **C28 Retransmission back-off** (PropConn.v): history invariant on the multiplier; per-step rules.
* **C29 Idle connections are dropped, live ones are not** (PropConn.v, PropFair.v, PropLife.v): exact conditions (iff) for removal; exact content of a clean-up pass.
* **C30 Connection limit and one connection per peer address** (PropServer.v): invariant over all runs of both server models; exact condition of admission.
* **C31 Bit padding is reversible and hides the length** (PropCrypto.v, PropRefusal.v): padding functions; exact characterisation of refusal.
* **C32 Encrypted packets round trip and stay within the negotiated datagram size** (PropCrypto.v): sealing functions over the abstract primitives; round trips in both directions, sizes. Cryptographic primitives are arguments with algebraic laws as explicit hypotheses.
* **C33 Decrypting attacker bytes** (PropCrypto.v): iff characterisation of panicking inputs; accepted plaintext is the opening of a sealed text.
* **C34 Client-side file encryption is transparent** (PropStream.v): stream reader and writer over the abstract AEAD; induction over blocks; composition with C14/C15. The STREAM construction is modelled on top of the abstract AEAD.
* **C35 Key store lookups** (PropKeyFile.v): line splitting and key files as byte lists; specification by lines.
* **C36 Error message truncation can panic** (PropPath.v): iff characterisation of panics; specification of the reported text.
* **C37 Bounded array map behaves as a map** (PropMap.v): refinement to a partial function with a count. For any key type with an equality test, refinement of a partial function with a count.
* **C38 Following a growing file** (PropBlocking.v): interleaving model with append, finish, read, check and seek as separate steps; invariant.
* **C39 Directory depth limit** (PropFsServer.v, PropPath.v): counting separators; iff.
* **C40 Packet buffers are always large enough** (PropAgree.v): sizes over all accepted negotiations.
* **C41 No client is starved by the single threaded server** (PropFair.v): cursor of the single-threaded server over runs; bounds by induction on the number of turns. fairness_bound_reached: the bound is tight; newcomers_delay_others: the clients must stay the same.
* **C42 The wait for the first answer** (PropWait.v): fold over arriving datagrams; non-interference of strangers; bounds.
* **C43 Encryption level names** (PropExt.v): finite case analysis lifted to all strings.
* **C44 Window acknowledgement policy** (PropConn.v): history invariants of both receiving sides.
* **C45 Wire format is the RFC 1350/2347 layout** (PropPacket.v): independent description of RFC packets (PacketSpec).
* **C46 Datagrams of strangers** (PropConn.v): step functions; for every state and datagram.
* **C47 Partial writes end a transfer early** (PropConn.v): step functions with a short write. Describes a defect.
* **C48 Fixed-capacity names may lose their last character** (PropPath.v): bounded strings as in heapless; comparison with the unbounded function.
* **C49 Textual form of keys and signatures** (PropCrypto.v): base64 engine; exact acceptance.
* **C50 A known server key is checked** (PropHandshake.v, PropRefusal.v): client accept function with the session key of the request.
* **C51 Compatible client and server complete the first exchange** (PropAgree.v): constructive: all hypotheses spelled out, the exchange completes.
* **C52 Trust on first use** (PropKeyFile.v): histories of transfers on the known-hosts file.
* **C53 Clients of one server do not disturb each other** (PropServer.v): projection of server turns on one address; unaffected by the rest. bad_datagram_stops_single_thread: except that a panic caused by one client stops the single threaded server.
* **C54 Waiting and socket identifiers of the single threaded server** (PropFair.v): invariants over runs of the single-threaded server.
* **C55 Files arrive complete through busy, encrypted servers** (PropServes.v, PropWorld.v): whole servers (ServerModel) with one observed client, its socket and the network; simulation into the two-party system of C13/C14 through the projection of C53 and the agreement of C32. Safety of the composed system; non-vacuity by executed runs in WorldCases.v.
* **C56 When a running client transfer ends without success** (PropGiveUp.v): histories of a client transfer (steps of recv_step/sender_send/sender_recv with the times at which they happen); induction keeps the time of the last progress equal to the one the history shows.
* **C57 Downloads come from inside the served directory** (PropFs.v, PropFsServer.v, PropServes.v): a POSIX-like file system (places, links, path resolution, realpath, open, mkdir) as the environment, std::path, and the two functions of io.rs on top of it; invariants: resolved places are canonical, so resolving them again changes nothing. Examples empty_directory, empty_list_name: corner cases of the configuration.
* **C58 Uploads are stored inside the served directory and harm nothing else** (PropFs.v, PropFsServer.v): the same model; the file system only grows (relation grows, preserved by mkdir, create_dir_all and open), and without links every step of a clean path stays below the directory; composed with the handshake model into file_server. Example link_outside: with a link in the served directory that leads out of it a refused upload leaves an empty file outside. The file system does not change between the steps of one request (other programs are not modelled).
* **C59 What refused peers are told** (PropRefusal.v): case analysis of server_new over every refusal; the error packets are characterised by an inductive specification. The complaints about file size and name are sent in clear even if the request was sealed and error_to_authorized_only is set (example refused_cases); with a key list only authorised peers get that far.
* **C60 When uploads send again** (PropFlow.v, PropFlowLoss.v): the rate control is computed with the f32 of SpecFloat; an invariant (estimate finite and at most M, rate at least one 64th of a block per second) is carried through every operation with Flocq; silence is bounded by following the 200 ms statistics periods. f32 is the bit-precise IEEE binary32 of Coq's SpecFloat; the proofs go through Flocq and the standard library's axioms of real numbers. M ranges over 2^(j-9) seconds, j <= 33. The clock is read once per half turn. loop_send_is_send and loop_recv_is_recv identify the loop with the sender of the transfer theorems. Examples: the expectations of the unit tests of flow_control.rs, a 128 s interval after a lossy period, a bogus sample from an acknowledgement of block number 0, the panic after 4 GiB in debug builds.
* **C61 Private keys on the command line** (PropCli.v): read_private_value_or_file on top of the base64 engine of C49; the surroundings (files) are a function chosen freely. Examples show /etc/key taken for a key.
* **C62 Server start-up** (PropCli.v): the records clap hands over are mapped to the configurations of the handshake and file models; authorisation theorems of C22 lifted. clap's syntax is not modelled: a record of arguments is what it hands over.
* **C63 Client start-up** (PropCli.v): the same for the client; the conditions of C51 are derived from the two command lines.
* **C64 Names that are not given** (PropCli.v): std::path components of PathModel; the name is characterised by a decomposition of the text.
* **C65 Directory synchronisation** (PropSync.v): the event loop as a fold over events with a list of uploads, flags and the pending map; histories are split at the event that created a file. Names that are not valid UTF-8 are excluded (their text is changed before the file is opened). Together with C38 for the reader and C64 names_given for the upload itself.
* **C66 Pooled readers of the build without alloc** (PropStack.v): simulation: the pooled server against the table of clients that own their readers (relation through the handles; invariant: the handles are distinct and exactly the keys of the pools); C53 is then reused. heapless maps are modelled from their documentation (source not in the repository). pooled_readers_isolated for a limit of at most 128 connections (what the command line allows); beyond_table_dropped says what happens above. The overrun of the sixteen buffers with larger windows: stack_buffers_overrun.
* **C67 Files shared by transfers** (PropDisk.v): both servers run on the file system of C57/C58 (files opened by requests, read and written by connections); the readers see the current contents, the invariant ties what a connection has stored to the file; the transfer theorems of C55 are then reused. One file system (FsModel) under either server; every handle has its own position, as std::fs::File. Openings, reads and writes are atomic with respect to the phase of the server they happen in. Hypotheses met in DiskCases (shared_download_case, shared_upload_case, same_uploads_case); uploads_mix and shortened_file show what goes wrong without them.
* **C68 No lost wake-ups** (PropPoll.v): the poller (watched sockets, ready list, set of known readable ids, queues of the sockets) next to the server loop of C41; invariant over all reachable states; a decreasing measure for the bound. The system's part is epoll with one-shot notification as the crate polling uses it (FIFO ready list, a wait takes at most as many as fit into the event list). Failures of add_interest and modify_interest, which the code only logs, are not modelled (such a connection would be deaf). Hypotheses met in PollCases (heard_in_time_case, wake_up_case); stale_ids_are_kept: the set of readable ids never forgets removed connections.
* **C69 Progress of transfers on a busy server** (PropProgress.v): the worlds of C55 with exchanges counted; the count is bounded by blocks written plus blocks confirmed, monotone by the invariant of C10 to C16 through the simulation of C55; the fairness of sending by the measure of C41. The worlds of C55 (dexchanges and uexchanges of ProgressModel contain any steps of these worlds and count exchanges). For an upload the client's resending of the oldest block is C16 and C40. The window must not exceed 10000 or the file 55535 blocks (the block number mapper). Cases in ProgressCases: complete runs with the maximal 2n - 1 exchanges on both servers in both directions, a connection passed over once with two downloads.
* **C70 What one client stored another one gets back** (PropStore.v): composition of the upload and download theorems of C67 with the file system of C57/C58: an accepted upload leaves the path leading to the file, no step of the server changes where a path leads; without overwriting, no later connection opens the file for writing, so its contents stay. On the disk of C67. The file system keeps what was written to it through a restart (no write cache). The window must not exceed 10000 or the file 55535 blocks (the block number mapper). A name configured as that of the directory listing is excluded. Case in StoreCases: upload, restart, refused upload of the same name, download under another spelling of the path. With an encryption key the uploaded bytes are the encrypted stream, which C34 turns back into the file.
* **C71 What the commands do to the machine they run on, and whom they talk to** (PropLocal.v): receive_file and send_file as turn functions on a file system and with addresses (RunModel); invariants over arbitrary sequences of turns: only the local file differs, all packets go to the host, the counted bytes are the length of the file. On RunModel, the two client functions as a whole with the client's file system. That send changes no file is by construction of the model (send_turn only reads). An answer that already contains data (a server without options, C25/C27) is outside receive_reports_size: the code then reports 4 bytes too many. Nothing is assumed about packets, the server or the order of events.
* **C72 The commands move files from disk to disk** (PropRun.v): the worlds of C55 with whole client runs in the place of the clients' loops; a run that has accepted the answer simulates the client of StoreSpec, so that the theorems of C70 apply; then sent_file and received_file are composed over the time in between. Composition of C70 with the client runs of RunModel. The wait for the answer is ended by the server's one answer (agrees: it is accepted and confirmed); how the request and the answer can get lost or be attacked is C42, C46, C51. The window must not exceed 10000 or the file 55535 blocks. Case in RunCases: send of a file of 600 bytes, restart, receive under another spelling over an older local file. The server may answer from a port of its own or (the default) from the one the command was given; then requests the command repeats may reach the new connection, which is assumed to leave them aside (proved by repeated_request_ignored unless whole packets are encrypted).
* **C73 Files encrypted before sending come back decrypted** (PropRun.v): as C72, with the encrypting reader and the decrypting writer of C34 between the loops and the local files; determinism of the stream turns its theorem about whole files into one about the prefixes that a run has written. The block size must be the same for both commands (C34 shows what happens otherwise). With prefer-seek the model has the failure at the first retransmission that encrypted_stream_reader.rs 90-95 causes. Same case as C72 with a key.
* **C74 How long a command can last** (PropEnd.v): the runs of RunModel with a clock; invariant: the last time without a datagram is at most the timeout after the instant the loop counts from, which moves only when the answer is accepted, a request is repeated without options (once) or a new block is stored; blocks are counted by the size limit. For send: the invariant without the count, and for the contrast the simulation of the readers (C01) with nothing confirmed. On RunModel. Time is the time at which a turn looks at its clock; that a flood of datagrams does not keep the socket from ever reporting WouldBlock is an assumption (woken): the code looks at its timeout only then. 471 is the smallest number of bytes in a block that is not the last one (512 less the encryption overhead). The last theorem is about a send of an unencrypted local file.
* **C75 Encrypted transfers under attack** (PropAttack.v): AttackModel: the steps of WorldModel plus the delivery of arbitrary bytes to either side, classified by what they open to. Everything a side seals itself is of a kind it ignores (a receiver seals acknowledgements and errors, a sender data and errors), so reflected packets do nothing; bytes that open to the plaintext of the other side act as that datagram does; bytes that do not open end the client (without success) or are ignored. Each attacked step is thereby a step of the honest world with the attacker's datagrams as stale leftovers, and the theorems of C58 carry over. The replay across the wrap of block numbers is constructed from a run of C16 with 65536 blocks stored. AttackModel extends the worlds of WorldModel by the attacker's deliveries; the strength of the cipher is the definition `origin` (an idealised AEAD: an opened plaintext was sealed in the session), not an axiom. The attacker joins after the handshake (the handshake's own guarantees are C31, C34, C35); what is left over from it must not open to data or acknowledgements on either side. Concrete attacked runs: AttackCases.v.
* **C76 Key files in the builds without the standard library** (PropStackKey.v): StackKeyModel: raw lines with their newlines, the capacity test, then src/std_compat.rs's chomping, in front of the decoding and lookup of KeyFileModel; a declarative description of the lines read (as for C35) and its equivalence; the appended entry is split into pieces and looked up by C35's lemmas. The heapless string and vector are modelled by their capacities (push_str and push refuse what does not fit). Reading errors of the disk are outside (a line with an error is skipped; C35).
* **C77 When nothing goes wrong the commands succeed** (PropRun.v, PropSmooth.v): SmoothModel: server and command with two queues between them, turns of the models of ServerModel and RunModel in any order; an invariant that refines the core invariant of the transfer by "in order, nothing lost" and a measure that decreases with each round; the able-ness of either side by the same invariant; single and multi threaded server through a common interface (SmoothC.regular). If the server answers from the port the command was given (the default of both programs), a repeated request may reach the connection, and is assumed to be left aside; this is repeated_request_ignored unless whole packets are encrypted, and then it means that the request does not authenticate under the session key. The request has been granted (what is granted: C12, C21, C51) and at most 55535 blocks or a window of at most 10000 (C03). Files encrypted by the client itself (--encryption-key) are outside this property (C73). What the server stores is the record of its writes (WorldModel.keep); that these end up in the file is C70 and C72.
* **C78 From two fitting command lines to the file** (PropWhole.v): no new model: the two accepted records of arguments are followed through client_begin/server_config, the request, FsServerModel.open_request and the server turn; the conditions of C51 and C77 are derived from them. Composition of C62/C63 (command lines), C57/C58 (files), C51 (handshake) and C77 (transfer). Uploads that are answered with a plain acknowledgement (empty file, no options) are included. The datagram of the request reaches the server unshortened and (if in the clear) is not by accident a sealed packet (proved when no keys are given). Repeated requests from the same port are left aside as in C77. Encrypted local files (--encryption-key) are C73. Cases in WholeCases: default command lines, receive and send; an empty file sent without any option.
* **C79 From two fitting command lines to the disks** (PropArrive.v): ArriveModel: the turns of C77 on the disk of DiskModel, with anything else that happens on the machine in between; an invariant ties the connection of the client to its open file and the record of writes to the contents of that file, so that the generic round count of C77 applies. C78 with DiskModel in the place of each connection's own file contents. A turn of the server reads the files once at its beginning and writes at its end; other programs act between turns. The single threaded server has no other clients during the transfer. Encrypted local files (--encryption-key) are C73. Cases in ArriveCases: default command lines, receive and send, something happening meanwhile.
* **C80 What is stored with send can be fetched with receive** (PropFetch.v): FetchSpec: the statement of C79 about receive as a predicate of the later disk; it holds of every later disk on which the path still leads to the file that send has stored (C79, C70). Composition of C79 for send, C70's notion of a later state, and C79 for receive. That the server may still open the file (permissions, name inside the served directory) is assumed of the later state; a name of the directory listing is excluded. Case in FetchCases: default command lines; the file is sent, the server is started again, another user fetches it.
* **C81 A file sent with an encryption key is fetched back with it, and only sealed without it** (PropSealed.v): SealSpec, SealedSpec: the steps of C77-C79 carry, instead of the file itself, what the encrypting reader makes of it, and the writer state that the decrypting writer has after the blocks stored so far; at the end C34 gives the original file. Composition of C34 (the encrypting reader and the decrypting writer), C79 and C70's notion of a later state. The file must have at most 455*(2^32-1) - 21 bytes (the block counter of the stream cipher), and the two transfers must agree on the same block size: with different ones the stored file does not decrypt. A sender that prefers seeking is included, because nothing is retransmitted. Case in SealedCases: the file is sent with a key, the server is started again, another user fetches it with the key and has the file back.
* **C82 A file closed in a synchronised directory arrives on the server under its name** (PropMirror.v): MirrorModel: the arguments sync gives to start_send. The upload a closed file gets is found by its position among the uploads (append only), its remote name is shown to be left alone by the server (normalize), then C79 and C80. Composition of C65 (the uploads sync starts and their names), C79 and C80. With start-on-create the upload begins before the file is complete (C65, C38); this mode is not composed here. Paths with components made of dots or white space are excluded (the server changes them, C36), as is the name of the listing. The case in MirrorCases: a directory with an earlier and a later event, the file new/g is closed and arrives on the server.
* **C83 Directory listings reach the client, and what they name can be fetched** (PropListing.v): PropListing: the steps of C79 for a connection that reads a text made at the request instead of a file: nothing on the disk matters to it afterwards. C57 says which text, and that the files named in it are served. Composition of C57 (what a listing is and which files are served) with C77-C79. No condition on what happens to the files while the listing is transferred: it is made when the request is taken. Listed names with components made of dots or white space, not in UTF-8, deeper than the depth limit, or equal to the listing name are listed but not served under their line; they are excluded from the last part. The case in ListingCases: a directory with a file and a sub-directory is listed, and the file can be fetched.
* **C84 Clients that speak only RFC 1350 are served** (PropRfc.v): RfcSpec describes the packets and the two stop-and-wait clients from RFC 1350; RfcProofs shows that such a client among its surroundings is simulated by the client of WorldModel with default options (what it stores, sends and takes is the same as what the modelled client would), so the invariants of the transfers carry over; PropRfc adds the handshake without options. The client is described in RfcSpec.v from the RFC alone. Safety; the theorems speak about whatever the server has opened (C55-C57, C65 say which file that is). in_clear: the request is not by chance a datagram sealed with the server's key. The mode must be spelled octet in lower case: the server compares it case-sensitively, which RFC 1350 does not.
* **C85 Clients that speak only RFC 1350 complete their transfers while nothing goes wrong** (PropRfcSmooth.v): The world of C77 (SmoothModel: channels without loss, turns, time limits) with the two programs of RfcSpec in place of the commands; RfcSmooth keeps the state invariants and the decreasing weight of C77 (SmoothD, SmoothE) for the default options and shows that each turn of the RFC program is a turn of the invariant. goes_well has two halves: every sequence of turns stays within the bound and ends well or leaves both sides able to take a turn; and there is a sequence that ends well. On the single threaded server with other clients a turn may be spent on them, hence the idle server there (C84 covers the busy one for safety).
* **C86 Clients that speak only RFC 1350 fetch from and store on the server's disk** (PropRfcDisk.v): No new model: the request is followed through FsServerModel.open_request and the server turn as in C79; the generic theorem of C85 is then used with the turns of ArriveModel, whose invariant ties the connection to its open file. Composition of C84/C85 with the disk of C67 and C79 and the command line of C62. in_clear: the request is not by chance a datagram sealed with the server's key (always so for a server without a key). i_av i = av_all: the build with alloc, where readers are always available. A requested listing is C83. Cases in RfcDiskCases: the default command line; a file of six blocks is fetched under another spelling of its name, and one is stored in a new directory.
* **C87 What a lost datagram costs clients that speak only RFC 1350** (PropRfcLoss.v): The simulation of C84 gives the invariant of the transfer in every reachable state; from it follow which block the connection would retransmit (as C69), what the RFC client does with it, and what the server answers to the client's block or acknowledgement. The lost acknowledgement of the request: a request in clear is ignored by an upload connection however it is cut, so the connection stays as it is. Each theorem speaks about an arbitrary state of the worlds of C84, so it covers every history of losses. resends: the connection sends this block whenever it is due (interval over, file readable, socket takes it); neglected (as in C69): consecutive turns in which the connection would be due and is passed over; without a due connection nothing is claimed about when turns happen. Uploads need the disk to take the block (e_io, e_short) and the socket the answer. first_ack_not_repeated: hears_only lets every other activity of the server happen; what is sent can only be the notice of the time limit. Cases in RfcLossCases: a lost acknowledgement in both directions on both servers, and a repeated request.

## Theorems and what `Print Assumptions` lists for them

`closed`: `Closed under the global context`, no axiom at all. `Reals`: the four axioms of the standard library listed under "Trusted base".

| property | theorem | file | assumptions |
|---|---|---|---|
| C01 | `packet_round_trip` | PropPacket.v | closed |
| C02 | `decode_total_and_well_formed` | PropPacket.v | closed |
| C02 | `utf8_iff_text` | PropUtf8.v | closed |
| C02 | `text_encoding_injective` | PropUtf8.v | closed |
| C02 | `decoded_strings_are_text` | PropUtf8.v | closed |
| C03 | `to_buffer_exact` | PropPacket.v | closed |
| C03 | `data_header_in_place` | PropPacket.v | closed |
| C04 | `option_parsing` | PropPacket.v | closed |
| C05 | `block_numbers_resolved` | PropMapper.v | closed |
| C05 | `block_numbers_resolved_small` | PropMapper.v | closed |
| C05 | `block_numbers_bound_tight` | PropMapper.v | closed |
| C05 | `block_number_of_index` | PropMapper.v | closed |
| C05 | `block_numbers_round_trip` | PropMapper.v | closed |
| C06 | `stray_block_number` | PropMapper.v | closed |
| C07 | `single_reader_refines` | PropReader.v | closed |
| C08 | `multi_reader_refines` | PropReader.v | closed |
| C09 | `seek_reader_refines` | PropReader.v | closed |
| C09 | `seek_reader_refuted_after_finish` | PropReader.v | closed |
| C10 | `reader_window_bound` | PropReader.v | closed |
| C10 | `multi_reader_memory` | PropReader.v | closed |
| C10 | `reader_accounting` | PropReader.v | closed |
| C11 | `acknowledged_bytes_total` | PropReader.v | closed |
| C11 | `reader_accounting` | PropReader.v | closed |
| C12 | `multi_seek_interchangeable` | PropReader.v | closed |
| C13 | `writer_step` | PropWriter.v | closed |
| C13 | `writer_appends_accepted` | PropWriter.v | closed |
| C13 | `writer_exactly_once_in_order` | PropWriter.v | closed |
| C14 | `download_never_corrupts` | PropTransfer.v | closed |
| C15 | `upload_never_corrupts` | PropTransfer.v | closed |
| C16 | `download_can_complete` | PropTransfer.v | closed |
| C16 | `download_progress` | PropProgress.v | closed |
| C16 | `download_rounds_reachable` | PropTransfer.v | closed |
| C16 | `upload_can_complete` | PropTransfer.v | closed |
| C16 | `upload_progress` | PropProgress.v | closed |
| C16 | `upload_rounds_reachable` | PropTransfer.v | closed |
| C17 | `name_confined` | PropPath.v | closed |
| C17 | `name_rejected_iff` | PropPath.v | closed |
| C17 | `components_determined` | PropPath.v | closed |
| C18 | `normalize_clean` | PropPath.v | closed |
| C18 | `normalize_idempotent` | PropPath.v | closed |
| C19 | `server_limits` | PropExt.v | closed |
| C19 | `server_announces` | PropExt.v | closed |
| C19 | `server_answers` | PropExt.v | closed |
| C20 | `client_accepts_at_most_requested` | PropHandshake.v | closed |
| C20 | `unrequested_option_refused` | PropHandshake.v | closed |
| C21 | `handshake_agreement` | PropAgree.v | closed |
| C21 | `handshake_agreement_plain` | PropAgree.v | closed |
| C21 | `agreement_suffices` | PropAgree.v | closed |
| C22 | `authorised_only` | PropHandshake.v | closed |
| C22 | `unauthorised_no_effect` | PropHandshake.v | closed |
| C22 | `unauthorised_silence` | PropRefusal.v | closed |
| C23 | `full_requires_sealed_request` | PropHandshake.v | closed |
| C24 | `demand_survives_oack` | PropHandshake.v | closed |
| C24 | `demand_lost_without_options` | PropHandshake.v | closed |
| C24 | `full_stays_sealed` | PropHandshake.v | closed |
| C25 | `fallback_options` | PropHandshake.v | closed |
| C26 | `client_size_limit` | PropConn.v | closed |
| C26 | `server_size_limit` | PropConn.v | closed |
| C27 | `first_packet_outcome` | PropConn.v | closed |
| C27 | `first_packet_premature_success` | PropConn.v | closed |
| C27 | `download_never_corrupts` | PropTransfer.v | closed |
| C28 | `multiplier_bounds` | PropConn.v | closed |
| C28 | `backoff_rule` | PropConn.v | closed |
| C28 | `progress_rule` | PropConn.v | closed |
| C29 | `connection_dropped_iff` | PropConn.v | closed |
| C29 | `clean_up_exact` | PropFair.v | closed |
| C29 | `thread_ends_iff` | PropFair.v | closed |
| C29 | `ended_threads_forgotten` | PropFair.v | closed |
| C29 | `sending_life` | PropLife.v | closed |
| C29 | `download_events` | PropLife.v | closed |
| C29 | `upload_events` | PropLife.v | closed |
| C30 | `single_thread_connection_limit` | PropServer.v | closed |
| C30 | `multi_thread_connection_limit` | PropServer.v | closed |
| C30 | `admission` | PropServer.v | closed |
| C31 | `padding_reversible` | PropCrypto.v | closed |
| C31 | `padding_refused` | PropCrypto.v | closed |
| C31 | `padding_removed_exactly` | PropRefusal.v | closed |
| C31 | `padding_missing_refused` | PropRefusal.v | closed |
| C32 | `server_to_client` | PropCrypto.v | closed |
| C32 | `client_to_server` | PropCrypto.v | closed |
| C32 | `encrypted_size` | PropCrypto.v | closed |
| C32 | `length_hidden` | PropCrypto.v | closed |
| C33 | `server_decrypt_panics_iff` | PropCrypto.v | closed |
| C33 | `client_recv_panics_iff` | PropCrypto.v | closed |
| C33 | `accepted_is_sealed` | PropCrypto.v | closed |
| C34 | `file_encryption_transparent` | PropStream.v | closed |
| C34 | `accepted_stream_is_encryption` | PropStream.v | closed |
| C34 | `cut_at_block_refused` | PropStream.v | closed |
| C34 | `cut_undetected_by_larger_blocks` | PropStream.v | closed |
| C34 | `encrypted_round_trip` | PropStream.v | closed |
| C34 | `stored_format` | PropStream.v | closed |
| C34 | `nonces_distinct` | PropStream.v | closed |
| C34 | `tampering_is_forgery` | PropStream.v | closed |
| C35 | `lines_correct` | PropKeyFile.v | closed |
| C35 | `authorized_keys_spec` | PropKeyFile.v | closed |
| C35 | `authorized_keys_round_trip` | PropKeyFile.v | closed |
| C35 | `lookup_spec` | PropKeyFile.v | closed |
| C35 | `append_found` | PropKeyFile.v | closed |
| C36 | `ensure_size_spec` | PropPath.v | closed |
| C36 | `reject_panics_iff` | PropPath.v | closed |
| C36 | `validate_request_spec` | PropPath.v | closed |
| C37 | `map_behaves_as_map` | PropMap.v | closed |
| C37 | `map_keys` | PropMap.v | closed |
| C37 | `retain_spec` | PropMap.v | closed |
| C38 | `delivered_in_order` | PropBlocking.v | closed |
| C38 | `short_only_when_finished` | PropBlocking.v | closed |
| C38 | `end_is_real` | PropBlocking.v | closed |
| C38 | `delayed_read_as_static` | PropBlocking.v | closed |
| C38 | `rest_delivered` | PropBlocking.v | closed |
| C38 | `premature_end` | PropBlocking.v | closed |
| C39 | `depth_limit` | PropPath.v | closed |
| C39 | `depth_enforced` | PropFsServer.v | closed |
| C40 | `buffer_size` | PropAgree.v | closed |
| C40 | `answer_fits` | PropAgree.v | closed |
| C40 | `agreed_packets_fit` | PropAgree.v | closed |
| C40 | `sealed_request_size` | PropAgree.v | closed |
| C41 | `sending_is_fair` | PropFair.v | closed |
| C41 | `receiving_is_fair` | PropFair.v | closed |
| C41 | `main_socket_is_not_starved` | PropFair.v | closed |
| C42 | `answer_from_server` | PropWait.v | closed |
| C42 | `strangers_have_no_influence` | PropWait.v | closed |
| C42 | `gives_up` | PropWait.v | closed |
| C42 | `requests_bounded` | PropWait.v | closed |
| C42 | `waits_bounded` | PropWait.v | closed |
| C42 | `strangers_postpone_timeout` | PropWait.v | closed |
| C42 | `stranger_cuts_answer` | PropWait.v | closed |
| C42 | `stranger_ends_encrypted` | PropWait.v | closed |
| C43 | `level_names` | PropExt.v | closed |
| C43 | `level_names_distinct` | PropExt.v | closed |
| C44 | `client_ack_policy` | PropConn.v | closed |
| C44 | `server_ack_policy` | PropConn.v | closed |
| C44 | `client_unacked_below_window` | PropConn.v | closed |
| C44 | `server_unacked_below_window` | PropConn.v | closed |
| C45 | `rfc_wire_format` | PropPacket.v | closed |
| C46 | `stranger_ignored_without_encryption` | PropConn.v | closed |
| C46 | `stranger_aborts_encrypted_download` | PropConn.v | closed |
| C46 | `stranger_aborts_encrypted_upload` | PropConn.v | closed |
| C46 | `server_ignores_undecryptable` | PropConn.v | closed |
| C47 | `partial_write_ends_transfer` | PropConn.v | closed |
| C47 | `partial_write_finishes_server` | PropConn.v | closed |
| C48 | `bounded_same` | PropPath.v | closed |
| C48 | `bounded_truncates` | PropPath.v | closed |
| C49 | `key_text_round_trip` | PropCrypto.v | closed |
| C49 | `verifying_key_round_trip` | PropCrypto.v | closed |
| C49 | `signature_round_trip` | PropCrypto.v | closed |
| C49 | `public_key_text_accepted_iff` | PropCrypto.v | closed |
| C49 | `verifying_key_text_accepted_iff` | PropCrypto.v | closed |
| C50 | `known_server_authenticated` | PropHandshake.v | closed |
| C50 | `known_server_answer_sealed` | PropRefusal.v | closed |
| C51 | `handshake_completes` | PropAgree.v | closed |
| C52 | `first_key_trusted` | PropKeyFile.v | closed |
| C52 | `known_key_kept` | PropKeyFile.v | closed |
| C52 | `endpoint_with_space` | PropKeyFile.v | closed |
| C52 | `invalid_line_stays` | PropKeyFile.v | closed |
| C53 | `single_thread_isolation` | PropServer.v | closed |
| C53 | `multi_thread_isolation` | PropServer.v | closed |
| C54 | `wait_bounded` | PropFair.v | closed |
| C54 | `socket_ids_valid` | PropFair.v | closed |
| C55 | `turns_are_phases` | PropWorld.v | closed |
| C55 | `busy_single_download` | PropWorld.v | closed |
| C55 | `busy_multi_download` | PropWorld.v | closed |
| C55 | `busy_single_upload` | PropWorld.v | closed |
| C55 | `busy_multi_upload` | PropWorld.v | closed |
| C55 | `connection_serves_request_single` | PropServes.v | closed |
| C55 | `connection_serves_request_multi` | PropServes.v | closed |
| C56 | `download_gives_up` | PropGiveUp.v | closed |
| C56 | `upload_gives_up` | PropGiveUp.v | closed |
| C56 | `download_fails_only` | PropGiveUp.v | closed |
| C56 | `download_fails_on` | PropGiveUp.v | closed |
| C56 | `upload_fails_only` | PropGiveUp.v | closed |
| C56 | `upload_fails_on` | PropGiveUp.v | closed |
| C56 | `download_postponed` | PropGiveUp.v | closed |
| C56 | `upload_postponed` | PropGiveUp.v | closed |
| C57 | `served_inside` | PropFs.v | closed |
| C57 | `file_served` | PropFs.v | closed |
| C57 | `listing_served` | PropFs.v | closed |
| C57 | `asked_once` | PropFsServer.v | closed |
| C57 | `accepted_inside` | PropFsServer.v | closed |
| C57 | `connection_serves_request_single` | PropServes.v | closed |
| C57 | `connection_serves_request_multi` | PropServes.v | closed |
| C58 | `upload_target` | PropFs.v | closed |
| C58 | `upload_harmless` | PropFs.v | closed |
| C58 | `upload_stays_inside` | PropFs.v | closed |
| C58 | `upload_accepted` | PropFs.v | closed |
| C58 | `upload_existing` | PropFs.v | closed |
| C58 | `server_files_safe` | PropFsServer.v | closed |
| C58 | `accepted_inside` | PropFsServer.v | closed |
| C59 | `refused_peer_told` | PropRefusal.v | closed |
| C59 | `unauthorised_silence` | PropRefusal.v | closed |
| C59 | `only_requests_answered` | PropRefusal.v | closed |
| C60 | `interval_bounded` | PropFlow.v | Reals |
| C60 | `retransmits_in_time` | PropFlow.v | Reals |
| C60 | `retransmits_before_giving_up` | PropFlow.v | Reals |
| C60 | `slow_handshake_no_retransmission` | PropFlow.v | Reals |
| C60 | `release_never_panics` | PropFlow.v | Reals |
| C60 | `debug_build_agrees` | PropFlow.v | closed |
| C60 | `loop_send_is_send` | PropFlow.v | closed |
| C60 | `loop_recv_is_recv` | PropFlow.v | closed |
| C60 | `loop_is_upload_history` | PropFlow.v | closed |
| C60 | `no_early_retransmission` | PropFlow.v | closed |
| C60 | `losses_delay_retransmission` | PropFlowLoss.v | closed |
| C61 | `private_key_source` | PropCli.v | closed |
| C61 | `private_key_round_trip` | PropCli.v | closed |
| C61 | `name_taken_for_key` | PropCli.v | closed |
| C61 | `empty_is_zero_key` | PropCli.v | closed |
| C62 | `server_arguments` | PropCli.v | closed |
| C62 | `bad_key_list_no_start` | PropCli.v | closed |
| C62 | `key_list_locks_server` | PropCli.v | closed |
| C62 | `key_list_without_own_key` | PropCli.v | closed |
| C63 | `client_arguments` | PropCli.v | closed |
| C63 | `bad_key_no_start` | PropCli.v | closed |
| C63 | `endpoint_without_port` | PropCli.v | closed |
| C63 | `default_level_not_served` | PropCli.v | closed |
| C63 | `started_programs_fit` | PropCli.v | closed |
| C63 | `client_local_address` | PropCli.v | closed |
| C64 | `file_name_iff` | PropCli.v | closed |
| C64 | `names_not_given` | PropCli.v | closed |
| C64 | `names_given` | PropCli.v | closed |
| C64 | `default_remote_name_kept` | PropCli.v | closed |
| C65 | `on_close_uploads` | PropSync.v | closed |
| C65 | `on_create_uploads` | PropSync.v | closed |
| C65 | `complete_when_closed` | PropSync.v | closed |
| C65 | `remote_names_differ` | PropSync.v | closed |
| C65 | `synced_name_kept` | PropSync.v | closed |
| C66 | `pooled_readers_isolated` | PropStack.v | closed |
| C66 | `pools_never_panic` | PropStack.v | closed |
| C66 | `pools_within_limits` | PropStack.v | closed |
| C66 | `pools_empty_when_idle` | PropStack.v | closed |
| C66 | `reader_always_available` | PropStack.v | closed |
| C66 | `reader_refused_iff` | PropStack.v | closed |
| C66 | `pooled_admission` | PropStack.v | closed |
| C66 | `beyond_table_dropped` | PropStack.v | closed |
| C66 | `stack_buffers_same` | PropStack.v | closed |
| C67 | `shared_download` | PropDisk.v | closed |
| C67 | `download_opens` | PropDisk.v | closed |
| C67 | `shared_upload` | PropDisk.v | closed |
| C67 | `exclusive_files` | PropDisk.v | closed |
| C67 | `exclusive_upload` | PropDisk.v | closed |
| C67 | `disk_changes` | PropDisk.v | closed |
| C67 | `mixture` | PropDisk.v | closed |
| C67 | `same_uploads` | PropDisk.v | closed |
| C68 | `no_lost_wakeup` | PropPoll.v | closed |
| C68 | `never_sleeps_on_data` | PropPoll.v | closed |
| C68 | `heard_in_time` | PropPoll.v | closed |
| C69 | `single_download_progress` | PropProgress.v | closed |
| C69 | `multi_download_progress` | PropProgress.v | closed |
| C69 | `single_upload_progress` | PropProgress.v | closed |
| C69 | `multi_upload_progress` | PropProgress.v | closed |
| C69 | `single_download_resends` | PropProgress.v | closed |
| C69 | `multi_download_resends` | PropProgress.v | closed |
| C70 | `stored_file` | PropStore.v | closed |
| C70 | `served_file` | PropStore.v | closed |
| C70 | `store_and_retrieve` | PropStore.v | closed |
| C70 | `store_and_retrieve_exclusive` | PropStore.v | closed |
| C71 | `receive_is_local` | PropLocal.v | closed |
| C71 | `send_is_local` | PropLocal.v | closed |
| C71 | `receive_reports_size` | PropLocal.v | closed |
| C71 | `oversized_answer_empties_local_file` | PropLocal.v | closed |
| C72 | `received_file` | PropRun.v | closed |
| C72 | `sent_file` | PropRun.v | closed |
| C72 | `sent_then_received` | PropRun.v | closed |
| C73 | `sent_encrypted` | PropRun.v | closed |
| C73 | `received_decrypted` | PropRun.v | closed |
| C73 | `sent_then_received_encrypted` | PropRun.v | closed |
| C74 | `receive_ends` | PropEnd.v | closed |
| C74 | `receive_silence_ends` | PropEnd.v | closed |
| C74 | `send_silence_ends` | PropEnd.v | closed |
| C74 | `acknowledging_nothing_holds_send` | PropEnd.v | closed |
| C75 | `attacked_single_download` | PropAttack.v | closed |
| C75 | `attacked_multi_download` | PropAttack.v | closed |
| C75 | `attacked_single_upload` | PropAttack.v | closed |
| C75 | `attacked_multi_upload` | PropAttack.v | closed |
| C75 | `data_level_renumbering` | PropAttack.v | closed |
| C75 | `data_level_acks_in_clear` | PropAttack.v | closed |
| C75 | `replay_after_wrap` | PropAttack.v | closed |
| C76 | `alloc_key_files_same` | PropStackKey.v | closed |
| C76 | `stack_lines_correct` | PropStackKey.v | closed |
| C76 | `stack_keys_spec` | PropStackKey.v | closed |
| C76 | `stack_lookup_spec` | PropStackKey.v | closed |
| C76 | `stack_hosts_file_spec` | PropStackKey.v | closed |
| C76 | `stack_remembers` | PropStackKey.v | closed |
| C76 | `stack_long_endpoint_never_known` | PropStackKey.v | closed |
| C77 | `receive_goes_well_single` | PropSmooth.v | closed |
| C77 | `receive_goes_well_multi` | PropSmooth.v | closed |
| C77 | `send_goes_well_single` | PropSmooth.v | closed |
| C77 | `send_goes_well_multi` | PropSmooth.v | closed |
| C77 | `repeated_request_ignored` | PropRun.v | closed |
| C78 | `receive_command_single` | PropWhole.v | closed |
| C78 | `receive_command_multi` | PropWhole.v | closed |
| C78 | `send_command_single` | PropWhole.v | closed |
| C78 | `send_command_multi` | PropWhole.v | closed |
| C78 | `keyless_programs_fit` | PropWhole.v | closed |
| C79 | `receive_arrives_single` | PropArrive.v | closed |
| C79 | `receive_arrives_multi` | PropArrive.v | closed |
| C79 | `send_arrives_single` | PropArrive.v | closed |
| C79 | `send_arrives_multi` | PropArrive.v | closed |
| C80 | `sent_then_fetched_multi` | PropFetch.v | closed |
| C80 | `sent_then_fetched_single` | PropFetch.v | closed |
| C81 | `sealed_restored_multi` | PropSealed.v | closed |
| C81 | `sealed_restored_single` | PropSealed.v | closed |
| C81 | `sealed_then_restored_multi` | PropSealed.v | closed |
| C81 | `sealed_then_restored_single` | PropSealed.v | closed |
| C82 | `closed_file_uploaded` | PropMirror.v | closed |
| C82 | `synced_file_multi` | PropMirror.v | closed |
| C82 | `synced_file_single` | PropMirror.v | closed |
| C83 | `listing_fetched_multi` | PropListing.v | closed |
| C83 | `listing_fetched_single` | PropListing.v | closed |
| C83 | `listed_file_fetched_multi` | PropListing.v | closed |
| C83 | `listed_file_fetched_single` | PropListing.v | closed |
| C84 | `plain_request_taken` | PropRfc.v | closed |
| C84 | `plain_download_single` | PropRfc.v | closed |
| C84 | `plain_download_multi` | PropRfc.v | closed |
| C84 | `plain_upload_single` | PropRfc.v | closed |
| C84 | `plain_upload_multi` | PropRfc.v | closed |
| C85 | `plain_fetch_goes_well_single` | PropRfcSmooth.v | closed |
| C85 | `plain_fetch_goes_well_multi` | PropRfcSmooth.v | closed |
| C85 | `plain_store_goes_well_single` | PropRfcSmooth.v | closed |
| C85 | `plain_store_goes_well_multi` | PropRfcSmooth.v | closed |
| C86 | `plain_fetch_arrives_single` | PropRfcDisk.v | closed |
| C86 | `plain_fetch_arrives_multi` | PropRfcDisk.v | closed |
| C86 | `plain_store_arrives_single` | PropRfcDisk.v | closed |
| C86 | `plain_store_arrives_multi` | PropRfcDisk.v | closed |
| C87 | `plain_download_recovers_single` | PropRfcLoss.v | closed |
| C87 | `plain_download_recovers_multi` | PropRfcLoss.v | closed |
| C87 | `plain_upload_recovers_single` | PropRfcLoss.v | closed |
| C87 | `plain_upload_recovers_multi` | PropRfcLoss.v | closed |
| C87 | `first_ack_not_repeated_single` | PropRfcLoss.v | closed |
| C87 | `first_ack_not_repeated_multi` | PropRfcLoss.v | closed |

## Trusted base

1. Coq 8.16.1's kernel (including `vm_compute`, used in examples and a few finite sweeps).
2. Axioms: `Print Assumptions` under every property theorem says `Closed under the global context`,
   except for `interval_bounded`, `retransmits_in_time`, `retransmits_before_giving_up`,
   `no_early_retransmission`, `slow_handshake_no_retransmission` and `release_never_panics` of C60, which list exactly the
   standard library's `ClassicalDedekindReals.sig_not_dec`, `ClassicalDedekindReals.sig_forall_dec`,
   `FunctionalExtensionality.functional_extensionality_dep` and `Classical_Prop.classic` (real
   numbers, used inside the proofs only: no statement mentions a real number). `coqchk`-style
   listings of all loaded libraries also show the seven `Coq.ssr.ssrunder.Under_rel.*` constants of
   the standard library (loaded by `ZifyBool`) and, for C60, the primitive integers and floats of the
   standard library that Flocq's files load; no theorem here depends on them.
3. Coq's standard library (String, List, NArith, ZArith, Lia, Bool, Zify, Floats.SpecFloat, Reals), and
   Flocq in the proofs of C60 (proved lemmas only, no axioms of its own).
4. That the hand-written model says what the code says. This is the part to review: each
   definition cites its lines.
5. The specifications (`*Spec.v`) and the statements in `Prop*.v`.

## What is not modelled

* The cryptographic primitives themselves, and the random number generator (see conventions).
  No secrecy claim is made; C32 `length_hidden` is about lengths only.
* Scheduling inside the operating system, sockets' internals, real clocks; what they do is an input of the
  model chosen freely. C68 models epoll as documented (one-shot notification, FIFO ready list); elsewhere which
  sockets have something to read is chosen freely.
* Metrics and logging. The rate control (C60) is not part of the transfer models: there the client
  may retransmit or stay silent at any time, and C60 shows that the real loop is one such choice.
* The `heapless` collections other than the ones named in C37, C48 and C66 (whose maps are taken
  from their documentation).
* The syntax of the command line (clap; C61-C64 start from the record it hands over), thread start-up
  and shut-down. A directory given as key file (read errors repeat forever) is not modelled.
* u64/usize overflow of counters that would need 2^48 blocks or more.
* File systems: in the transfer models a file is a byte string, a read returns what is there or fails;
  writes append, possibly partially (C47), or fail. Names, directories and links are modelled for
  opening files (C57, C58); C67 puts all transfers of a server on one file system, where an opening, a read
  or a write is atomic (other programs act between them).

## Disagreements between code and expectation (all proved as theorems or examples)

C06 stray block number above 55535; C01 option-less option ack not decodable; C09 seek reader after
finishing; C23/C24 encryption lowered; C25 window kept after fallback; C26 overrun by a block;
C27 first data packet taken for the last; C33 panics for 40..43 byte data datagrams, which stop the
single-threaded server (C53); C36 panics on cut inside a character; C38 premature end; C42 foreign
datagrams cut the answer and postpone the timeout; C46 undecryptable datagrams abort the client;
C47 partial writes; C48 name loses a character; C34 cut undetected with larger blocks;
C49 short key texts accepted; C52 endpoint with a space; C58 refused uploads through links create files outside; C60 slow handshakes disable retransmission, and so do blocks that were lost before (the time of lost copies is counted as round trip);
C67 simultaneous uploads mix, a shortened file is taken for complete;
C66 more than 128 connections or windows above 16 without alloc;
C61 a file name taken for a key, an empty file for the zero key; C62 key list without own key serves nobody;
C63 default level not served by a server with a key list, default port never used without a local address;
C16 lost last acknowledgement of an upload.
