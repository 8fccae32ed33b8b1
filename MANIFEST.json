{
 "claims": [
  {
   "property": "C01",
   "status": "proved",
   "theorems": [
    "packet_round_trip"
   ],
   "note": "Round trip for every transportable packet; the option-less option ack is the one exception, and its encoding is shown to be rejected."
  },
  {
   "property": "C02",
   "status": "proved",
   "theorems": [
    "decode_total_and_well_formed",
    "utf8_iff_text",
    "text_encoding_injective",
    "decoded_strings_are_text"
   ],
   "note": ""
  },
  {
   "property": "C03",
   "status": "proved",
   "theorems": [
    "to_buffer_exact",
    "data_header_in_place"
   ],
   "note": ""
  },
  {
   "property": "C04",
   "status": "proved",
   "theorems": [
    "option_parsing"
   ],
   "note": "Exact characterisation (iff) of what the option area decodes to."
  },
  {
   "property": "C05",
   "status": "proved",
   "theorems": [
    "block_numbers_resolved",
    "block_numbers_resolved_small",
    "block_numbers_bound_tight",
    "block_number_of_index",
    "block_numbers_round_trip"
   ],
   "note": ""
  },
  {
   "property": "C06",
   "status": "proved",
   "theorems": [
    "stray_block_number"
   ],
   "note": ""
  },
  {
   "property": "C07",
   "status": "proved",
   "theorems": [
    "single_reader_refines"
   ],
   "note": "Refinement of the sliding window specification (ReaderSpec.v) over all call histories."
  },
  {
   "property": "C08",
   "status": "proved",
   "theorems": [
    "multi_reader_refines"
   ],
   "note": ""
  },
  {
   "property": "C09",
   "status": "proved",
   "theorems": [
    "seek_reader_refines",
    "seek_reader_refuted_after_finish"
   ],
   "note": "Holds while no ack is handed in after finishing; a counterexample shows the condition is needed."
  },
  {
   "property": "C10",
   "status": "proved",
   "theorems": [
    "reader_window_bound",
    "multi_reader_memory",
    "reader_accounting"
   ],
   "note": ""
  },
  {
   "property": "C11",
   "status": "proved",
   "theorems": [
    "acknowledged_bytes_total",
    "reader_accounting"
   ],
   "note": ""
  },
  {
   "property": "C12",
   "status": "proved",
   "theorems": [
    "multi_seek_interchangeable"
   ],
   "note": ""
  },
  {
   "property": "C13",
   "status": "proved",
   "theorems": [
    "writer_step",
    "writer_appends_accepted",
    "writer_exactly_once_in_order"
   ],
   "note": ""
  },
  {
   "property": "C45",
   "status": "proved",
   "theorems": [
    "rfc_wire_format"
   ],
   "note": ""
  },
  {
   "property": "C14",
   "status": "proved",
   "theorems": [
    "download_never_corrupts"
   ],
   "note": "All interleavings of the two programs over a network that loses, duplicates, delays, reorders; file or socket failures at any call."
  },
  {
   "property": "C15",
   "status": "proved",
   "theorems": [
    "upload_never_corrupts"
   ],
   "note": "Also: when the server regards the upload as finished it has the whole file."
  },
  {
   "property": "C16",
   "status": "proved",
   "theorems": [
    "download_can_complete",
    "download_progress",
    "download_rounds_reachable",
    "upload_can_complete",
    "upload_progress",
    "upload_rounds_reachable"
   ],
   "note": "The example upload_final_ack_lost shows the known limit: once the server has finished, a lost last ack makes the client fail."
  },
  {
   "property": "C26",
   "status": "proved",
   "theorems": [
    "client_size_limit",
    "server_size_limit"
   ],
   "note": "size_overrun shows that the overrun by one block really happens; upload_above_limit_completes that the single threaded server may store more."
  },
  {
   "property": "C27",
   "status": "proved",
   "theorems": [
    "first_packet_outcome",
    "first_packet_premature_success",
    "download_never_corrupts"
   ],
   "note": "The property describes a defect: success is reported after the first full block if the server answers with data directly; the option-ack path is C14."
  },
  {
   "property": "C28",
   "status": "proved",
   "theorems": [
    "multiplier_bounds",
    "backoff_rule",
    "progress_rule"
   ],
   "note": ""
  },
  {
   "property": "C29",
   "status": "proved",
   "theorems": [
    "connection_dropped_iff",
    "clean_up_exact",
    "thread_ends_iff",
    "ended_threads_forgotten",
    "sending_life",
    "download_events",
    "upload_events"
   ],
   "note": ""
  },
  {
   "property": "C44",
   "status": "proved",
   "theorems": [
    "client_ack_policy",
    "server_ack_policy",
    "client_unacked_below_window",
    "server_unacked_below_window"
   ],
   "note": ""
  },
  {
   "property": "C46",
   "status": "proved",
   "theorems": [
    "stranger_ignored_without_encryption",
    "stranger_aborts_encrypted_download",
    "stranger_aborts_encrypted_upload",
    "server_ignores_undecryptable"
   ],
   "note": ""
  },
  {
   "property": "C47",
   "status": "proved",
   "theorems": [
    "partial_write_ends_transfer",
    "partial_write_finishes_server"
   ],
   "note": "Describes a defect."
  },
  {
   "property": "C17",
   "status": "proved",
   "theorems": [
    "name_confined",
    "name_rejected_iff",
    "components_determined"
   ],
   "note": ""
  },
  {
   "property": "C18",
   "status": "proved",
   "theorems": [
    "normalize_clean",
    "normalize_idempotent"
   ],
   "note": ""
  },
  {
   "property": "C19",
   "status": "proved",
   "theorems": [
    "server_limits",
    "server_announces",
    "server_answers"
   ],
   "note": ""
  },
  {
   "property": "C31",
   "status": "proved",
   "theorems": [
    "padding_reversible",
    "padding_refused",
    "padding_removed_exactly",
    "padding_missing_refused"
   ],
   "note": ""
  },
  {
   "property": "C32",
   "status": "proved",
   "theorems": [
    "server_to_client",
    "client_to_server",
    "encrypted_size",
    "length_hidden"
   ],
   "note": "Cryptographic primitives are arguments with algebraic laws as explicit hypotheses."
  },
  {
   "property": "C33",
   "status": "proved",
   "theorems": [
    "server_decrypt_panics_iff",
    "client_recv_panics_iff",
    "accepted_is_sealed"
   ],
   "note": ""
  },
  {
   "property": "C36",
   "status": "proved",
   "theorems": [
    "ensure_size_spec",
    "reject_panics_iff",
    "validate_request_spec"
   ],
   "note": ""
  },
  {
   "property": "C39",
   "status": "proved",
   "theorems": [
    "depth_limit",
    "depth_enforced"
   ],
   "note": ""
  },
  {
   "property": "C43",
   "status": "proved",
   "theorems": [
    "level_names",
    "level_names_distinct"
   ],
   "note": ""
  },
  {
   "property": "C48",
   "status": "proved",
   "theorems": [
    "bounded_same",
    "bounded_truncates"
   ],
   "note": ""
  },
  {
   "property": "C49",
   "status": "proved",
   "theorems": [
    "key_text_round_trip",
    "verifying_key_round_trip",
    "signature_round_trip",
    "public_key_text_accepted_iff",
    "verifying_key_text_accepted_iff"
   ],
   "note": ""
  },
  {
   "property": "C20",
   "status": "proved",
   "theorems": [
    "client_accepts_at_most_requested",
    "unrequested_option_refused"
   ],
   "note": ""
  },
  {
   "property": "C21",
   "status": "proved",
   "theorems": [
    "handshake_agreement",
    "handshake_agreement_plain",
    "agreement_suffices"
   ],
   "note": "Session keys are part of the agreement; hypotheses say what 'built by the client' and 'received whole' mean."
  },
  {
   "property": "C22",
   "status": "proved",
   "theorems": [
    "authorised_only",
    "unauthorised_no_effect",
    "unauthorised_silence"
   ],
   "note": ""
  },
  {
   "property": "C23",
   "status": "proved",
   "theorems": [
    "full_requires_sealed_request"
   ],
   "note": "full_lowered_case shows that the accepted session may still be lowered."
  },
  {
   "property": "C24",
   "status": "proved",
   "theorems": [
    "demand_survives_oack",
    "demand_lost_without_options",
    "full_stays_sealed"
   ],
   "note": "Describes a defect as well: the old protocol's answers remove all encryption."
  },
  {
   "property": "C25",
   "status": "proved",
   "theorems": [
    "fallback_options"
   ],
   "note": ""
  },
  {
   "property": "C40",
   "status": "proved",
   "theorems": [
    "buffer_size",
    "answer_fits",
    "agreed_packets_fit",
    "sealed_request_size"
   ],
   "note": ""
  },
  {
   "property": "C50",
   "status": "proved",
   "theorems": [
    "known_server_authenticated",
    "known_server_answer_sealed"
   ],
   "note": ""
  },
  {
   "property": "C51",
   "status": "proved",
   "theorems": [
    "handshake_completes"
   ],
   "note": ""
  },
  {
   "property": "C34",
   "status": "proved",
   "theorems": [
    "file_encryption_transparent",
    "accepted_stream_is_encryption",
    "cut_at_block_refused",
    "cut_undetected_by_larger_blocks",
    "encrypted_round_trip",
    "stored_format",
    "nonces_distinct",
    "tampering_is_forgery"
   ],
   "note": "The STREAM construction is modelled on top of the abstract AEAD."
  },
  {
   "property": "C37",
   "status": "proved",
   "theorems": [
    "map_behaves_as_map",
    "map_keys",
    "retain_spec"
   ],
   "note": "For any key type with an equality test, refinement of a partial function with a count."
  },
  {
   "property": "C35",
   "status": "proved",
   "theorems": [
    "lines_correct",
    "authorized_keys_spec",
    "authorized_keys_round_trip",
    "lookup_spec",
    "append_found"
   ],
   "note": ""
  },
  {
   "property": "C52",
   "status": "proved",
   "theorems": [
    "first_key_trusted",
    "known_key_kept",
    "endpoint_with_space",
    "invalid_line_stays"
   ],
   "note": ""
  },
  {
   "property": "C38",
   "status": "proved",
   "theorems": [
    "delivered_in_order",
    "short_only_when_finished",
    "end_is_real",
    "delayed_read_as_static",
    "rest_delivered",
    "premature_end"
   ],
   "note": ""
  },
  {
   "property": "C30",
   "status": "proved",
   "theorems": [
    "single_thread_connection_limit",
    "multi_thread_connection_limit",
    "admission"
   ],
   "note": ""
  },
  {
   "property": "C41",
   "status": "proved",
   "theorems": [
    "sending_is_fair",
    "receiving_is_fair",
    "main_socket_is_not_starved"
   ],
   "note": "fairness_bound_reached: the bound is tight; newcomers_delay_others: the clients must stay the same."
  },
  {
   "property": "C53",
   "status": "proved",
   "theorems": [
    "single_thread_isolation",
    "multi_thread_isolation"
   ],
   "note": "bad_datagram_stops_single_thread: except that a panic caused by one client stops the single threaded server."
  },
  {
   "property": "C54",
   "status": "proved",
   "theorems": [
    "wait_bounded",
    "socket_ids_valid"
   ],
   "note": ""
  },
  {
   "property": "C42",
   "status": "proved",
   "theorems": [
    "answer_from_server",
    "strangers_have_no_influence",
    "gives_up",
    "requests_bounded",
    "waits_bounded",
    "strangers_postpone_timeout",
    "stranger_cuts_answer",
    "stranger_ends_encrypted"
   ],
   "note": ""
  },
  {
   "property": "C55",
   "status": "proved",
   "theorems": [
    "turns_are_phases",
    "busy_single_download",
    "busy_multi_download",
    "busy_single_upload",
    "busy_multi_upload",
    "connection_serves_request_single",
    "connection_serves_request_multi"
   ],
   "note": "Safety of the composed system; non-vacuity by executed runs in WorldCases.v."
  },
  {
   "property": "C56",
   "status": "proved",
   "theorems": [
    "download_gives_up",
    "upload_gives_up",
    "download_fails_only",
    "download_fails_on",
    "upload_fails_only",
    "upload_fails_on",
    "download_postponed",
    "upload_postponed"
   ],
   "note": ""
  },
  {
   "property": "C57",
   "status": "proved",
   "theorems": [
    "served_inside",
    "file_served",
    "listing_served",
    "asked_once",
    "accepted_inside",
    "connection_serves_request_single",
    "connection_serves_request_multi"
   ],
   "note": "Examples empty_directory, empty_list_name: corner cases of the configuration."
  },
  {
   "property": "C58",
   "status": "proved",
   "theorems": [
    "upload_target",
    "upload_harmless",
    "upload_stays_inside",
    "upload_accepted",
    "upload_existing",
    "server_files_safe",
    "accepted_inside"
   ],
   "note": "Example link_outside: with a link in the served directory that leads out of it a refused upload leaves an empty file outside. The file system does not change between the steps of one request (other programs are not modelled)."
  },
  {
   "property": "C59",
   "status": "proved",
   "theorems": [
    "refused_peer_told",
    "unauthorised_silence",
    "only_requests_answered"
   ],
   "note": "The complaints about file size and name are sent in clear even if the request was sealed and error_to_authorized_only is set (example refused_cases); with a key list only authorised peers get that far."
  },
  {
   "property": "C60",
   "status": "proved",
   "theorems": [
    "interval_bounded",
    "retransmits_in_time",
    "retransmits_before_giving_up",
    "slow_handshake_no_retransmission",
    "release_never_panics",
    "debug_build_agrees",
    "loop_send_is_send",
    "loop_recv_is_recv",
    "loop_is_upload_history",
    "no_early_retransmission",
    "losses_delay_retransmission"
   ],
   "note": "f32 is the bit-precise IEEE binary32 of Coq's SpecFloat; the proofs go through Flocq and the standard library's axioms of real numbers. M ranges over 2^(j-9) seconds, j <= 33. The clock is read once per half turn. loop_send_is_send and loop_recv_is_recv identify the loop with the sender of the transfer theorems. Examples: the expectations of the unit tests of flow_control.rs, a 128 s interval after a lossy period, a bogus sample from an acknowledgement of block number 0, the panic after 4 GiB in debug builds."
  },
  {
   "property": "C61",
   "status": "proved",
   "theorems": [
    "private_key_source",
    "private_key_round_trip",
    "name_taken_for_key",
    "empty_is_zero_key"
   ],
   "note": "Examples show /etc/key taken for a key."
  },
  {
   "property": "C62",
   "status": "proved",
   "theorems": [
    "server_arguments",
    "bad_key_list_no_start",
    "key_list_locks_server",
    "key_list_without_own_key"
   ],
   "note": "clap's syntax is not modelled: a record of arguments is what it hands over."
  },
  {
   "property": "C63",
   "status": "proved",
   "theorems": [
    "client_arguments",
    "bad_key_no_start",
    "endpoint_without_port",
    "default_level_not_served",
    "started_programs_fit",
    "client_local_address"
   ],
   "note": ""
  },
  {
   "property": "C64",
   "status": "proved",
   "theorems": [
    "file_name_iff",
    "names_not_given",
    "names_given",
    "default_remote_name_kept"
   ],
   "note": ""
  },
  {
   "property": "C65",
   "status": "proved",
   "theorems": [
    "on_close_uploads",
    "on_create_uploads",
    "complete_when_closed",
    "remote_names_differ",
    "synced_name_kept"
   ],
   "note": "Names that are not valid UTF-8 are excluded (their text is changed before the file is opened). Together with C38 for the reader and C64 names_given for the upload itself."
  },
  {
   "property": "C66",
   "status": "proved",
   "theorems": [
    "pooled_readers_isolated",
    "pools_never_panic",
    "pools_within_limits",
    "pools_empty_when_idle",
    "reader_always_available",
    "reader_refused_iff",
    "pooled_admission",
    "beyond_table_dropped",
    "stack_buffers_same"
   ],
   "note": "heapless maps are modelled from their documentation (source not in the repository). pooled_readers_isolated for a limit of at most 128 connections (what the command line allows); beyond_table_dropped says what happens above. The overrun of the sixteen buffers with larger windows: stack_buffers_overrun."
  },
  {
   "property": "C67",
   "status": "proved",
   "theorems": [
    "shared_download",
    "download_opens",
    "shared_upload",
    "exclusive_files",
    "exclusive_upload",
    "disk_changes",
    "mixture",
    "same_uploads"
   ],
   "note": "One file system (FsModel) under either server; every handle has its own position, as std::fs::File. Openings, reads and writes are atomic with respect to the phase of the server they happen in. Hypotheses met in DiskCases (shared_download_case, shared_upload_case, same_uploads_case); uploads_mix and shortened_file show what goes wrong without them."
  },
  {
   "property": "C68",
   "status": "proved",
   "theorems": [
    "no_lost_wakeup",
    "never_sleeps_on_data",
    "heard_in_time"
   ],
   "note": "The system's part is epoll with one-shot notification as the crate polling uses it (FIFO ready list, a wait takes at most as many as fit into the event list). Failures of add_interest and modify_interest, which the code only logs, are not modelled (such a connection would be deaf). Hypotheses met in PollCases (heard_in_time_case, wake_up_case); stale_ids_are_kept: the set of readable ids never forgets removed connections."
  },
  {
   "property": "C69",
   "status": "proved",
   "theorems": [
    "single_download_progress",
    "multi_download_progress",
    "single_upload_progress",
    "multi_upload_progress",
    "single_download_resends",
    "multi_download_resends"
   ],
   "note": "The worlds of C55 (dexchanges and uexchanges of ProgressModel contain any steps of these worlds and count exchanges). For an upload the client's resending of the oldest block is C16 and C40. The window must not exceed 10000 or the file 55535 blocks (the block number mapper). Cases in ProgressCases: complete runs with the maximal 2n - 1 exchanges on both servers in both directions, a connection passed over once with two downloads."
  },
  {
   "property": "C70",
   "status": "proved",
   "theorems": [
    "stored_file",
    "served_file",
    "store_and_retrieve",
    "store_and_retrieve_exclusive"
   ],
   "note": "On the disk of C67. The file system keeps what was written to it through a restart (no write cache). The window must not exceed 10000 or the file 55535 blocks (the block number mapper). A name configured as that of the directory listing is excluded. Case in StoreCases: upload, restart, refused upload of the same name, download under another spelling of the path. With an encryption key the uploaded bytes are the encrypted stream, which C34 turns back into the file."
  },
  {
   "property": "C71",
   "status": "proved",
   "theorems": [
    "receive_is_local",
    "send_is_local",
    "receive_reports_size",
    "oversized_answer_empties_local_file"
   ],
   "note": "On RunModel, the two client functions as a whole with the client's file system. That send changes no file is by construction of the model (send_turn only reads). An answer that already contains data (a server without options, C25/C27) is outside receive_reports_size: the code then reports 4 bytes too many. Nothing is assumed about packets, the server or the order of events."
  },
  {
   "property": "C72",
   "status": "proved",
   "theorems": [
    "received_file",
    "sent_file",
    "sent_then_received"
   ],
   "note": "Composition of C70 with the client runs of RunModel. The wait for the answer is ended by the server's one answer (agrees: it is accepted and confirmed); how the request and the answer can get lost or be attacked is C42, C46, C51. The window must not exceed 10000 or the file 55535 blocks. Case in RunCases: send of a file of 600 bytes, restart, receive under another spelling over an older local file. The server may answer from a port of its own or (the default) from the one the command was given; then requests the command repeats may reach the new connection, which is assumed to leave them aside (proved by repeated_request_ignored unless whole packets are encrypted)."
  },
  {
   "property": "C73",
   "status": "proved",
   "theorems": [
    "sent_encrypted",
    "received_decrypted",
    "sent_then_received_encrypted"
   ],
   "note": "The block size must be the same for both commands (C34 shows what happens otherwise). With prefer-seek the model has the failure at the first retransmission that encrypted_stream_reader.rs 90-95 causes. Same case as C72 with a key."
  },
  {
   "property": "C74",
   "status": "proved",
   "theorems": [
    "receive_ends",
    "receive_silence_ends",
    "send_silence_ends",
    "acknowledging_nothing_holds_send"
   ],
   "note": "On RunModel. Time is the time at which a turn looks at its clock; that a flood of datagrams does not keep the socket from ever reporting WouldBlock is an assumption (woken): the code looks at its timeout only then. 471 is the smallest number of bytes in a block that is not the last one (512 less the encryption overhead). The last theorem is about a send of an unencrypted local file."
  },
  {
   "property": "C75",
   "status": "proved",
   "theorems": [
    "attacked_single_download",
    "attacked_multi_download",
    "attacked_single_upload",
    "attacked_multi_upload",
    "data_level_renumbering",
    "data_level_acks_in_clear",
    "replay_after_wrap"
   ],
   "note": "AttackModel extends the worlds of WorldModel by the attacker's deliveries; the strength of the cipher is the definition `origin` (an idealised AEAD: an opened plaintext was sealed in the session), not an axiom. The attacker joins after the handshake (the handshake's own guarantees are C31, C34, C35); what is left over from it must not open to data or acknowledgements on either side. Concrete attacked runs: AttackCases.v."
  },
  {
   "property": "C76",
   "status": "proved",
   "theorems": [
    "alloc_key_files_same",
    "stack_lines_correct",
    "stack_keys_spec",
    "stack_lookup_spec",
    "stack_hosts_file_spec",
    "stack_remembers",
    "stack_long_endpoint_never_known"
   ],
   "note": "The heapless string and vector are modelled by their capacities (push_str and push refuse what does not fit). Reading errors of the disk are outside (a line with an error is skipped; C35)."
  },
  {
   "property": "C77",
   "status": "proved",
   "theorems": [
    "receive_goes_well_single",
    "receive_goes_well_multi",
    "send_goes_well_single",
    "send_goes_well_multi",
    "repeated_request_ignored"
   ],
   "note": "If the server answers from the port the command was given (the default of both programs), a repeated request may reach the connection, and is assumed to be left aside; this is repeated_request_ignored unless whole packets are encrypted, and then it means that the request does not authenticate under the session key. The request has been granted (what is granted: C12, C21, C51) and at most 55535 blocks or a window of at most 10000 (C03). Files encrypted by the client itself (--encryption-key) are outside this property (C73). What the server stores is the record of its writes (WorldModel.keep); that these end up in the file is C70 and C72."
  },
  {
   "property": "C78",
   "status": "proved",
   "theorems": [
    "receive_command_single",
    "receive_command_multi",
    "send_command_single",
    "send_command_multi",
    "keyless_programs_fit"
   ],
   "note": "Composition of C62/C63 (command lines), C57/C58 (files), C51 (handshake) and C77 (transfer). Uploads that are answered with a plain acknowledgement (empty file, no options) are included. The datagram of the request reaches the server unshortened and (if in the clear) is not by accident a sealed packet (proved when no keys are given). Repeated requests from the same port are left aside as in C77. Encrypted local files (--encryption-key) are C73. Cases in WholeCases: default command lines, receive and send; an empty file sent without any option."
  },
  {
   "property": "C79",
   "status": "proved",
   "theorems": [
    "receive_arrives_single",
    "receive_arrives_multi",
    "send_arrives_single",
    "send_arrives_multi"
   ],
   "note": "C78 with DiskModel in the place of each connection's own file contents. A turn of the server reads the files once at its beginning and writes at its end; other programs act between turns. The single threaded server has no other clients during the transfer. Encrypted local files (--encryption-key) are C73. Cases in ArriveCases: default command lines, receive and send, something happening meanwhile."
  },
  {
   "property": "C80",
   "status": "proved",
   "theorems": [
    "sent_then_fetched_multi",
    "sent_then_fetched_single"
   ],
   "note": "Composition of C79 for send, C70's notion of a later state, and C79 for receive. That the server may still open the file (permissions, name inside the served directory) is assumed of the later state; a name of the directory listing is excluded. Case in FetchCases: default command lines; the file is sent, the server is started again, another user fetches it."
  },
  {
   "property": "C81",
   "status": "proved",
   "theorems": [
    "sealed_restored_multi",
    "sealed_restored_single",
    "sealed_then_restored_multi",
    "sealed_then_restored_single"
   ],
   "note": "Composition of C34 (the encrypting reader and the decrypting writer), C79 and C70's notion of a later state. The file must have at most 455*(2^32-1) - 21 bytes (the block counter of the stream cipher), and the two transfers must agree on the same block size: with different ones the stored file does not decrypt. A sender that prefers seeking is included, because nothing is retransmitted. Case in SealedCases: the file is sent with a key, the server is started again, another user fetches it with the key and has the file back."
  },
  {
   "property": "C82",
   "status": "proved",
   "theorems": [
    "closed_file_uploaded",
    "synced_file_multi",
    "synced_file_single"
   ],
   "note": "Composition of C65 (the uploads sync starts and their names), C79 and C80. With start-on-create the upload begins before the file is complete (C65, C38); this mode is not composed here. Paths with components made of dots or white space are excluded (the server changes them, C36), as is the name of the listing. The case in MirrorCases: a directory with an earlier and a later event, the file new/g is closed and arrives on the server."
  },
  {
   "property": "C83",
   "status": "proved",
   "theorems": [
    "listing_fetched_multi",
    "listing_fetched_single",
    "listed_file_fetched_multi",
    "listed_file_fetched_single"
   ],
   "note": "Composition of C57 (what a listing is and which files are served) with C77-C79. No condition on what happens to the files while the listing is transferred: it is made when the request is taken. Listed names with components made of dots or white space, not in UTF-8, deeper than the depth limit, or equal to the listing name are listed but not served under their line; they are excluded from the last part. The case in ListingCases: a directory with a file and a sub-directory is listed, and the file can be fetched."
  },
  {
   "property": "C84",
   "status": "proved",
   "theorems": [
    "plain_request_taken",
    "plain_download_single",
    "plain_download_multi",
    "plain_upload_single",
    "plain_upload_multi"
   ],
   "note": "The client is described in RfcSpec.v from the RFC alone. Safety; the theorems speak about whatever the server has opened (C55-C57, C65 say which file that is). in_clear: the request is not by chance a datagram sealed with the server's key. The mode must be spelled octet in lower case: the server compares it case-sensitively, which RFC 1350 does not."
  },
  {
   "property": "C85",
   "status": "proved",
   "theorems": [
    "plain_fetch_goes_well_single",
    "plain_fetch_goes_well_multi",
    "plain_store_goes_well_single",
    "plain_store_goes_well_multi"
   ],
   "note": "goes_well has two halves: every sequence of turns stays within the bound and ends well or leaves both sides able to take a turn; and there is a sequence that ends well. On the single threaded server with other clients a turn may be spent on them, hence the idle server there (C84 covers the busy one for safety)."
  },
  {
   "property": "C86",
   "status": "proved",
   "theorems": [
    "plain_fetch_arrives_single",
    "plain_fetch_arrives_multi",
    "plain_store_arrives_single",
    "plain_store_arrives_multi"
   ],
   "note": "Composition of C84/C85 with the disk of C67 and C79 and the command line of C62. in_clear: the request is not by chance a datagram sealed with the server's key (always so for a server without a key). i_av i = av_all: the build with alloc, where readers are always available. A requested listing is C83. Cases in RfcDiskCases: the default command line; a file of six blocks is fetched under another spelling of its name, and one is stored in a new directory."
  },
  {
   "property": "C87",
   "status": "proved",
   "theorems": [
    "plain_download_recovers_single",
    "plain_download_recovers_multi",
    "plain_upload_recovers_single",
    "plain_upload_recovers_multi",
    "first_ack_not_repeated_single",
    "first_ack_not_repeated_multi"
   ],
   "note": "Each theorem speaks about an arbitrary state of the worlds of C84, so it covers every history of losses. resends: the connection sends this block whenever it is due (interval over, file readable, socket takes it); neglected (as in C69): consecutive turns in which the connection would be due and is passed over; without a due connection nothing is claimed about when turns happen. Uploads need the disk to take the block (e_io, e_short) and the socket the answer. first_ack_not_repeated: hears_only lets every other activity of the server happen; what is sent can only be the notice of the time limit. Cases in RfcLossCases: a lost acknowledgement in both directions on both servers, and a repeated request."
  }
 ]
}